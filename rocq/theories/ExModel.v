(** Model of the examples the gettext generator writes into the generated test
    and of the order of the rules in its files. *)
From Coq Require Import String Ascii List ZArith Bool.
From Verif Require Import Base StrModel PoFileModel GroupModel.
Import ListNotations.
Open Scope Z_scope.

(** " …", a space and U+2026 in UTF-8
    (catalog/poplural/generator/json.go:98) *)
Definition omission : bytes := [SP; byte_of 226; byte_of 128; byte_of 166].

(** strconv.Atoi; checkError ends the program
    (catalog/poplural/generator/json.go:105-108, main.go:55-59) *)
Definition atoi (s : bytes) : res Z :=
  match parse_int s with PInt v => Ok v | _ => Err end.

(** catalog/poplural/generator/json.go:110-112; the counter is an int and
    becomes negative after the largest one. *)
Fixpoint count_up (fuel : nat) (i stop : Z) : res (list bytes) :=
  match fuel with
  | O => OutOfFuel
  | S f =>
      if i <=? stop then
        do r <- count_up f (if i =? maxInt64 then minInt64 else i + 1) stop;
        Ok (itoa i :: r)
      else Ok []
  end.

(** catalog/poplural/generator/json.go:94-118: the pieces between the commas;
    strings.ReplaceAll(example, "c", "e") changes every c. *)
Definition one_example (fuel : nat) (e : bytes) : res (list bytes) :=
  match split_on "~" e with
  | [a; b] => do i <- atoi a; do j <- atoi b; count_up fuel i j
  | _ => Ok [map (fun c => if (c =? "c")%char then "e"%char else c) e]
  end.
Fixpoint case_examples (fuel : nat) (l : list bytes) : res (list bytes) :=
  match l with
  | [] => Ok []
  | e :: l' =>
      if beq e omission then Ok []
      else
        do x <- one_example fuel (trim_space e);
        do r <- case_examples fuel l';
        Ok (x ++ r)
  end.

(** catalog/poplural/generator/json.go:121-126: the first case of that name *)
Fixpoint case_index (name : bytes) (cases : list bytes) : option nat :=
  match cases with
  | [] => None
  | c :: cases' => if beq c name then Some O else option_map S (case_index name cases')
  end.

(** catalog/poplural/generator/json.go:89-130 (extractExamples); [data] is the
    order of the iteration, the result is the assignments in the order in which
    they are made, of which the last one counts. *)
Fixpoint extract_examples (fuel : nat) (cases : list bytes) (data : list (bytes * bytes)) : res (list (nat * list bytes)) :=
  match data with
  | [] => Ok []
  | (name, t) :: data' =>
      do x <- case_examples fuel (split_on "," t);
      do r <- extract_examples fuel cases data';
      Ok (match case_index name cases with Some i => (i, x) :: r | None => r end)
  end.
Fixpoint examples_at (i : nat) (l : list (nat * list bytes)) : option (list bytes) :=
  match l with
  | [] => None
  | (j, x) :: l' =>
      match examples_at i l' with
      | Some y => Some y
      | None => if Nat.eqb i j then Some x else None
      end
  end.

(** catalog/poplural/generator/json.go:71-87 (Name); languages as in
    [lang_name]. *)
Definition pop_name (d : pop_set) : bytes :=
  match ps_langs d with [] => ps_key d | ls => set_name ls end.
(** catalog/poplural/generator/main.go:25-31, the comparison; less is
    [pop_cmp a b < 0] *)
Definition pop_cmp (a b : pop_set) : Z :=
  or_cmp (zcmp (ps_count a) (ps_count b)) (bcmp (pop_name a) (pop_name b)).
