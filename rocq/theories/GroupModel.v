(** Model of the main programs of the two rule generators: which language gets
    which rule. *)
From Coq Require Import String Ascii List ZArith Bool.
From Verif Require Import Base PopModel PoFileModel CldrModel GenModel.
Import ListNotations.
Open Scope Z_scope.

(** Languages with equal keys are collected under the first value met; the list
    is the order of the iteration over the map of languages
    (catalog/cldrplural/generator/main.go:33-46 and
    catalog/poplural/generator/json.go:25-41). *)
Section Group.
  Context {V : Type}.
  Variable key : V -> bytes.
  Fixpoint add_lang (k lang : bytes) (v : V) (acc : list (bytes * (list bytes * V))) : list (bytes * (list bytes * V)) :=
    match acc with
    | [] => [(k, ([lang], v))]
    | (k', (ls, v')) :: acc' =>
        if beq k k' then (k', (ls ++ [lang], v')) :: acc' else (k', (ls, v')) :: add_lang k lang v acc'
    end.
  Definition group (l : list (bytes * V)) : list (bytes * (list bytes * V)) :=
    fold_left (fun acc x => add_lang (key (snd x)) (fst x) (snd x) acc) l [].
End Group.

(** The labels of a case of the generated switch: the languages and what
    language.Parse makes of them ([canon]), each once, sorted
    (catalog/cldrplural/generator/main.go:103-119 and
    catalog/poplural/generator/main.go:69-85, CaseExpression). *)
Fixpoint once (l : list bytes) : list bytes :=
  match l with
  | [] => []
  | x :: l' => if existsb (beq x) l' then once l' else x :: once l'
  end.
Definition case_labels (canon : bytes -> bytes) (langs : list bytes) : list bytes :=
  sort bcmp (once (flat_map (fun l => if beq l (canon l) then [l] else [l; canon l]) langs)).

(** ** catalog/cldrplural/generator *)
Record data_set : Type := DS { ds_langs : list bytes; ds_rules : list (category * bytes) }.

(** catalog/cldrplural/generator/json.go:80-89 (hash); [sum] is SHA-256 in
    hexadecimal, of everything written. *)
Definition json_text (j : category -> bytes) : bytes := j Zero ++ j One ++ j Two ++ j Few ++ j Many ++ j Other.
Definition json_hash (sum : bytes -> bytes) (j : category -> bytes) : bytes := sum (json_text j).

(** catalog/cldrplural/generator/main.go:31-50; the sets before they are
    sorted. *)
Definition cldr_sets (sum : bytes -> bytes) (l : list (bytes * (category -> bytes))) : list data_set :=
  map (fun e => DS (sort bcmp (fst (snd e))) (to_data (snd (snd e)))) (group (json_hash sum) l).

(** catalog/cldrplural/generator/json.go:30-41 (Name); only ASCII letters are
    changed, the empty name (a panic) is not represented. *)
Definition upper (c : ascii) : ascii :=
  if (97 <=? bval c) && (bval c <=? 122) then byte_of (bval c - 32) else c.
Definition lang_name (l : bytes) : bytes :=
  map (fun c => if (c =? "-")%char then "_"%char else c)
    (filter (fun c => negb (c =? SP)%char) (match l with c :: l' => upper c :: l' | [] => [] end)).
Definition set_name (langs : list bytes) : bytes := concat (map lang_name langs).

(** catalog/cldrplural/generator/main.go:52-58, the comparison; less is
    [set_cmp a b < 0] *)
Definition set_cmp (a b : data_set) : Z :=
  or_cmp (zcmp (Z.of_nat (length (ds_rules a))) (Z.of_nat (length (ds_rules b))))
         (bcmp (set_name (ds_langs a)) (set_name (ds_langs b))).

(** catalog/cldrplural/generator/main.go:130-139 (codeTemplate), the generated switch: the set
    of a language *)
Definition cldr_lookup (canon : bytes -> bytes) (sets : list data_set) (s : bytes) : option data_set :=
  find (fun d => existsb (beq s) (case_labels canon (ds_langs d))) sets.

(** ** catalog/poplural/generator *)
Record pop_set : Type := PS { ps_langs : list bytes; ps_raw : bytes; ps_count : Z; ps_body : bytes; ps_key : bytes }.

(** catalog/poplural/generator/json.go:31 *)
Definition pop_text (v : bytes * Z) : bytes :=
  bs "nplurals=" ++ itoa (snd v) ++ bs "; plural=" ++ fst v ++ bs ";".

(** catalog/poplural/generator/json.go:31-40 (without the examples) and
    main.go:21-23 *)
Definition pop_set_of (langs : list bytes) (v : bytes * Z) : res pop_set :=
  do g <- gen_rule (pop_text v);
  match g with (body, k, _) => Ok (PS (sort bcmp langs) (pop_text v) (snd v) body k) end.
Fixpoint pop_sets_of (l : list (bytes * (list bytes * (bytes * Z)))) : res (list pop_set) :=
  match l with
  | [] => Ok []
  | (_, (langs, v)) :: l' => do s <- pop_set_of langs v; do r <- pop_sets_of l'; Ok (s :: r)
  end.
(** catalog/poplural/generator/extra.go:3-9 (getExtraRules) with newRuleData *)
Fixpoint extra_sets (l : list bytes) : res (list pop_set) :=
  match l with
  | [] => Ok []
  | raw :: l' =>
      do g <- gen_rule raw;
      do r <- extra_sets l';
      match g with (body, k, n) => Ok (PS [] raw n body k :: r) end
  end.
(** catalog/poplural/generator/json.go:17-49 (readJSONRules) and main.go:19,
    before sorting; [l] maps languages to formula and number of forms. *)
Definition pop_sets (l : list (bytes * (bytes * Z))) : res (list pop_set) :=
  do a <- pop_sets_of (group fst l);
  do b <- extra_sets extra_rules;
  Ok (a ++ b).

(** catalog/poplural/generator/main.go:91-123, the generated switches *)
Definition pop_lookup (canon : bytes -> bytes) (sets : list pop_set) (s : bytes) : option pop_set :=
  find (fun d => existsb (beq s) (case_labels canon (ps_langs d))) sets.
Definition pop_recognise (sets : list pop_set) (k : bytes) : option pop_set :=
  find (fun d => beq k (ps_key d)) sets.
