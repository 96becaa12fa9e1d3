(** Model of internal/cast: values of any Go type as numbers and times. *)
From Coq Require Import String Ascii List ZArith QArith Bool.
From Verif Require Import Base PopModel NumModel F64Model FltModel CalModel CldrModel HumModel.
Import ListNotations.
Open Scope Z_scope.

(** ** strconv.ParseFloat(s, 64) on every text (standard library, atof.go) *)

(** Digit of the base; None: not one. *)
Definition digit_of (hex : bool) (c : ascii) : option Z :=
  if is_digit c then Some (digit_val c)
  else if hex && ((97 <=? bval (lower c)) && (bval (lower c) <=? 102)) then Some (bval (lower c) - 87)
  else None.

(** The loop of readFloat over the mantissa: value, digits after the point,
    whether there was a digit, an underscore; what follows. *)
Fixpoint scan_mant (hex : bool) (s : bytes) (dot : bool) (m nf : Z) (saw und : bool)
    : Z * Z * bool * bool * bytes :=
  match s with
  | [] => (m, nf, saw, und, [])
  | c :: s' =>
      if (c =? "_")%char then scan_mant hex s' dot m nf saw true
      else if (c =? ".")%char then
        if dot then (m, nf, saw, und, s) else scan_mant hex s' true m nf saw und
      else
        match digit_of hex c with
        | Some d => scan_mant hex s' dot (m * (if hex then 16 else 10) + d) (if dot then nf + 1 else nf) true und
        | None => (m, nf, saw, und, s)
        end
  end.

(** Its loop over the exponent, which stops counting at 10000. *)
Fixpoint scan_exp (s : bytes) (e : Z) (und : bool) : Z * bool * bytes :=
  match s with
  | [] => (e, und, [])
  | c :: s' =>
      if (c =? "_")%char then scan_exp s' e true
      else if is_digit c then scan_exp s' (if e <? 10000 then e * 10 + digit_val c else e) und
      else (e, und, s)
  end.

(** underscoreOK (atoi.go): underscores stand between digits only, or between
    the prefix 0x and a digit; [last] is the class of the character before. *)
Inductive uclass : Type := UDigit | UUnder | UOther.
Fixpoint underscores (hex : bool) (s : bytes) (last : uclass) : bool :=
  match s with
  | [] => match last with UUnder => false | _ => true end
  | c :: s' =>
      match digit_of hex c with
      | Some _ => underscores hex s' UDigit
      | None =>
          if (c =? "_")%char then match last with UDigit => underscores hex s' UUnder | _ => false end
          else match last with UUnder => false | _ => underscores hex s' UOther end
      end
  end.

(** The value with its sign; None: out of range. *)
Definition signed (neg : bool) (r : option Q) : option fnum :=
  match r with
  | Some q => Some (FFin (if neg then Qopp q else q))
  | None => None
  end.
Definition float_value (hex neg : bool) (m nf e : Z) : option fnum :=
  let (b, x) := if hex then (2, e - 4 * nf) else (10, e - nf) in
  signed neg (if 0 <=? x then f64_round (m * b ^ x) 1 else f64_round m (b ^ (- x))).

Definition has_hex (s : bytes) : bool :=
  match s with
  | c :: d :: _ => (c =? "0")%char && (lower d =? "x")%char
  | _ => false
  end.

(** readFloat and what ParseFloat makes of it: the nearest float64; an error
    for a text that is not a number, for text after it, out of range.  The text
    has no prefix but 0x: a mantissa that begins with 0b or 0o ends after the
    0, and text follows. *)
Definition parse_number (s : bytes) : option fnum :=
  let (neg, s1) := take_sign s in
  let hex := has_hex s1 in
  let s2 := if hex then skipn 2 s1 else s1 in
  match scan_mant hex s2 false 0 0 false false with
  | (m, nf, saw, und, s3) =>
      if negb saw then None
      else
        match (match s3 with
               | c :: s4 =>
                   if (lower c =? (if hex then "p" else "e"))%char then
                     let (eneg, s5) := take_sign s4 in
                     match s5 with
                     | d :: _ =>
                         if is_digit d then
                           match scan_exp s5 0 und with
                           | (e, und', s6) => Some (if eneg then - e else e, und', s6)
                           end
                         else None
                     | [] => None
                     end
                   else if hex then None else Some (0, und, s3)
               | [] => if hex then None else Some (0, und, [])
               end) with
        | Some (e, und', []) =>
            if und' && negb (underscores hex s2 (if hex then UDigit else UOther)) then None
            else float_value hex neg m nf e
        | _ => None
        end
  end.

(** special: infinities with an optional sign, nan without. *)
Definition parse_special (s : bytes) : option fnum :=
  let (neg, s1) := take_sign s in
  if beq (to_lower s1) (bs "inf") || beq (to_lower s1) (bs "infinity") then Some (if neg then FNegInf else FPosInf)
  else if beq (to_lower s) (bs "nan") then Some FNan else None.

Definition parse_float_any (s : bytes) : option fnum :=
  match parse_special s with Some x => Some x | None => parse_number s end.

(** ** Values *)

(** A value of a Go program, as an [any].  Predeclared numeric types and strings;
    a pointer is nil or an address; of every other type (named types, booleans,
    structs ...) only what fmt prints for it with %d and %v matters. *)
Inductive gval : Type :=
| GNil                                    (* the nil interface *)
| GInt (k : ikind) (z : Z)
| GFloat (x : fnum)                       (* float64; float32 converted exactly *)
| GComplex (re im : fnum)
| GString (s : bytes)
| GTime (t : gotime)                      (* time.Time *)
| GDuration (ns : Z)                      (* time.Duration *)
| GPtr (a : option Z)
| GOther (pd pv : bytes).

(** What an address holds: a value, or a variable of interface type with a
    value in it. *)
Inductive cell : Type := CVal (v : gval) | CIface (v : gval).

Section Cast.
  Variable heap : Z -> cell.

  (** internal/cast/number.go:71-76, the loop *)
  Fixpoint deref (fuel : nat) (v : gval) : res gval :=
    match v with
    | GPtr (Some a) =>
        match fuel with
        | O => OutOfFuel
        | S fuel' =>
            match heap a with
            | CVal v' => deref fuel' v'
            | CIface v' => Ok v'
            end
        end
    | v => Ok v
    end.

  (** internal/cast/number.go:64-77 (Indirect); a nil interface is no pointer *)
  Definition indirect (fuel : nat) (a : gval) : res gval := deref fuel a.

  (** fmt.Sprintf with %d and %v for the values that reach it.  %d prints a
      named integer in decimal whatever methods it has, a nil pointer as 0; an
      address, a time and what %v prints are variables. *)
  Variable addr_d addr_v : Z -> bytes.
  Variable time_d time_v : gotime -> bytes.
  Variable dur_v : Z -> bytes.
  Definition sprint_d (v : gval) : bytes :=
    match v with
    | GDuration ns => itoa ns
    | GPtr None => bs "0"
    | GPtr (Some a) => addr_d a
    | GTime t => time_d t
    | GOther d _ => d
    | _ => []
    end.
  Definition sprint_v (v : gval) : bytes :=
    match v with
    | GDuration ns => dur_v ns
    | GPtr None => bs "<nil>"
    | GPtr (Some a) => addr_v a
    | GTime t => time_v t
    | GOther _ p => p
    | _ => []
    end.

  (** internal/cast/number.go:45-50, the case of a string *)
  Definition string_number (s : bytes) : res fnum :=
    match parse_float_any s with Some x => Ok x | None => Err end.

  (** internal/cast/number.go:10-58 (ToNumber) *)
  Definition cast_number (fuel : nat) (n : gval) : res fnum :=
    do n <- indirect fuel n;
    match n with
    | GNil => Err
    | GInt _ z => Ok (FFin (inject_Z (f64_of_int z)))
    | GFloat x => Ok x
    | GComplex re _ => Ok re
    | GString s => string_number s
    | v => match string_number (sprint_d v) with
           | Ok x => Ok x
           | _ => string_number (sprint_v v)
           end
    end.

  (** ** internal/cast/time.go *)
  Variable clock : gotime.            (* time.Now *)
  Variable local : Z -> Z * bytes.    (* time.Local *)

  (** Time.Add *)
  Definition add_dur (t : gotime) (d : Z) : gotime :=
    GT (t_unix t + (t_nsec t + d) / sec) ((t_nsec t + d) mod sec) (t_loc t).

  (** internal/cast/time.go:9-26 (ToTime) *)
  Definition cast_time (fuel : nat) (i : gval) : res gotime :=
    do i <- indirect fuel i;
    match i with
    | GNil => Err
    | GTime t => Ok t
    | GDuration d => Ok (add_dur clock d)
    | v => match cast_number fuel v with
           | Ok x => Ok (GT (num_int64 x) 0 local)
           | Err => Err
           | Panic => Panic
           | OutOfFuel => OutOfFuel
           end
    end.

  (** ** The callers *)

  (** humanize/date.go:124-178 (NaturalTime): the clock is read first ([now1]),
      then by ToTime; None is formatErrorMessage. *)
  Definition natural_time_of (fuel : nat) (now1 now2 : gotime) (i : gval) : res (option out) :=
    match cast_time fuel i with
    | Ok t => Ok (Some (natural_time now1 now2 t))
    | Err => Ok None
    | Panic => Panic
    | OutOfFuel => OutOfFuel
    end.
  (** humanize/date.go:289-359 and 371-379 (TimeSince, TimeUntil): the clock is
      read by ToTime and then, unless given, for the options ([now2]). *)
  Definition time_since_of (fuel : nat) (now2 : gotime) (i : gval) (opts : list time_opt) : res (option out) :=
    match cast_time fuel i with
    | Ok t => Ok (Some (time_since now2 t opts))
    | Err => Ok None
    | Panic => Panic
    | OutOfFuel => OutOfFuel
    end.
  Definition time_until_of (fuel : nat) (now2 : gotime) (i : gval) (opts : list time_opt) : res (option out) :=
    match cast_time fuel i with
    | Ok t => Ok (Some (time_until now2 t opts))
    | Err => Ok None
    | Panic => Panic
    | OutOfFuel => OutOfFuel
    end.

  (** catalog/poplural/rule.go:23-31 (Evaluate) *)
  Definition num_abs (x : fnum) : fnum :=
    match x with FFin q => FFin (Qabs.Qabs q) | FPosInf | FNegInf => FPosInf | FNan => FNan end.
  Definition round_to_even (x : fnum) : fnum :=
    match x with
    | FFin q => FFin (inject_Z (div_even (Qnum q) (Zpos (Qden q))))
    | x => x
    end.
  Definition pop_evaluate (fuel : nat) (r : rule) (a : gval) : res Z :=
    do x <- cast_number fuel a;
    Ok (r_form r (num_int64 (round_to_even (num_abs x)))).

  (** catalog/cldrplural/cldr.go:91-115 (NewOperands) for every value;
      [float_text] is what fmt prints for a float64 with %v (a float32 may print
      shorter, which is not represented). *)
  Variable float_text : fnum -> bytes.
  Definition operands_of (fuel : nat) (a : gval) : res ops :=
    do a <- indirect fuel a;
    match a with
    | GNil => Err
    | GString s => new_operands_string s
    | GInt Kint64 z | GInt Kint z => Ok (new_operands_int z)
    | GFloat x => new_operands_string (float_text x)
    | v => do x <- cast_number fuel v; new_operands_string (float_text x)
    end.
End Cast.
