(** JSON text (RFC 8259) as a grammar: which texts stand for which values. *)
From Coq Require Import String Ascii List ZArith Bool.
From Verif Require Import Base Utf8Model PoStrSpec JsonModel.
Import ListNotations.
Open Scope Z_scope.

(** ** Strings *)
(** hexadecimal digits and their values; four of them *)
Definition hex_digits : list (ascii * Z) :=
  [("0"%char, 0); ("1"%char, 1); ("2"%char, 2); ("3"%char, 3); ("4"%char, 4); ("5"%char, 5); ("6"%char, 6); ("7"%char, 7);
   ("8"%char, 8); ("9"%char, 9); ("a"%char, 10); ("b"%char, 11); ("c"%char, 12); ("d"%char, 13); ("e"%char, 14); ("f"%char, 15);
   ("A"%char, 10); ("B"%char, 11); ("C"%char, 12); ("D"%char, 13); ("E"%char, 14); ("F"%char, 15)].
Inductive hex4 : bytes -> Z -> Prop :=
| hex4_intro : forall a b c d w x y z, In (a, w) hex_digits -> In (b, x) hex_digits -> In (c, y) hex_digits -> In (d, z) hex_digits ->
    hex4 [a; b; c; d] (4096 * w + 256 * x + 16 * y + z).
Definition json_escapes : list (ascii * Z) :=
  [(QUOTE, 34); (BSLASH, 92); ("/"%char, 47); ("b"%char, 8); ("f"%char, 12); ("n"%char, 10); ("r"%char, 13); ("t"%char, 9)].
(** UTF-16 *)
Definition high (x : Z) : Prop := 55296 <= x <= 56319.
Definition low (x : Z) : Prop := 56320 <= x <= 57343.

(** One piece of a string and the text it stands for. *)
Inductive piece : bytes -> bytes -> Prop :=
| pc_char : forall r, scalar r = true -> 32 <= r -> r <> 34 -> r <> 92 -> piece (encode_rune r) (encode_rune r)
| pc_escape : forall e z, In (e, z) json_escapes -> piece [BSLASH; e] [byte_of z]
| pc_code : forall h x, hex4 h x -> ~ high x -> ~ low x -> piece (bs "\u" ++ h) (encode_rune x)
| pc_pair : forall h x k y, hex4 h x -> high x -> hex4 k y -> low y ->
    piece (bs "\u" ++ h ++ bs "\u" ++ k) (encode_rune (65536 + (x - 55296) * 1024 + (y - 56320))).
(** What no piece begins with: a byte that begins no UTF-8 sequence, half of a
    surrogate pair. *)
Definition bad_byte (c : ascii) (s : bytes) : Prop :=
  128 <= bval c /\ forall r t, scalar r = true -> c :: s <> encode_rune r ++ t.
Definition lone_half (x : Z) (s : bytes) : Prop :=
  low x \/ high x /\ forall k y t, hex4 k y -> low y -> s <> bs "\u" ++ k ++ t.

(** The text between the quotes and its value, strictly and as Go reads it:
    what is damaged stands for U+FFFD. *)
Inductive strict : bytes -> bytes -> Prop :=
| st_nil : strict [] []
| st_piece : forall p v s w, piece p v -> strict s w -> strict (p ++ s) (v ++ w).
Inductive lenient : bytes -> bytes -> Prop :=
| le_nil : lenient [] []
| le_piece : forall p v s w, piece p v -> lenient s w -> lenient (p ++ s) (v ++ w)
| le_byte : forall c s w, bad_byte c s -> lenient s w -> lenient (c :: s) (encode_rune 65533 ++ w)
| le_half : forall h x s w, hex4 h x -> lone_half x s -> lenient s w -> lenient (bs "\u" ++ h ++ s) (encode_rune 65533 ++ w).

(** ** Numbers *)
Definition digit (c : ascii) : Prop := In c (bs "0123456789").
Definition digits (s : bytes) : Prop := s <> [] /\ Forall digit s.
Inductive number_text : bytes -> Prop :=
| nt_intro : forall m i f e,
    m = [] \/ m = bs "-" ->
    digits i -> (forall t, i = ("0"%char :: t) -> t = []) ->
    f = [] \/ (exists d, f = "."%char :: d /\ digits d) ->
    e = [] \/ (exists x g d, e = x :: g ++ d /\ (x = "e"%char \/ x = "E"%char) /\ (g = [] \/ g = bs "+" \/ g = bs "-") /\ digits d) ->
    number_text (m ++ i ++ f ++ e).

(** ** Values *)
Definition white (s : bytes) : Prop := Forall (fun c => In c [SP; TAB; LF; CR]) s.
Section Grammar.
  (** string bodies and their values *)
  Variable body : bytes -> bytes -> Prop.
  Inductive jtext : json -> bytes -> Prop :=
  | jt_null : jtext JNull (bs "null")
  | jt_true : jtext (JBool true) (bs "true")
  | jt_false : jtext (JBool false) (bs "false")
  | jt_num : forall n, number_text n -> jtext (JNum n) n
  | jt_str : forall s v, body s v -> jtext (JStr v) (QUOTE :: s ++ [QUOTE])
  | jt_arr0 : forall w, white w -> jtext (JArr []) ("["%char :: w ++ bs "]")
  | jt_arr : forall l s, elements l s -> jtext (JArr l) ("["%char :: s ++ bs "]")
  | jt_obj0 : forall w, white w -> jtext (JObj []) ("{"%char :: w ++ bs "}")
  | jt_obj : forall l s, members l s -> jtext (JObj l) ("{"%char :: s ++ bs "}")
  with elements : list json -> bytes -> Prop :=
  | el_one : forall w v s w', white w -> jtext v s -> white w' -> elements [v] (w ++ s ++ w')
  | el_cons : forall w v s w' l t, white w -> jtext v s -> white w' -> elements l t ->
      elements (v :: l) (w ++ s ++ w' ++ ","%char :: t)
  with members : list (bytes * json) -> bytes -> Prop :=
  | me_one : forall w k kv w1 w2 v s w3, white w -> body k kv -> white w1 -> white w2 -> jtext v s -> white w3 ->
      members [(kv, v)] (w ++ QUOTE :: k ++ QUOTE :: w1 ++ ":"%char :: w2 ++ s ++ w3)
  | me_cons : forall w k kv w1 w2 v s w3 l t, white w -> body k kv -> white w1 -> white w2 -> jtext v s -> white w3 -> members l t ->
      members ((kv, v) :: l) (w ++ QUOTE :: k ++ QUOTE :: w1 ++ ":"%char :: w2 ++ s ++ w3 ++ ","%char :: t).
  Inductive document : json -> bytes -> Prop :=
  | doc : forall w v s w', white w -> jtext v s -> white w' -> document v (w ++ s ++ w').
End Grammar.
Scheme jtext_mut := Induction for jtext Sort Prop
  with elements_mut := Induction for elements Sort Prop
  with members_mut := Induction for members Sort Prop.
Combined Scheme jtext_mutual from jtext_mut, elements_mut, members_mut.

(** Arrays and objects nested at most [n] deep. *)
Inductive within : nat -> json -> Prop :=
| wi_null : forall n, within n JNull
| wi_bool : forall n b, within n (JBool b)
| wi_num : forall n x, within n (JNum x)
| wi_str : forall n x, within n (JStr x)
| wi_arr : forall n l, (forall v, In v l -> within n v) -> within (S n) (JArr l)
| wi_obj : forall n l, (forall k v, In (k, v) l -> within n v) -> within (S n) (JObj l).
(** the limit of encoding/json *)
Definition shallow (v : json) : Prop := within (Z.to_nat 10000) v.

(** The value with every text made UTF-8. *)
Fixpoint clean (v : json) : json :=
  match v with
  | JStr s => JStr (sanitized s)
  | JArr l => JArr (map clean l)
  | JObj l => JObj (map (fun kv => (sanitized (fst kv), clean (snd kv))) l)
  | _ => v
  end.
(** all texts of a value *)
Inductive all_utf8 : json -> Prop :=
| au_null : all_utf8 JNull
| au_bool : forall b, all_utf8 (JBool b)
| au_num : forall n, all_utf8 (JNum n)
| au_str : forall s, valid_utf8 s -> all_utf8 (JStr s)
| au_arr : forall l, Forall all_utf8 l -> all_utf8 (JArr l)
| au_obj : forall l, Forall (fun kv => valid_utf8 (fst kv)) l -> Forall (fun kv => all_utf8 (snd kv)) l -> all_utf8 (JObj l).

(** ** The layout of written files *)
(** Characters that could end a script or a line when the text is put into a
    page are written as codes, as are control characters without a letter of
    their own. *)
Definition short_escapes : list (ascii * Z) :=
  [(QUOTE, 34); (BSLASH, 92); ("b"%char, 8); ("f"%char, 12); ("n"%char, 10); ("r"%char, 13); ("t"%char, 9)].
Definition coded (x : Z) : Prop := In x [38; 60; 62; 8232; 8233] \/ 0 <= x < 32 /\ ~ In x (map snd short_escapes).
Inductive neat_piece : bytes -> bytes -> Prop :=
| np_char : forall r, scalar r = true -> ~ coded r -> ~ In r (map snd short_escapes) -> neat_piece (encode_rune r) (encode_rune r)
| np_escape : forall e z, In (e, z) short_escapes -> neat_piece [BSLASH; e] [byte_of z]
| np_code : forall h x, hex4 h x -> Forall (fun c => ~ In c (bs "ABCDEF")) h -> coded x \/ x = 65533 -> neat_piece (bs "\u" ++ h) (encode_rune x).
Inductive neat : bytes -> bytes -> Prop :=
| ne_nil : neat [] []
| ne_piece : forall p v s w, neat_piece p v -> neat s w -> neat (p ++ s) (v ++ w).
(** the next line, two spaces for each level *)
Definition next_line (d : nat) : bytes := LF :: repeat SP (2 * d).
(** a value inside [d] levels *)
Inductive laid : nat -> json -> bytes -> Prop :=
| la_null : forall d, laid d JNull (bs "null")
| la_true : forall d, laid d (JBool true) (bs "true")
| la_false : forall d, laid d (JBool false) (bs "false")
| la_num : forall d n, number_text n -> laid d (JNum n) n
| la_str : forall d s v, neat s v -> laid d (JStr v) (QUOTE :: s ++ [QUOTE])
| la_arr0 : forall d, laid d (JArr []) (bs "[]")
| la_arr : forall d l s, laid_list (S d) l s -> laid d (JArr l) (bs "[" ++ next_line (S d) ++ s ++ next_line d ++ bs "]")
| la_obj0 : forall d, laid d (JObj []) (bs "{}")
| la_obj : forall d l s, laid_members (S d) l s -> laid d (JObj l) (bs "{" ++ next_line (S d) ++ s ++ next_line d ++ bs "}")
with laid_list : nat -> list json -> bytes -> Prop :=
| ll_one : forall d v s, laid d v s -> laid_list d [v] s
| ll_cons : forall d v s l t, laid d v s -> laid_list d l t -> laid_list d (v :: l) (s ++ bs "," ++ next_line d ++ t)
with laid_members : nat -> list (bytes * json) -> bytes -> Prop :=
| lm_one : forall d k kv v s, neat k kv -> laid d v s -> laid_members d [(kv, v)] (QUOTE :: k ++ QUOTE :: bs ": " ++ s)
| lm_cons : forall d k kv v s l t, neat k kv -> laid d v s -> laid_members d l t ->
    laid_members d ((kv, v) :: l) (QUOTE :: k ++ QUOTE :: bs ": " ++ s ++ bs "," ++ next_line d ++ t).
Scheme laid_mut := Induction for laid Sort Prop
  with laid_list_mut := Induction for laid_list Sort Prop
  with laid_members_mut := Induction for laid_members Sort Prop.
Combined Scheme laid_mutual from laid_mut, laid_list_mut, laid_members_mut.
