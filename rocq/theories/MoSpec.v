(** Specification vocabulary for MO files: the GNU layout. *)
From Coq Require Import String Ascii List ZArith Bool.
From Verif Require Import Base Utf8Model StrModel PoFileModel PoFileSpec MoModel.
Import ListNotations.
Open Scope Z_scope.

(** The bytes [b] are in the file at an offset. *)
Definition at_offset (s : bytes) (off : Z) (b : bytes) : Prop :=
  exists p q, s = p ++ b ++ q /\ Z.of_nat (length p) = off.

(** Unsigned numbers in a byte order. *)
Definition u16 (be : bool) (n : Z) : bytes :=
  let l := [byte_of (n mod 256); byte_of (n / 256)] in if be then rev l else l.
Definition u32 (be : bool) (n : Z) : bytes :=
  let l := [byte_of (n mod 256); byte_of (n / 256 mod 256); byte_of (n / 65536 mod 256); byte_of (n / 16777216)] in
  if be then rev l else l.
Definition fits (n : Z) : Prop := 0 <= n < 4294967296.

(** Table row [i] holds length and offset. *)
Definition row_at (s : bytes) (be : bool) (table : Z) (i : nat) (len off : Z) : Prop :=
  fits len /\ fits off /\ at_offset s (table + 8 * Z.of_nat i) (u32 be len ++ u32 be off).

(** Magic number, versions, number of strings and the offsets of the tables. *)
Definition mo_head (s : bytes) (be : bool) (count ids strs : Z) : Prop :=
  fits count /\ fits ids /\ fits strs /\
  exists v w hs ho, In v [0; 1] /\ In w [0; 1] /\ fits hs /\ fits ho /\
    at_offset s 0 (u32 be 2500072158 ++ u16 be v ++ u16 be w ++ u32 be count ++ u32 be ids ++ u32 be strs ++
                   u32 be hs ++ u32 be ho).

(** The file holds these pairs of texts: the rows of the two tables point to
    them, and a NUL follows each. *)
Definition string_at (s : bytes) (be : bool) (table : Z) (i : nat) (t : bytes) : Prop :=
  exists off, row_at s be table i (Z.of_nat (length t)) off /\ at_offset s off (t ++ [NUL]).
Definition mo_texts (s : bytes) (be : bool) (l : list (bytes * bytes)) : Prop :=
  exists ids strs, mo_head s be (Z.of_nat (length l)) ids strs /\
    forall i e, nth_error l i = Some e -> string_at s be ids i (fst e) /\ string_at s be strs i (snd e).

(** ** Messages *)
Record mo_msg : Type := MoMsg {
  mm_ctx : option bytes; mm_id : bytes; mm_pl : option bytes; mm_strs : list bytes }.
Inductive mo_entry : Type := EHeader (kvs : list (bytes * bytes)) | EMsg (m : mo_msg).

Fixpoint nul_joined (l : list bytes) : bytes :=
  match l with [] => [] | [x] => x | x :: l' => x ++ NUL :: nul_joined l' end.
(** The byte between context and id: EOT, code 4 in ASCII. *)
Definition context_end : ascii := ascii_of_nat 4.
(** context EOT id NUL plural, forms separated by NUL *)
Definition entry_texts (e : mo_entry) (k v : bytes) : Prop :=
  match e with
  | EHeader kvs => k = [] /\ header_text kvs v
  | EMsg m =>
      k = match mm_ctx m with Some c => c ++ [context_end] | None => [] end ++ mm_id m ++
          match mm_pl m with Some p => NUL :: p | None => [] end /\
      v = nul_joined (mm_strs m)
  end.
(** what the format can express *)
Definition representable (m : mo_msg) : Prop :=
  mm_id m <> [] /\ ~ In NUL (mm_id m) /\
  match mm_ctx m with
  | Some c => ~ In context_end c
  | None => ~ In context_end (mm_id m) /\ match mm_pl m with Some p => ~ In context_end p | None => True end
  end /\
  match mm_pl m with
  | Some _ => mm_strs m <> [] /\ Forall (fun t => ~ In NUL t) (mm_strs m)
  | None => exists t, mm_strs m = [t]
  end.
Definition opt_text (o : option bytes) : bytes := match o with Some t => t | None => [] end.
Definition is_message (e : mo_msg) (m : message) : Prop :=
  m_ctx m = opt_text (mm_ctx e) /\ m_id m = mm_id e /\ m_pl m = opt_text (mm_pl e) /\
  m_com m = Some (Com [] [] [] [] [] []) /\
  map fst (m_str m) = map Z.of_nat (seq 0 (length (mm_strs e))) /\ map snd (m_str m) = mm_strs e.
Definition msgs_of (l : list mo_entry) : list mo_msg :=
  flat_map (fun e => match e with EMsg m => [m] | EHeader _ => [] end) l.
Definition hdrs_of (l : list mo_entry) : list (list (bytes * bytes)) :=
  flat_map (fun e => match e with EMsg _ => [] | EHeader kvs => [kvs] end) l.
Definition mo_key (m : mo_msg) : bytes * bytes := (opt_text (mm_ctx m), mm_id m).

(** An MO file for these entries. *)
Definition mo_file (s : bytes) (be : bool) (l : list mo_entry) : Prop :=
  exists ts, mo_texts s be ts /\ Forall2 (fun e t => entry_texts e (fst t) (snd t)) l ts /\
    Forall representable (msgs_of l).

(** ** What is read from any file *)
(** [t] has length [len], begins with what the file has at [off] and is filled
    with NUL if the file ends before. *)
Definition text_read (s : bytes) (len off : Z) (t : bytes) : Prop :=
  off < Z.of_nat (length s) /\ Z.of_nat (length t) = len /\
  exists a n, t = a ++ repeat NUL n /\ at_offset s off a /\
    (n <> O -> Z.of_nat (length s) = off + Z.of_nat (length a)).
Definition infix (t s : bytes) : Prop := exists p q, s = p ++ t ++ q.
(** all texts of a message *)
Definition from_texts (P : bytes -> Prop) (m : message) : Prop :=
  P (m_ctx m) /\ P (m_id m) /\ P (m_pl m) /\ Forall (fun e => P (snd e)) (m_str m).
