(** Model of /repo/internal/mo/parser.go on the bytes of a file. *)
From Coq Require Import String Ascii List ZArith Bool.
From Verif Require Import Base StrModel PoStrModel PoFileModel.
Import ListNotations.
Open Scope Z_scope.

Definition EOT : ascii := "004"%char.

(** The data from an offset on (bytes.Reader after Seek; seeking behind the
    end is no error). *)
Fixpoint drop_z (s : bytes) (off : Z) : bytes :=
  match s with
  | [] => []
  | _ :: s' => if off <=? 0 then s else drop_z s' (off - 1)
  end.

(** parser.go:249-251: binary.Read of [n] bytes at position [pos] (io.ReadFull:
    fewer bytes are an error). *)
Definition read_full (s : bytes) (pos : Z) (n : nat) : res bytes :=
  let r := drop_z s pos in
  if Nat.ltb (length r) n then Err else Ok (firstn n r).

(** encoding/binary: ByteOrder.Uint16/Uint32 *)
Definition uint (be : bool) (b : bytes) : Z :=
  fold_left (fun acc c => acc * 256 + bval c) (if be then b else rev b) 0.

(** parser.go:81-98 (parseByteOrder): the number is read in little-endian
    order. *)
Definition magic_little : Z := 2500072158.
Definition magic_big : Z := 3725722773.
Definition byte_order (s : bytes) : res bool :=
  do b <- read_full s 0 4 ;
  if uint false b =? magic_little then Ok false
  else if uint false b =? magic_big then Ok true
  else Err.

(** parser.go:100-128 (parseHeader): count and the two table offsets; the hash
    table is not used. *)
Definition mo_header (s : bytes) (be : bool) : res (Z * Z * Z) :=
  do b <- read_full s 4 24 ;
  let major := uint be (slice 0 2 b) in
  let minor := uint be (slice 2 4 b) in
  if negb (major =? 0) && negb (major =? 1) then Err
  else if negb (minor =? 0) && negb (minor =? 1) then Err
  else Ok (uint be (slice 4 8 b), uint be (slice 8 12 b), uint be (slice 12 16 b)).

(** parser.go:130-166 (parseMessageData): one table of (length, offset).  The
    allocation of 131 is assumed to succeed. *)
Fixpoint read_table (s : bytes) (be : bool) (pos : Z) (count : nat) : res (list (Z * Z)) :=
  match count with
  | O => Ok []
  | S n =>
      do a <- read_full s pos 4 ;
      do b <- read_full s (pos + 4) 4 ;
      do t <- read_table s be (pos + 8) n ;
      Ok ((uint be a, uint be b) :: t)
  end.

(** parser.go:208-228 and 253-256: one Read into a zeroed buffer of [len]
    bytes; the number of bytes read is ignored, and reading at or behind the
    end is io.EOF, also for an empty buffer (standard library). *)
Definition read_text (s : bytes) (e : Z * Z) : res bytes :=
  let (len, off) := e in
  if Z.of_nat (length s) <=? off then Err
  else let r := firstn (Z.to_nat len) (drop_z s off) in
       Ok (r ++ repeat NUL (Z.to_nat len - length r)).

(** parser.go:230-247 (parseMessageHeader); msg.Str[0] is always set. *)
Fixpoint mo_header_lines (h : header) (ls : list bytes) : header :=
  match ls with
  | [] => h
  | l :: ls' =>
      match index_byte ":" l with
      | None => mo_header_lines h ls'
      | Some i => mo_header_lines (header_set h (trim_space (firstn i l)) (trim_space (skipn (S i) l))) ls'
      end
  end.

(** parser.go:177-202: the message of an id and its translation. *)
Fixpoint number_from (i : Z) (l : list bytes) : strmap :=
  match l with
  | [] => []
  | x :: l' => (i, x) :: number_from (i + 1) l'
  end.
Definition mo_message (id str : bytes) : message :=
  let (ctx, id) := match index_byte EOT id with
                   | Some i => (firstn i id, skipn (S i) id)
                   | None => ([], id)
                   end in
  match index_byte NUL id with
  | Some i => Msg (Some new_comment) ctx (firstn i id) (skipn (S i) id) (number_from 0 (split_on NUL str))
  | None => Msg (Some new_comment) ctx id [] [(0, str)]
  end.

(** parser.go:168-206 (parseMessages) *)
Definition mo_add (f : pofile) (id str : bytes) : pofile :=
  if is_nil id then PoFile (mo_header_lines new_header (split_on LF str)) (f_messages f)
  else PoFile (f_header f) (add_message (f_messages f) (mo_message id str)).
Fixpoint mo_messages (s : bytes) (f : pofile) (ids strs : list (Z * Z)) : res pofile :=
  match ids, strs with
  | i :: ids', t :: strs' =>
      do id <- read_text s i ;
      do str <- read_text s t ;
      mo_messages s (mo_add f id str) ids' strs'
  | _, _ => Ok f
  end.

(** parser.go:60-79 (parse), ParseBytes (45-47) *)
Definition parse_mo (s : bytes) : res pofile :=
  do be <- byte_order s ;
  do h <- mo_header s be ;
  let '(count, ido, stro) := h in
  do ids <- read_table s be ido (Z.to_nat count) ;
  do strs <- read_table s be stro (Z.to_nat count) ;
  mo_messages s (PoFile new_header []) ids strs.
