(** UTF-8 as in Go's unicode/utf8 (standard library; no file of /repo).  Bit
    operations are written as arithmetic on byte values. *)
From Coq Require Import String Ascii List ZArith Bool.
From Verif Require Import Base.
Import ListNotations.
Open Scope Z_scope.

Definition rune := Z.
Definition RuneError : rune := 65533.

Definition in_rng (lo hi z : Z) : bool := (lo <=? z) && (z <=? hi).
Definition cont (z : Z) : bool := in_rng 128 191 z.

(** utf8.DecodeRune / utf8.DecodeRuneInString: the rune and its width. *)
Definition decode_rune (s : bytes) : rune * nat :=
  match s with
  | [] => (RuneError, 0%nat)
  | c0 :: s1 =>
      let b0 := bval c0 in
      if b0 <? 128 then (b0, 1%nat)
      else if in_rng 194 223 b0 then
        match s1 with
        | c1 :: _ =>
            let b1 := bval c1 in
            if cont b1 then ((b0 - 192) * 64 + (b1 - 128), 2%nat) else (RuneError, 1%nat)
        | [] => (RuneError, 1%nat)
        end
      else if in_rng 224 239 b0 then
        match s1 with
        | c1 :: c2 :: _ =>
            let b1 := bval c1 in
            let b2 := bval c2 in
            let lo := if b0 =? 224 then 160 else 128 in
            let hi := if b0 =? 237 then 159 else 191 in
            if in_rng lo hi b1 && cont b2
            then ((b0 - 224) * 4096 + (b1 - 128) * 64 + (b2 - 128), 3%nat)
            else (RuneError, 1%nat)
        | _ => (RuneError, 1%nat)
        end
      else if in_rng 240 244 b0 then
        match s1 with
        | c1 :: c2 :: c3 :: _ =>
            let b1 := bval c1 in
            let b2 := bval c2 in
            let b3 := bval c3 in
            let lo := if b0 =? 240 then 144 else 128 in
            let hi := if b0 =? 244 then 143 else 191 in
            if in_rng lo hi b1 && cont b2 && cont b3
            then ((b0 - 240) * 262144 + (b1 - 128) * 4096 + (b2 - 128) * 64 + (b3 - 128), 4%nat)
            else (RuneError, 1%nat)
        | _ => (RuneError, 1%nat)
        end
      else (RuneError, 1%nat)
  end.

(** Unicode scalar values: the runes utf8.EncodeRune accepts as they are. *)
Definition scalar (r : rune) : bool :=
  in_rng 0 55295 r || in_rng 57344 1114111 r.

(** utf8.EncodeRune / utf8.AppendRune: invalid runes become RuneError. *)
Definition encode_rune (r0 : rune) : bytes :=
  let r := if scalar r0 then r0 else RuneError in
  if r <? 128 then [byte_of r]
  else if r <? 2048 then [byte_of (192 + r / 64); byte_of (128 + r mod 64)]
  else if r <? 65536 then
    [byte_of (224 + r / 4096); byte_of (128 + (r / 64) mod 64); byte_of (128 + r mod 64)]
  else
    [byte_of (240 + r / 262144); byte_of (128 + (r / 4096) mod 64);
     byte_of (128 + (r / 64) mod 64); byte_of (128 + r mod 64)].

(** Content of a buffer after writing runes with WriteRune. *)
Definition encode_all (rs : list rune) : bytes := concat (map encode_rune rs).

(** for _, r := range s.  The fuel [length s] always suffices (every step
    consumes at least one byte), so running out is unreachable. *)
Fixpoint runes_fuel (fuel : nat) (s : bytes) : list rune :=
  match fuel, s with
  | S f, _ :: _ =>
      let (r, w) := decode_rune s in r :: runes_fuel f (skipn w s)
  | _, _ => []
  end.
Definition runes (s : bytes) : list rune := runes_fuel (length s) s.

(** unicode.IsSpace. *)
Definition is_space (r : rune) : bool :=
  in_rng 9 13 r || (r =? 32) || (r =? 133) || (r =? 160) || (r =? 5760) ||
  in_rng 8192 8202 r || (r =? 8232) || (r =? 8233) || (r =? 8239) ||
  (r =? 8287) || (r =? 12288).
