(** Model of /repo/catalog/po/po_string.go and /repo/catalog/po/wrap.go. *)
From Coq Require Import String Ascii List ZArith Bool.
From Verif Require Import Base Utf8Model StrModel.
Import ListNotations.
Open Scope Z_scope.

(** ** Decoding *)

(** po_string.go:367-399: the byte written for an escape letter. *)
Definition unescape_char (e : ascii) : option ascii :=
  if Ascii.eqb e "a" then Some (byte_of 7)
  else if Ascii.eqb e QUOTE || Ascii.eqb e BSLASH || Ascii.eqb e "/" || Ascii.eqb e "'" then Some e
  else if Ascii.eqb e "b" then Some (byte_of 8)
  else if Ascii.eqb e "f" then Some (byte_of 12)
  else if Ascii.eqb e "n" then Some LF
  else if Ascii.eqb e "r" then Some CR
  else if Ascii.eqb e "t" then Some TAB
  else if Ascii.eqb e "v" then Some (byte_of 11)
  else None.

(** po_string.go:352-417: the copying loop on the unread rest s[r:].  The
    output buffer is the returned string; its growth (356-360) has no effect on
    the content.  The `break` of lines 363-365 leaves only the switch, so the
    loop continues with the same r. *)
Fixpoint unescape_loop (fuel : nat) (s : bytes) : res bytes :=
  match fuel with
  | O => OutOfFuel
  | S f =>
      match s with
      | [] => Ok []
      | c :: s1 =>
          if Ascii.eqb c BSLASH then
            match s1 with
            | [] => unescape_loop f s
            | e :: s2 =>
                match unescape_char e with
                | Some b => do t <- unescape_loop f s2 ; Ok (b :: t)
                | None => do t <- unescape_loop f s1 ; Ok (BSLASH :: t)
                end
            end
          else if bval c <? 128 then
            do t <- unescape_loop f s1 ; Ok (c :: t)
          else
            let (r, w) := decode_rune s in
            do t <- unescape_loop f (skipn w s) ; Ok (encode_rune r ++ t)
      end
  end.

(** po_string.go:330-345: the prefix that needs no unquoting, and the rest. *)
Fixpoint plain_prefix (fuel : nat) (s : bytes) : bytes * bytes :=
  match fuel, s with
  | S f, c :: s1 =>
      if Ascii.eqb c BSLASH || Ascii.eqb c QUOTE || (bval c <? 32) then ([], s)
      else if bval c <? 128 then
        let (p, q) := plain_prefix f s1 in (c :: p, q)
      else
        let (r, w) := decode_rune s in
        if (r =? RuneError) && Nat.eqb w 1 then ([], s)
        else let (p, q) := plain_prefix f (skipn w s) in (firstn w s ++ p, q)
  | _, _ => ([], s)
  end.

(** po_string.go:326-419 unescapePoBytes. *)
Definition unescape (fuel : nat) (s : bytes) : res bytes :=
  let (p, q) := plain_prefix (length s) s in
  match q with
  | [] => Ok s
  | _ => do t <- unescape_loop fuel q ; Ok (p ++ t)
  end.

(** po_string.go:21-32: one line. *)
Definition decode_line (fuel : nat) (line : bytes) : res bytes :=
  match index_byte QUOTE line, last_index_byte QUOTE line with
  | Some l, Some r =>
      if Nat.eqb l r then Ok [] else unescape fuel (slice (S l) r line)
  | _, _ => Ok []
  end.

Fixpoint decode_lines (fuel : nat) (ls : list bytes) : res (list bytes) :=
  match ls with
  | [] => Ok []
  | l :: ls' =>
      do v <- decode_line fuel l ; do vs <- decode_lines fuel ls' ; Ok (v :: vs)
  end.

(** po_string.go:15-34 DecodePoString; [fuel] bounds the unquoting loop. *)
Definition decode_po_fuel (fuel : nat) (text : bytes) : res bytes :=
  if beq text [QUOTE; QUOTE] then Ok []
  else do vs <- decode_lines fuel (split_on LF text) ; Ok (concat vs).

Definition decode_po (text : bytes) : res bytes := decode_po_fuel (S (length text)) text.

(** ** Encoding *)

(** po_string.go:162-259 safeSet. *)
Definition safe_set (c : ascii) : bool :=
  in_rng 32 127 (bval c) && negb (Ascii.eqb c QUOTE) && negb (Ascii.eqb c BSLASH).

(** po_string.go:278-299; None is the default case, where line 298 indexes the
    16-byte string hex with a byte value of at least 48 and panics. *)
Definition escape_char (c : ascii) : option ascii :=
  if Ascii.eqb c BSLASH || Ascii.eqb c QUOTE then Some c
  else if bval c =? 10 then Some "n"%char
  else if bval c =? 13 then Some "r"%char
  else if bval c =? 9 then Some "t"%char
  else if bval c =? 7 then Some "a"%char
  else if bval c =? 8 then Some "b"%char
  else if bval c =? 12 then Some "f"%char
  else if bval c =? 11 then Some "v"%char
  else None.

(** po_string.go:263-324 escapePoString; the copies of s[start:i] are emitted
    byte by byte.  The fuel [length s] suffices, every step consumes a byte. *)
Fixpoint escape_fuel (fuel : nat) (s : bytes) : res bytes :=
  match s with
  | [] => Ok []
  | c :: s1 =>
      match fuel with
      | O => OutOfFuel
      | S f =>
          if bval c <? 128 then
            if safe_set c then do t <- escape_fuel f s1 ; Ok (c :: t)
            else match escape_char c with
                 | Some e => do t <- escape_fuel f s1 ; Ok (BSLASH :: e :: t)
                 | None => Panic
                 end
          else
            let (r, w) := decode_rune s in
            if (r =? RuneError) && Nat.eqb w 1
            then do t <- escape_fuel f s1 ; Ok (bs "\ufffd" ++ t)
            else do t <- escape_fuel f (skipn w s) ; Ok (firstn w s ++ t)
      end
  end.
Definition escape (s : bytes) : res bytes := escape_fuel (length s) s.

(** A util.StringBuffer written with WriteRune only is its list of runes:
    String() is [encode_all], Len() the number of runes
    (/repo/internal/util/string_buffer.go:5-37). *)
Record wst := WSt {
  w_lines : list (list rune);   (* finished lines, oldest first *)
  w_line : list rune;           (* lineBuf *)
  w_word : list rune;           (* lastWordBuf *)
  w_space : list rune;          (* currentSpaceBuf *)
  w_len : Z                     (* currentLen *)
}.
Definition rlen (b : list rune) : Z := Z.of_nat (length b).

(** po_string.go:75-80 createNewLine; the escaping of the line is done at the
    end, in [render], because it is a function of the line alone. *)
Definition new_line (s : wst) : wst :=
  WSt (w_lines s ++ [w_line s]) [] (w_word s) (w_space s) 0.

(** lastWordBuf.WriteInto(lineBuf); currentSpaceBuf.WriteInto(lineBuf) *)
Definition flush (s : wst) : wst :=
  WSt (w_lines s) (w_line s ++ w_word s ++ w_space s) [] [] (w_len s).

Definition NL : rune := 10.
Definition nbsp : rune := 160.
Definition breaking (r : rune) : bool := is_space r && negb (r =? nbsp).

(** po_string.go:93 and 99: the same test before and after the space *)
Definition space_break (width : Z) (s : wst) : wst :=
  if (width <=? w_len s + rlen (w_word s) + rlen (w_space s) - 1) && (0 <? w_len s)
  then new_line s else s.

(** po_string.go:82-116: one rune of the text. *)
Definition wrap_step (width : Z) (s : wst) (r : rune) : wst :=
  if r =? NL then
    let s1 := flush s in
    new_line (WSt (w_lines s1) (w_line s1 ++ [NL]) (w_word s1) (w_space s1) (w_len s1))
  else
    let s0 := WSt (w_lines s) (w_line s) (w_word s) (w_space s) (rlen (w_line s)) in
    if breaking r then
      let s1 := space_break width s0 in
      space_break width (WSt (w_lines s1) (w_line s1) (w_word s1) (w_space s1 ++ [r]) (w_len s1))
    else
      let s2 :=
        if 0 <? rlen (w_space s0) then
          let s1 :=
            if (width <=? w_len s0 + rlen (w_word s0) + rlen (w_space s0) + 1) && (w_len s0 =? 0)
            then new_line (flush s0) else s0 in
          flush s1
        else s0 in
      WSt (w_lines s2) (w_line s2) (w_word s2 ++ [r]) (w_space s2) (w_len s2).

(** po_string.go:118-125: the remaining text becomes a last line unless it is
    empty and there are lines already. *)
Definition last_line (lines : list (list rune)) (rest : list rune) : list (list rune) :=
  match rest, lines with
  | [], _ :: _ => lines
  | _, _ => lines ++ [rest]
  end.

(** po_string.go:66-126 encodePoStringWithWrap, before escaping. *)
Definition wrap_runes (width : Z) (rs : list rune) : list (list rune) :=
  let s := flush (fold_left (wrap_step width) rs (WSt [] [] [] [] 0)) in
  last_line (w_lines s) (w_line s).

(** fmt.Sprintf(`"%s"`, escapePoString(...)), po_string.go:76 and 121. *)
Definition render (l : list rune) : res bytes :=
  do e <- escape (encode_all l) ; Ok (QUOTE :: e ++ [QUOTE]).
(** fmt.Sprintf(`"%s\n"`, escapePoString(...)), po_string.go:137. *)
Definition render_nl (l : list rune) : res bytes :=
  do e <- escape (encode_all l) ; Ok (QUOTE :: e ++ [BSLASH; "n"%char; QUOTE]).

Fixpoint render_all (ls : list (list rune)) : res (list bytes) :=
  match ls with
  | [] => Ok []
  | l :: ls' => do x <- render l ; do xs <- render_all ls' ; Ok (x :: xs)
  end.

(** po_string.go:128-152 encodePoStringWithoutWrap: [buf] is the buffer,
    [some] tells whether a line was produced already. *)
Fixpoint encode_nowrap (rs buf : list rune) (some : bool) : res (list bytes) :=
  match rs with
  | [] =>
      match buf with
      | [] => if some then Ok [] else do x <- render buf ; Ok [x]
      | _ => do x <- render buf ; Ok [x]
      end
  | r :: rs' =>
      if r =? NL then
        do x <- render_nl buf ; do xs <- encode_nowrap rs' [] true ; Ok (x :: xs)
      else encode_nowrap rs' (buf ++ [r]) some
  end.

Definition is_empty_line (l : bytes) : bool := beq l [] || beq l [QUOTE; QUOTE].

(** po_string.go:54-61 *)
Definition multi_line (lines : list bytes) : list bytes :=
  let l := [QUOTE; QUOTE] :: lines in
  if is_empty_line (last l []) then removelast l else l.

(** po_string.go:45-63 *)
Definition layout (lines : list bytes) : bytes :=
  match lines with
  | [x] => x
  | [x; y] => if is_empty_line y then x else join [LF] (multi_line lines)
  | _ => join [LF] (multi_line lines)
  end.

(** po_string.go:36-64 EncodePoString. *)
Definition encode_po (s : bytes) (lim : Z) : res bytes :=
  do lines <- (if lim <=? 0 then encode_nowrap (runes s) [] false
               else render_all (wrap_runes lim (runes s))) ;
  Ok (layout lines).

(** ** wrap.go:10-62 wrapString *)
Record cst := CSt {
  c_lines : list (list rune);
  c_line : list rune;    (* currentLine *)
  c_word : list rune;    (* currentWordBuf *)
  c_space : list rune    (* lastSpaceBuf *)
}.

(** lastSpaceBuf.WriteInto(currentLine); currentWordBuf.WriteInto(currentLine) *)
Definition cflush (s : cst) : cst :=
  CSt (c_lines s) (c_line s ++ c_space s ++ c_word s) [] [].
Definition is_nil {A} (l : list A) : bool := match l with [] => true | _ => false end.

(** wrap.go:21-53 *)
Definition cstep (width : Z) (s : cst) (r : rune) : cst :=
  if r =? NL then
    let s1 := if is_nil (c_word s) then CSt (c_lines s) (c_line s) (c_word s) [] else s in
    let s2 := cflush s1 in
    CSt (c_lines s2 ++ [c_line s2]) [] (c_word s2) (c_space s2)
  else if breaking r then
    let s1 := if is_nil (c_word s) then s else cflush s in
    CSt (c_lines s1) (c_line s1) (c_word s1) (c_space s1 ++ [r])
  else
    let s2 :=
      if width <=? rlen (c_line s) + rlen (c_space s) + rlen (c_word s) then
        let s1 := if is_nil (c_line s) then s
                  else CSt (c_lines s ++ [c_line s]) [] (c_word s) [] in
        if is_nil (c_space s1) then s1 else cflush s1
      else s in
    CSt (c_lines s2) (c_line s2) (c_word s2 ++ [r]) (c_space s2).

Definition wrap_words (width : Z) (rs : list rune) : list (list rune) :=
  let s := fold_left (cstep width) rs (CSt [] [] [] []) in
  let s' := if is_nil (c_word s) then s else cflush s in
  c_lines s' ++ [c_line s'].

Definition wrap_string (s : bytes) (width : Z) : list bytes :=
  if width <=? 0 then split_on LF s
  else map encode_all (wrap_words width (runes s)).
