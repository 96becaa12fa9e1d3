(** Model of the functions that build PO files: comment.go, message.go and
    file.go of /repo/catalog/po.  Pointers are values: a comment or reference
    shared by two messages is not modelled. *)
From Coq Require Import String Ascii List ZArith Bool.
From Verif Require Import Base Utf8Model StrModel PoStrModel PoFileModel.
Import ListNotations.
Open Scope Z_scope.

(** comment.go:16-22 (Reference.String) *)
Definition ref_string (r : reference) : bytes :=
  if 0 <? r_line r
  then r_path r ++ ":"%char :: itoa (r_line r) ++ ":"%char :: itoa (r_col r)
  else r_path r.

(** comment.go:44-52 (Comment.AddReference) *)
Definition add_reference (c : comment) (r : reference) : comment :=
  Com (cm_tr c) (cm_ex c)
      (match cm_refs c with
       | [] => [r]
       | rs => sort ref_cmp (rs ++ [r])
       end) (cm_flags c) (cm_pctx c) (cm_pid c).
(** comment.go:54-56 (Comment.HasFlag) *)
Definition has_flag (c : comment) (f : bytes) : bool := mem_bytes f (cm_flags c).
(** comment.go:58-64 (Comment.AddFlag) *)
Definition add_flag (c : comment) (f : bytes) : comment :=
  if has_flag c f then c
  else Com (cm_tr c) (cm_ex c) (cm_refs c) (sort bcmp (cm_flags c ++ [f])) (cm_pctx c) (cm_pid c).

(** message.go:25-31 (Message.AddReference) *)
Definition message_add_reference (m : message) (r : reference) : message :=
  let c := match m_com m with Some c => c | None => new_comment end in
  Msg (Some (add_reference c r)) (m_ctx m) (m_id m) (m_pl m) (m_str m).

(** file.go:62-67 (NewFile) *)
Definition new_file : pofile := PoFile new_header [].
(** file.go:71-81 (File.AddMessage) on a file *)
Definition file_add (f : pofile) (m : message) : pofile :=
  PoFile (f_header f) (add_message (f_messages f) m).

(** file.go:98-103 (File.String) *)
Definition file_string (h : option header) : bytes :=
  match h with
  | Some h => bs "po file " ++ nth 0 (h_known h) [] ++ bs " " ++ nth 6 (h_known h) []
  | None => bs "po file"
  end.

(** file.go:202-229 (PlaceholderHeader); [now] is the formatted time *)
Definition placeholder_header (now package holder bugs : bytes) : header :=
  Hdr (Some (Com (bs "SOME DESCRIPTIVE TITLE." ++ [LF] ++
                  bs "Copyright (C) YEAR " ++ holder ++ [LF] ++
                  bs "This file is distributed under the same license as the " ++ package ++ bs " package." ++ [LF] ++
                  bs "FIRST AUTHOR <EMAIL@ADDRESS>, YEAR." ++ [LF]) [] [] [bs "fuzzy"] [] []))
      [package; bugs; now; bs "YEAR-MO-DA HO:MI+ZONE"; bs "FULL NAME <EMAIL@ADDRESS>"; bs "LANGUAGE <LL@li.org>"; [];
       bs "1.0"; bs "text/plain; charset=UTF-8"; bs "8bit"; []; []] [].

(** encoder.go:16-26 (Marshal) and 73-85 (Encode) with a writer that does not
    fail; [None] is the nil file. *)
Definition marshal (f : option pofile) : res bytes :=
  match f with
  | None => Err
  | Some f => encode_file default_opts (Some (f_header f)) (f_messages f)
  end.
