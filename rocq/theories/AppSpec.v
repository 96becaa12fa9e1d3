(** Vocabulary for the way from a file to the text shown. *)
From Coq Require Import String Ascii List ZArith Bool.
From Verif Require Import Base Utf8Model LocaleModel BundleModel LoaderModel LoaderSpec PoFileModel PoFileSpec MoSpec
  MoAnySpec PoFieldSpec PoLineSpec PoHangSpec PoAnySpec PoHeadSpec GettextModel GettextSpec.
From Verif Require PoFormSpec.
Import ListNotations.

Section Spec.
  Variable tag E : Type.
  Variable parts : tag -> tag_parts.
  Variable clean : bytes -> bytes.
  Variable is_not_exist : E -> bool.
  Variable not_exist : E.
  Notation fs_loader := (fs_loader tag number E).
  Notation decoder := (decoder tag number E).
  Notation exists_in := (exists_in E).

  (** The file that the loader [l] is to use for language and domain: the
      first one that exists, in the order of the decoders [ds] and of their
      candidate paths.  It can be read and closed. *)
  Definition chosen (l : fs_loader) (r : resolver_config) (ds : list (bytes * decoder))
      (t : tag) (dom : bytes) (d : decoder) (s : bytes) : Prop :=
    l_resolver _ _ _ l = default_resolver tag E parts clean is_not_exist not_exist r /\
    l_decoders _ _ _ l = ds /\
    exists ds1 ext ds2 p fl, ds = ds1 ++ (ext, d) :: ds2 /\
      (forall ed p', In ed ds1 -> In p' (candidates tag parts clean r t dom (fst ed)) -> ~ exists_in (l_fsys _ _ _ l) p') /\
      first_of (exists_in (l_fsys _ _ _ l)) (candidates tag parts clean r t dom ext) p /\
      fs_open E (l_fsys _ _ _ l) p = inl fl /\ f_data E fl = s /\ f_err E fl = None /\ f_close E fl = None.

End Spec.

(** A file in one of the two formats with these messages and header fields. *)
Inductive holds (s : bytes) (ms : list message) (kvs : list (bytes * bytes)) : bool -> Prop :=
| h_po bl ls : layout bl ls -> text_of ls s -> messages_of bl = ms -> NoDup (map key ms) ->
    ms <> [] \/ headers_of bl <> [] ->
    (headers_of bl = [] /\ kvs = [] \/ exists is, headers_of bl = [(is, kvs)]) ->
    holds s ms kvs false
| h_any : any_po s ms kvs -> holds s ms kvs false
| h_every : PoFormSpec.every_po s ms kvs -> holds s ms kvs false
| h_mo be l : mo_file s be l -> NoDup (map mo_key (msgs_of l)) -> Forall2 is_message (msgs_of l) ms ->
    (hdrs_of l = [] /\ kvs = [] \/ exists hs, hdrs_of l = hs ++ [kvs]) ->
    holds s ms kvs true.

(** Fields are named in ASCII, unknown ones in one spelling. *)
Definition regular_fields (kvs : list (bytes * bytes)) : Prop :=
  Forall (fun e => ascii_text (fst e)) kvs /\ one_spelling (map fst kvs).
(** The two fields that choose the plural rule. *)
Definition plural_fields (kvs : list (bytes * bytes)) (forms flag : bytes) : Prop :=
  last_value kvs (bs "Plural-Forms") forms /\ last_value kvs (bs "X-spreak-use-CLDR") flag /\ ascii_text flag.

(** A file that its parser refuses: an MO file that is cut short or wrong, or a
    PO file with a line that is not understood, two entries of the same context
    and id, an entry that may be a header behind the header, or neither entry
    nor header.  The parser gets to the end of the PO file. *)
Definition ends (rs : list bytes) : Prop := ~ exists a l c, rs = a ++ l :: c /\ stops true a l.
Inductive refused (s : bytes) : bool -> Prop :=
| rf_mo : ~ mo_complete s -> refused s true
| rf_lines rs : reads_lines s rs -> ends rs -> ~ understood true Elsewhere rs -> refused s false
| rf_entries rs es ms : reads_lines s rs -> ends rs -> any_file true rs es -> file_says es ms -> ~ NoDup (map key ms) -> refused s false
| rf_headers rs es : reads_lines s rs -> ends rs -> PoFormSpec.entry_lines true rs es -> (forall o, ~ PoFormSpec.lines_head es o) -> refused s false
| rf_empty rs es : reads_lines s rs -> ends rs -> PoFormSpec.entry_lines true rs es -> PoFormSpec.lines_head es None -> PoFormSpec.lines_say es [] -> refused s false.
