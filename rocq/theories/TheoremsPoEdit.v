(** C67: building PO files. *)
From Coq Require Import String Ascii List ZArith Bool Lia ZifyBool Permutation.
From Verif Require Import Base BaseProofs Utf8Model StrModel PoStrModel PoStrSpec PoFileModel PoFileSpec PoMergeProofs
  PoExamples PoWriteSpec PoWriteProofs PoEditModel PoEditSpec PoEditProofs.
Import ListNotations.
Open Scope Z_scope.

(** ** Messages added one after another to a new file *)
(** One entry for every key with an id. *)
Theorem C67_keys : forall ms, let fs := f_messages (fold_left file_add ms new_file) in
  NoDup (map key fs) /\ forall k, In k (map key fs) <-> exists m, In m ms /\ m_id m <> [] /\ key m = k.
Proof. intros ms. exact (added_keys ms). Qed.
(** The entry gathers all messages with its key. *)
Theorem C67_gathered : forall ms ctx id,
  match get_message (f_messages (fold_left file_add ms new_file)) ctx id with
  | Some r => id <> [] /\ gathered ms (ctx, id) r
  | None => id = [] \/ forall m, In m ms -> key m <> (ctx, id)
  end.
Proof. intros ms ctx id. exact (added_found ms (ctx, id)). Qed.
(** Flags and references do not depend on the order. *)
Theorem C67_order_partial : forall ms ms' ctx id, Permutation ms ms' -> Forall tidy ms ->
  match get_message (f_messages (fold_left file_add ms new_file)) ctx id,
        get_message (f_messages (fold_left file_add ms' new_file)) ctx id with
  | Some r, Some r' => the_flags r = the_flags r' /\ the_refs r = the_refs r'
  | None, None => True
  | _, _ => False
  end.
Proof. intros ms ms' ctx id P T. exact (added_order ms ms' (ctx, id) P T). Qed.
(** Comment texts made of trimmed lines: the lines of all messages, each once. *)
Theorem C67_texts_partial : forall ms ctx id r,
  Forall (fun m => exists_lines (cm_tr (the_comment (m_com m))) /\ exists_lines (cm_ex (the_comment (m_com m)))) ms ->
  get_message (f_messages (fold_left file_add ms new_file)) ctx id = Some r ->
  (exists t, tlines t /\ cm_tr (the_comment (m_com r)) = lines_text t /\
     forall l, In l t <-> exists m, In m ms /\ key m = (ctx, id) /\ line_in (cm_tr (the_comment (m_com m))) l) /\
  (exists t, tlines t /\ cm_ex (the_comment (m_com r)) = lines_text t /\
     forall l, In l t <-> exists m, In m ms /\ key m = (ctx, id) /\ line_in (cm_ex (the_comment (m_com m))) l).
Proof.
  intros ms ctx id r F H. split.
  - refine (added_text cm_tr eq_refl (fun c o => eq_refl) ms (ctx, id) r _ H). eapply Forall_impl; [|exact F]. cbn. tauto.
  - refine (added_text cm_ex eq_refl (fun c o => eq_refl) ms (ctx, id) r _ H). eapply Forall_impl; [|exact F]. cbn. tauto.
Qed.

Definition add_1 : message := Msg (Some (Com (bs "one") [] [Ref (bs "b.go") 2 0] [bs "fuzzy"] [] [])) [] (bs "id") [] [(0, bs "x")].
Definition add_2 : message := Msg (Some (Com (bs "two") [] [Ref (bs "a.go") 9 0] [bs "c-format"; bs "fuzzy"] [] [])) [] (bs "id") (bs "ids") [].
Definition add_3 : message := Msg None (bs "menu") (bs "id") [] [].
Example C67_example : Forall tidy [add_1; add_3; add_2] /\
  Forall (fun m => exists_lines (cm_tr (the_comment (m_com m))) /\ exists_lines (cm_ex (the_comment (m_com m)))) [add_1; add_3; add_2] /\
  f_messages (fold_left file_add [add_1; add_3; add_2] new_file) =
    [Msg (Some (Com (bs "one" ++ LF :: bs "two") [] [Ref (bs "a.go") 9 0; Ref (bs "b.go") 2 0] [bs "c-format"; bs "fuzzy"] [] [])) [] (bs "id") (bs "ids") [(0, bs "x")];
     add_3].
Proof.
  assert (O1 : forall A (R : A -> A -> Prop) x, ordered R [x]) by (intros A R x a y b z d E; destruct a as [|? [|]]; try discriminate; destruct b; discriminate).
  assert (O0 : forall A (R : A -> A -> Prop), ordered R []) by (intros A R a y b z d E; destruct a; discriminate).
  assert (L0 : exists_lines []) by (exists []; split; [split; constructor|reflexivity]).
  assert (L1 : forall s, clean s -> s <> [] -> ~ In LF s -> exists_lines s).
  { intros s C N L. exists [s]. split; [|reflexivity]. split; [constructor; [intros []|constructor]|]. constructor; [auto|constructor]. }
  split; [|split; [|vm_compute; reflexivity]].
  - constructor; [|constructor; [|constructor; [|constructor]]]; unfold tidy, the_flags, the_refs; cbn [m_com the_comment cm_flags cm_refs add_1 add_2 add_3].
    + split; [apply O1|]. split; [repeat constructor; intros []|]. split; [apply O1|repeat constructor; intros []].
    + split; [apply O0|]. split; [constructor|]. split; [apply O0|constructor].
    + split; [|split; [|split; [apply O1|repeat constructor; intros []]]].
      * rewrite <- (eq_refl : sort bcmp [bs "fuzzy"; bs "c-format"] = [bs "c-format"; bs "fuzzy"]). apply sort_bytes_ordered.
      * constructor; [intros [E|[]]; discriminate|]. repeat constructor; intros [].
  - constructor; [|constructor; [|constructor; [|constructor]]]; cbn [m_com the_comment cm_tr cm_ex add_1 add_2 add_3]; (split; [|exact L0]).
    + apply L1; [solve_clean|discriminate|vm_compute; intuition discriminate].
    + exact L0.
    + apply L1; [solve_clean|discriminate|vm_compute; intuition discriminate].
Qed.
(** The first translations win, so the order matters for them. *)
Theorem C67_order_refuted : exists ms ms' r r', Permutation ms ms' /\ Forall tidy ms /\
  get_message (f_messages (fold_left file_add ms new_file)) [] (bs "id") = Some r /\
  get_message (f_messages (fold_left file_add ms' new_file)) [] (bs "id") = Some r' /\ m_str r <> m_str r'.
Proof.
  exists [Msg None [] (bs "id") [] [(0, bs "x")]; Msg None [] (bs "id") [] [(0, bs "y")]],
    [Msg None [] (bs "id") [] [(0, bs "y")]; Msg None [] (bs "id") [] [(0, bs "x")]]. eexists _, _.
  split; [apply perm_swap|]. split; [|split; [vm_compute; reflexivity|split; [vm_compute; reflexivity|discriminate]]].
  assert (T : forall s, tidy (Msg None [] (bs "id") [] s)).
  { intro s. split; [intros a y b z d E; destruct a; discriminate|]. split; [constructor|].
    split; [intros a y b z d E; destruct a; discriminate|constructor]. }
  constructor; [apply T|]. constructor; [apply T|constructor].
Qed.

(** ** Flags and references of a comment *)
Theorem C67_flags : forall c f, let c' := add_flag c f in
  (forall x, In x (cm_flags c') <-> In x (cm_flags c) \/ x = f) /\
  (NoDup (cm_flags c) -> NoDup (cm_flags c')) /\
  (ordered bytes_le (cm_flags c) -> ordered bytes_le (cm_flags c')) /\
  (forall x, has_flag c' x = true <-> In x (cm_flags c')).
Proof.
  intros c f c'. split; [apply add_flag_in|]. split; [apply add_flag_nodup|]. split; [apply add_flag_ordered|]. intro x. apply mem_iff.
Qed.
Theorem C67_references : forall c r, let c' := add_reference c r in
  Permutation (r :: cm_refs c) (cm_refs c') /\ ordered ref_le (cm_refs c').
Proof. intros c r c'. split; [apply add_ref_perm|apply add_ref_ordered]. Qed.
(** A reference is added even if it is there already. *)
Theorem C67_references_refuted : exists c r, In r (cm_refs c) /\ NoDup (cm_refs c) /\ ~ NoDup (cm_refs (add_reference c r)).
Proof.
  exists (Com [] [] [Ref (bs "a.go") 1 0] [] [] []), (Ref (bs "a.go") 1 0). split; [now left|].
  split; [repeat constructor; intros []|]. intro N. vm_compute in N. inversion N as [|? ? X _]. apply X. now left.
Qed.
Example C67_flags_example : add_flag (Com [] [] [] [bs "fuzzy"] [] []) (bs "c-format") = Com [] [] [] [bs "c-format"; bs "fuzzy"] [] [] /\
  add_reference (Com [] [] [Ref (bs "b.go") 1 0] [] [] []) (Ref (bs "a.go") 2 0) = Com [] [] [Ref (bs "a.go") 2 0; Ref (bs "b.go") 1 0] [] [] [].
Proof. split; vm_compute; reflexivity. Qed.

(** ** The placeholder header *)
(** A new file with this header is written and read back unchanged. *)
Theorem C67_placeholder_partial : forall now package holder bugs,
  plain_text now -> plain_text package -> package <> [] -> plain_text bugs ->
  clean holder -> holder <> [] -> ~ In LF holder ->
  exists s, marshal (Some (PoFile (placeholder_header now package holder bugs) [])) = Ok s /\
    ((forall l, is_line s l -> Z.of_nat (length l) < 65536) ->
     parse_po s = Ok (PoFile (placeholder_header now package holder bugs) [])).
Proof.
  intros now package holder bugs PN PP NP PB CH NH LH.
  pose proof (placeholder_ok (-1) now package holder bugs ltac:(lia) PN PP NP PB CH NH LH) as OK.
  set (h := placeholder_header now package holder bugs) in *.
  destruct (write_round default_opts (Some h) []) as (s & ES & R).
  - intros h' E. injection E as <-. exact OK.
  - constructor.
  - constructor.
  - right. split; [reflexivity|]. exists h. split; [reflexivity|now left].
  - exists s. split; [exact ES|]. intro SH. destruct (R SH) as (f & P & FM & HX & _). rewrite P. f_equal.
    destruct HX as (x & E & (T & X & RF & FL & PC & PI) & K & U).
    { split; [reflexivity|]. exists h. split; [reflexivity|now left]. }
    injection E as <-. destruct f as [h' ms']. cbn [f_messages f_header] in *. inversion FM; subst ms'. f_equal.
    destruct h' as [c' k' u']. cbn [h_com h_known h_unknown] in *. destruct c' as [c'|]; [|discriminate FL].
    cbn [the_comment] in *. destruct c' as [tr ex rf fl pc pi]. cbn [cm_tr cm_ex cm_refs cm_flags cm_pctx cm_pid] in *.
    destruct T as [T|[T _]]; [|cbn in T; lia]. destruct X as [X|[X _]]; [|cbn in X; lia].
    rewrite T, X, RF, FL, PC, PI, K, U. reflexivity.
Qed.
Example C67_placeholder_example : exists s,
  marshal (Some (PoFile (placeholder_header (bs "2024-01-02 03:04+0000") (bs "demo") (bs "ACME") (bs "bugs@example.org")) [])) = Ok s /\
  s = text ["# SOME DESCRIPTIVE TITLE."; "# Copyright (C) YEAR ACME"; "# This file is distributed under the same license as the demo package.";
            "# FIRST AUTHOR <EMAIL@ADDRESS>, YEAR."; "# "; "#, fuzzy"; "msgid """""; "msgstr """""; """Project-Id-Version: demo\n""";
            """Report-Msgid-Bugs-To: bugs@example.org\n"""; """POT-Creation-Date: 2024-01-02 03:04+0000\n"""; """PO-Revision-Date: YEAR-MO-DA HO:MI+ZONE\n""";
            """Last-Translator: FULL NAME <EMAIL@ADDRESS>\n"""; """Language-Team: LANGUAGE <LL@li.org>\n"""; """Language: \n"""; """MIME-Version: 1.0\n""";
            """Content-Type: text/plain; charset=UTF-8\n"""; """Content-Transfer-Encoding: 8bit\n"""; ""]%string /\
  plain_text (bs "demo") /\ clean (bs "ACME") /\ marshal None = Err.
Proof.
  eexists. split; [vm_compute; reflexivity|]. split; [vm_compute; reflexivity|]. split; [apply plain_ascii; [solve_clean|reflexivity]|].
  split; [solve_clean|reflexivity].
Qed.
(** An empty holder leaves a blank at the end of a line, which is lost. *)
Theorem C67_placeholder_refuted : exists now package bugs s f,
  marshal (Some (PoFile (placeholder_header now package [] bugs) [])) = Ok s /\ parse_po s = Ok f /\
  f_header f <> placeholder_header now package [] bugs.
Proof.
  exists (bs "2024-01-02 03:04+0000"), (bs "demo"), (bs "x"). eexists _, _. split; [vm_compute; reflexivity|].
  split; [vm_compute; reflexivity|]. vm_compute. discriminate.
Qed.

(** A reference added to a message: the message is otherwise the same, with or without comment. *)
Theorem C67_message_reference : forall m r, let m' := message_add_reference m r in
  key m' = key m /\ m_pl m' = m_pl m /\ m_str m' = m_str m /\
  Permutation (r :: the_refs m) (the_refs m') /\ ordered ref_le (the_refs m') /\ the_flags m' = the_flags m /\
  exists c, m_com m' = Some c /\ cm_tr c = cm_tr (the_comment (m_com m)) /\ cm_ex c = cm_ex (the_comment (m_com m)) /\
    cm_pctx c = cm_pctx (the_comment (m_com m)) /\ cm_pid c = cm_pid (the_comment (m_com m)).
Proof.
  intros m r m'. split; [reflexivity|]. split; [reflexivity|]. split; [reflexivity|].
  assert (E : (match m_com m with Some c => c | None => new_comment end) = the_comment (m_com m)) by (destruct (m_com m); reflexivity).
  subst m'. unfold message_add_reference, the_refs, the_flags. cbn [m_com]. rewrite E. cbn [the_comment].
  split; [apply add_ref_perm|]. split; [apply add_ref_ordered|]. split; [reflexivity|].
  eexists. split; [reflexivity|]. repeat split.
Qed.
Example C67_message_reference_example : message_add_reference (Msg None [] (bs "id") [] []) (Ref (bs "a.go") 1 0) =
  Msg (Some (Com [] [] [Ref (bs "a.go") 1 0] [] [] [])) [] (bs "id") [] [].
Proof. reflexivity. Qed.

(** ** What references and files print *)
Theorem C67_ref_text : forall r,
  (r_line r <= 0 -> ref_string r = r_path r) /\
  (0 < r_line r -> exists l c, whole_number l (r_line r) /\ whole_number c (r_col r) /\
     ref_string r = r_path r ++ bs ":" ++ l ++ bs ":" ++ c).
Proof.
  intro r. unfold ref_string. split; intro L.
  - now replace (0 <? r_line r) with false by lia.
  - replace (0 <? r_line r) with true by lia. exists (itoa (r_line r)), (itoa (r_col r)).
    split; [apply itoa_whole|]. split; [apply itoa_whole|]. reflexivity.
Qed.
(** With a line, the text tells the reference. *)
Theorem C67_ref_text_injective : forall r r', 0 < r_line r -> 0 < r_line r' -> ref_string r = ref_string r' -> r = r'.
Proof. exact ref_string_injective. Qed.
(** Without one it need not. *)
Theorem C67_ref_text_refuted : exists r r', r <> r' /\ ref_string r = ref_string r'.
Proof. exists (Ref (bs "a.go:3:0") 0 0), (Ref (bs "a.go") 3 0). split; [discriminate|vm_compute; reflexivity]. Qed.
Example C67_ref_text_example : ref_string (Ref (bs "dir/a.go") 12 4) = bs "dir/a.go:12:4".
Proof. vm_compute. reflexivity. Qed.
(** File.String shows project and language. *)
Theorem C67_file_text : forall o,
  match o with
  | None => file_string o = bs "po file"
  | Some h => length (h_known h) = length header_names ->
      exists p l, named_field h (bs "Project-Id-Version") p /\ named_field h (bs "Language") l /\
        file_string o = bs "po file " ++ p ++ bs " " ++ l
  end.
Proof.
  intros [h|]; [|reflexivity]. intro L. destruct h as [c k u]. cbn [h_known] in *.
  do 12 (destruct k as [|? k]; [discriminate L|]). destruct k; [|discriminate L].
  unfold named_field. eexists _, _. split; [left; reflexivity|].
  split; [do 6 right; left; reflexivity|]. reflexivity.
Qed.
Example C67_file_text_example : file_string (Some (placeholder_header [] (bs "demo") [] [])) = bs "po file demo ".
Proof. vm_compute. reflexivity. Qed.
(** Marshal of a nil file fails, of a file with a header it does not. *)
Theorem C67_nil_file : forall s, marshal None <> Ok s.
Proof. discriminate. Qed.
(** The placeholders of the header stand in their fields. *)
Theorem C67_placeholder_fields : forall now package holder bugs, let h := placeholder_header now package holder bugs in
  (forall n v, named_field h n v <->
     (n = bs "Project-Id-Version" /\ v = package) \/ (n = bs "Report-Msgid-Bugs-To" /\ v = bugs) \/
     (n = bs "POT-Creation-Date" /\ v = now) \/ (n = bs "PO-Revision-Date" /\ v = bs "YEAR-MO-DA HO:MI+ZONE") \/
     (n = bs "Last-Translator" /\ v = bs "FULL NAME <EMAIL@ADDRESS>") \/
     (n = bs "Language-Team" /\ v = bs "LANGUAGE <LL@li.org>") \/ (n = bs "Language" /\ v = []) \/
     (n = bs "MIME-Version" /\ v = bs "1.0") \/ (n = bs "Content-Type" /\ v = bs "text/plain; charset=UTF-8") \/
     (n = bs "Content-Transfer-Encoding" /\ v = bs "8bit") \/ (n = bs "Plural-Forms" /\ v = []) \/
     (n = bs "X-Generator" /\ v = [])) /\
  h_unknown h = [] /\
  exists c, h_com h = Some c /\ cm_flags c = [bs "fuzzy"] /\ cm_refs c = [] /\ cm_ex c = [] /\
    cm_tr c = bs "SOME DESCRIPTIVE TITLE." ++ [LF] ++ bs "Copyright (C) YEAR " ++ holder ++ [LF] ++
      bs "This file is distributed under the same license as the " ++ package ++ bs " package." ++ [LF] ++
      bs "FIRST AUTHOR <EMAIL@ADDRESS>, YEAR." ++ [LF].
Proof.
  intros now package holder bugs h. split.
  - intros n v. unfold named_field, h, placeholder_header, header_names. cbn [h_known combine In]. rewrite !pair_equal_spec.
    split; intro H; repeat (destruct H as [H|H]; [destruct H; subst; tauto|]); try tauto; destruct H; subst; tauto.
  - split; [reflexivity|]. eexists. split; [reflexivity|]. repeat split.
Qed.

Print Assumptions C67_keys.
Print Assumptions C67_gathered.
Print Assumptions C67_order_partial.
Print Assumptions C67_texts_partial.
Print Assumptions C67_order_refuted.
Print Assumptions C67_flags.
Print Assumptions C67_references.
Print Assumptions C67_references_refuted.
Print Assumptions C67_placeholder_partial.
Print Assumptions C67_placeholder_refuted.
Print Assumptions C67_message_reference.
Print Assumptions C67_ref_text.
Print Assumptions C67_ref_text_injective.
Print Assumptions C67_ref_text_refuted.
Print Assumptions C67_file_text.
Print Assumptions C67_nil_file.
Print Assumptions C67_placeholder_fields.
