(** Property theorems C28, C29: MO files. *)
From Coq Require Import String Ascii List ZArith Bool Lia.
From Verif Require Import Base BaseProofs StrModel PoStrModel PoFileModel PoFileSpec PoHeaderProofs PoExamples MoModel MoSpec MoProofs.
Import ListNotations.
Open Scope Z_scope.

(** ** C28 *)
Theorem C28_mo_read : forall s be l, mo_file s be l -> NoDup (map mo_key (msgs_of l)) ->
  exists f, parse_mo s = Ok f /\ Forall2 is_message (msgs_of l) (f_messages f) /\
    (hdrs_of l = [] -> f_header f = new_header) /\
    (forall hs kvs fold k, hdrs_of l = hs ++ [kvs] -> ascii_text k -> Forall (fun e => ascii_text (fst e)) kvs -> known_name k ->
       last_value kvs k (header_get fold (f_header f) k)) /\
    (forall hs kvs fold k, hdrs_of l = hs ++ [kvs] -> ascii_text k -> Forall (fun e => ascii_text (fst e)) kvs ->
       ascii_fold fold -> one_spelling (map fst kvs) -> last_value kvs k (header_get fold (f_header f) k)).
Proof.
  intros s be l H ND. destruct (mo_file_read s be l H ND) as (f & P & M & E). exists f. split; [exact P|]. split; [exact M|].
  split; [intro X; now rewrite E, X|]. split.
  - intros hs kvs fold k X A F K. rewrite E, X, fold_left_app. cbn [fold_left]. destruct (set_all_known fold kvs k A K F) as (v & V & G).
    unfold set_all in G. unfold set_fields. now rewrite G.
  - intros hs kvs fold k X A F AF O. rewrite E, X, fold_left_app. cbn [fold_left]. destruct (set_all_get fold kvs k AF A F O) as (v & V & G).
    unfold set_all in G. unfold set_fields. now rewrite G.
Qed.

(** A file with header, tables behind the strings, in both byte orders. *)
Definition ex_entries : list mo_entry :=
  [EHeader [(bs "Language", bs "de"); (bs "X-Id", bs "7")];
   EMsg (MoMsg (Some (bs "menu")) (bs "%d file") (Some (bs "%d files")) [bs "Datei"; bs "Dateien"]);
   EMsg (MoMsg None (bs "yes") None [bs "ja"])].
Definition ex_texts : list (bytes * bytes) :=
  [([], bs "Language: de" ++ [LF] ++ bs "X-Id: 7" ++ [LF]);
   (bs "menu" ++ [context_end] ++ bs "%d file" ++ [NUL] ++ bs "%d files", bs "Datei" ++ [NUL] ++ bs "Dateien");
   (bs "yes", bs "ja")].
Definition ex_strings : bytes := concat (map (fun t => fst t ++ [NUL] ++ snd t ++ [NUL]) ex_texts).
Definition ex_mo (be : bool) : bytes :=
  let n := Z.of_nat (length ex_strings) in
  u32 be 2500072158 ++ u16 be 0 ++ u16 be 1 ++ u32 be 3 ++ u32 be (28 + n) ++ u32 be (52 + n) ++ u32 be 0 ++ u32 be 0 ++
  ex_strings ++
  u32 be 0 ++ u32 be 28 ++ u32 be 21 ++ u32 be 51 ++ u32 be 3 ++ u32 be 87 ++
  u32 be 21 ++ u32 be 29 ++ u32 be 13 ++ u32 be 73 ++ u32 be 2 ++ u32 be 91.
Ltac at_place := apply at_offset_iff; [vm_compute; discriminate|split; [lia|vm_compute; reflexivity]].
Ltac row o := exists o; split; [split; [vm_compute; split; [discriminate|reflexivity]|split; [unfold fits; lia|at_place]]|at_place].
Lemma ex_file : forall be, mo_file (ex_mo be) be ex_entries.
Proof.
  intro be. exists ex_texts. split; [|split].
  - exists 94, 118. split.
    + split; [vm_compute; split; [discriminate|reflexivity]|]. split; [unfold fits; lia|]. split; [unfold fits; lia|].
      exists 0, 1, 0, 0. split; [now left|]. split; [right; now left|]. split; [unfold fits; lia|]. split; [unfold fits; lia|].
      destruct be; at_place.
    + intros [|[|[|i]]] e H; try (injection H as <-); [| | |destruct i; discriminate H]; cbn [fst snd]; destruct be.
      * split; [row 28|row 29].
      * split; [row 28|row 29].
      * split; [row 51|row 73].
      * split; [row 51|row 73].
      * split; [row 87|row 91].
      * split; [row 87|row 91].
  - constructor; [|constructor; [|constructor; [|constructor]]]; cbn [fst snd entry_texts].
    + split; [reflexivity|]. split; [|reflexivity].
      assert (NC : forall c s, existsb (Ascii.eqb c) s = false -> ~ In c s).
      { intros c s E I. enough (existsb (Ascii.eqb c) s = true) by congruence. apply existsb_exists. exists c. auto using Ascii.eqb_refl. }
      constructor; [|constructor; [|constructor]]; cbn [fst snd]; (split; [solve_clean|]); (split; [now apply NC|]); (split; [now apply NC|]); (split; [|now apply NC]).
      * solve_clean.
      * right. exists 55, [], 55, []. repeat split; reflexivity.
    + split; reflexivity.
    + split; reflexivity.
  - assert (NC : forall c s, existsb (Ascii.eqb c) s = false -> ~ In c s).
    { intros c s E I. enough (existsb (Ascii.eqb c) s = true) by congruence. apply existsb_exists. exists c. auto using Ascii.eqb_refl. }
    constructor; [|constructor; [|constructor]]; unfold representable; cbn [mm_ctx mm_id mm_pl mm_strs].
    + split; [discriminate|]. split; [now apply NC|]. split; [now apply NC|]. split; [discriminate|].
      constructor; [now apply NC|constructor; [now apply NC|constructor]].
    + split; [discriminate|]. split; [now apply NC|]. split; [split; [now apply NC|exact I]|]. now exists (bs "ja").
Qed.
Example C28_example : (forall be, mo_file (ex_mo be) be ex_entries) /\ NoDup (map mo_key (msgs_of ex_entries)) /\
  forall be, exists f, parse_mo (ex_mo be) = Ok f /\
    map (fun m => (m_ctx m, m_id m, m_pl m, m_str m)) (f_messages f) =
    [(bs "menu", bs "%d file", bs "%d files", [(0, bs "Datei"); (1, bs "Dateien")]); ([], bs "yes", [], [(0, bs "ja")])] /\
    header_get fold_ascii (f_header f) (bs "LANGUAGE") = bs "de".
Proof.
  split; [exact ex_file|]. split.
  - constructor; [intros [E|[]]; discriminate|constructor; [intros []|constructor]].
  - intros []; eexists; (split; [vm_compute; reflexivity|split; reflexivity]).
Qed.

(** ** C29 *)
Theorem C29_no_panic : forall s, (exists f, parse_mo s = Ok f) \/ parse_mo s = Err.
Proof. exact parse_mo_cases. Qed.
(** Header and tables are completely in the file and all offsets point into
    it; texts consist of bytes of the file followed by NUL bytes at most, and
    of bytes of the file only if every row lies in it. *)
Theorem C29_read_in_file_partial : forall s f, parse_mo s = Ok f ->
  exists be count ids strs, mo_head s be count ids strs /\
    (forall table i, In table [ids; strs] -> (i < Z.to_nat count)%nat ->
      exists len off, row_at s be table i len off /\ off < Z.of_nat (length s)) /\
    (exists n, Forall (from_texts (fun t => infix t (s ++ repeat NUL n))) (f_messages f)) /\
    ((forall table i len off, In table [ids; strs] -> (i < Z.to_nat count)%nat -> row_at s be table i len off ->
        off + len <= Z.of_nat (length s)) ->
     Forall (from_texts (fun t => infix t s)) (f_messages f)).
Proof. exact mo_any. Qed.
(** The header determines the tables, so there is no choice in the statement. *)
Theorem C29_head_unique : forall s be count ids strs be' count' ids' strs',
  mo_head s be count ids strs -> mo_head s be' count' ids' strs' -> be = be' /\ count = count' /\ ids = ids' /\ strs = strs'.
Proof. exact head_count. Qed.
Example C29_example : exists f, parse_mo (ex_mo true) = Ok f /\ length (f_messages f) = 2%nat /\
  parse_mo (firstn 100 (ex_mo true)) = Err.
Proof. eexists. split; [vm_compute; reflexivity|]. split; reflexivity. Qed.
(** parser.go:253-256: the number of bytes read is not checked.  The file is
    cut off inside its last text. *)
Definition cut_mo : bytes :=
  u32 false 2500072158 ++ u16 false 0 ++ u16 false 0 ++ u32 false 1 ++ u32 false 28 ++ u32 false 36 ++ u32 false 0 ++ u32 false 0 ++
  u32 false 2 ++ u32 false 44 ++ u32 false 5 ++ u32 false 47 ++ bs "id" ++ [NUL] ++ bs "tex".
Theorem C29_truncated_refuted : exists s f, parse_mo s = Ok f /\ row_at s false 36 0 5 47 /\ Z.of_nat (length s) < 47 + 5 /\
  map m_str (f_messages f) = [[(0, bs "tex" ++ [NUL; NUL])]] /\ ~ infix (bs "tex" ++ [NUL; NUL]) s.
Proof.
  exists cut_mo. eexists. split; [vm_compute; reflexivity|]. split.
  - split; [unfold fits; lia|]. split; [unfold fits; lia|]. at_place.
  - split; [vm_compute; reflexivity|]. split; [reflexivity|]. intros (p & q & E).
    assert (X : forallb (fun i => negb (beq (firstn 5 (skipn i cut_mo)) (bs "tex" ++ [NUL; NUL]))) (seq 0 51) = true) by (vm_compute; reflexivity).
    rewrite forallb_forall in X.
    assert (L : length cut_mo = 50%nat) by (vm_compute; reflexivity).
    assert (LP : (length p <= 50)%nat) by (rewrite <- L, E, app_length; lia).
    specialize (X (length p) ltac:(apply in_seq; lia)). rewrite E, skipn_app, skipn_all, Nat.sub_diag in X. cbn [app skipn] in X.
    vm_compute in X. discriminate.
Qed.

Print Assumptions C28_mo_read.
Print Assumptions C29_no_panic.
Print Assumptions C29_read_in_file_partial.
Print Assumptions C29_head_unique.
Print Assumptions C29_truncated_refuted.
