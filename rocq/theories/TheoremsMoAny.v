(** Property theorems C28, C29: MO files of any bytes. *)
From Coq Require Import String Ascii List ZArith Bool Lia.
From Verif Require Import Base BaseProofs StrModel PoStrModel PoFileModel PoFileSpec PoHeaderProofs PoExamples
  MoModel MoSpec MoProofs TheoremsMo MoAnySpec MoAnyProofs.
Import ListNotations.
Open Scope Z_scope.

(** ** C29.  A file is read if and only if its header and its tables are
    complete and every row points into it; everything else is an error. *)
Theorem C29_accepted : forall s, (mo_complete s <-> exists f, parse_mo s = Ok f) /\ (~ mo_complete s <-> parse_mo s = Err).
Proof.
  intro s. assert (A : mo_complete s <-> exists f, parse_mo s = Ok f).
  { rewrite complete_iff. split.
    - intros (ts & T). eexists. apply pairs_iff. eauto.
    - intros (f & P). apply pairs_iff in P as (ts & T & _). eauto. }
  split; [exact A|]. split.
  - intro N. destruct (C29_no_panic s) as [H|H]; [apply A in H; contradiction|exact H].
  - intros E C. apply A in C as (f & F). congruence.
Qed.
(** The texts are determined by the bytes. *)
Theorem C29_texts : forall s, (mo_complete s <-> exists ts, mo_pairs s ts) /\
  forall ts ts', mo_pairs s ts -> mo_pairs s ts' -> ts = ts'.
Proof. intro s. split; [apply complete_iff|apply pairs_unique]. Qed.

(** ** C28.  What every file is read as: each pair is cut into context, id,
    plural and forms; the first pair of a key gives the forms, the last pair
    without a key the header. *)
Theorem C28_every_file : forall s f, parse_mo s = Ok f ->
  exists ts es, mo_pairs s ts /\ Forall2 reads_as (filter kept ts) es /\
    (forall c i, i <> [] -> found c i es (get_message (f_messages f) c i)) /\
    NoDup (map key (f_messages f)) /\ Forall (fun m => m_id m <> []) (f_messages f) /\
    (Forall (fun t => fst t <> []) ts -> f_header f = new_header) /\
    (forall v kvs, last_header ts v -> header_reads v kvs -> Forall (fun e => ascii_text (fst e)) kvs ->
      forall fold k, ascii_text k -> known_name k \/ (ascii_fold fold /\ one_spelling (map fst kvs)) ->
        last_value kvs k (header_get fold (f_header f) k)).
Proof.
  intros s f P. apply pairs_iff in P as (ts & T & ->).
  assert (E : exists es, Forall2 reads_as (filter kept ts) es).
  { clear T. induction (filter kept ts) as [|t l IH]; [exists []; constructor|]. destruct IH as [es IH]. destruct (reads_exists t) as [e R].
    exists (e :: es). now constructor. }
  destruct E as [es E]. exists ts, es. split; [exact T|]. split; [exact E|]. split; [intros c i N; now apply build_found|].
  destruct (build_keys ts (PoFile new_header []) ltac:(constructor) ltac:(constructor)) as [K1 K2].
  split; [exact K1|]. split; [exact K2|]. split; [intro F; now apply header_kept|].
  intros v kvs L H A fold k AK C. rewrite (header_of ts v kvs L H). unfold set_fields. destruct C as [C|(C & O)].
  - destruct (set_all_known fold kvs k AK C A) as (x & X & G). unfold set_all in G. now rewrite G.
  - destruct (set_all_get fold kvs k C AK A O) as (x & X & G). unfold set_all in G. now rewrite G.
Qed.

(** A file with a key twice, a context without id, a line in the header that
    is no field and a text that is cut off. *)
Definition odd_texts : list (bytes * bytes) :=
  [([], bs "no field" ++ [LF] ++ bs " Language : de "); (bs "a", bs "1"); (bs "c" ++ [context_end], bs "x");
   (bs "a" ++ [NUL] ++ bs "as", bs "2" ++ [NUL] ++ bs "3"); (bs "b" ++ [NUL] ++ bs "bs", bs "4" ++ [NUL; NUL])].
Definition odd_mo : bytes :=
  u32 false 2500072158 ++ u16 false 0 ++ u16 false 0 ++ u32 false 5 ++ u32 false 28 ++ u32 false 68 ++ u32 false 0 ++ u32 false 0 ++
  u32 false 0 ++ u32 false 108 ++ u32 false 1 ++ u32 false 132 ++ u32 false 2 ++ u32 false 134 ++ u32 false 4 ++ u32 false 137 ++
  u32 false 4 ++ u32 false 144 ++
  u32 false 24 ++ u32 false 108 ++ u32 false 1 ++ u32 false 133 ++ u32 false 1 ++ u32 false 136 ++ u32 false 3 ++ u32 false 141 ++
  u32 false 3 ++ u32 false 148 ++
  bs "no field" ++ [LF] ++ bs " Language : de " ++ bs "a1" ++ bs "c" ++ [context_end] ++ bs "x" ++
  bs "a" ++ [NUL] ++ bs "as" ++ bs "2" ++ [NUL] ++ bs "3" ++ bs "b" ++ [NUL] ++ bs "bs" ++ bs "4".
Ltac odd_row l o :=
  exists l, o; split; [split; [unfold fits; lia|split; [unfold fits; lia|at_place]]|apply text_iff; [lia|lia|vm_compute; reflexivity]].
Example C28_every_example : mo_pairs odd_mo odd_texts /\ mo_complete odd_mo /\ exists f, parse_mo odd_mo = Ok f /\
  map (fun m => (m_ctx m, m_id m, m_pl m, m_str m)) (f_messages f) =
  [([], bs "a", bs "as", [(0, bs "1")]); ([], bs "b", bs "bs", [(0, bs "4"); (1, []); (2, [])])] /\
  header_get fold_ascii (f_header f) (bs "language") = bs "de" /\
  last_header odd_texts (bs "no field" ++ [LF] ++ bs " Language : de ") /\
  header_reads (bs "no field" ++ [LF] ++ bs " Language : de ") [(bs "Language", bs "de")].
Proof.
  assert (P : mo_pairs odd_mo odd_texts).
  { exists false, 28, 68. split.
    - split; [vm_compute; split; [discriminate|reflexivity]|]. split; [unfold fits; lia|]. split; [unfold fits; lia|].
      exists 0, 0, 0, 0. split; [now left|]. split; [now left|]. split; [unfold fits; lia|]. split; [unfold fits; lia|at_place].
    - intros [|[|[|[|[|i]]]]] e H; try (injection H as <-); [| | | | |destruct i; discriminate H]; cbn [fst snd].
      + split; [odd_row 0 108|odd_row 24 108].
      + split; [odd_row 1 132|odd_row 1 133].
      + split; [odd_row 2 134|odd_row 1 136].
      + split; [odd_row 4 137|odd_row 3 141].
      + split; [odd_row 4 144|odd_row 3 148]. }
  split; [exact P|]. split; [apply C29_texts; eauto|]. eexists. split; [vm_compute; reflexivity|]. split; [reflexivity|]. split; [reflexivity|].
  assert (NC : forall c s, existsb (Ascii.eqb c) s = false -> ~ In c s).
  { intros c s E I. enough (existsb (Ascii.eqb c) s = true) by congruence. apply existsb_exists. exists c. auto using Ascii.eqb_refl. }
  split.
  - exists [], (tl odd_texts). split; [reflexivity|]. repeat (constructor; [discriminate|]). constructor.
  - exists [bs "no field"; bs " Language : de "]. split; [discriminate|]. split; [constructor; [now apply NC|constructor; [now apply NC|constructor]]|].
    split; [reflexivity|]. apply hf_junk; [now apply NC|]. apply hf_field; [|constructor].
    exists (bs " Language "), (bs " de "). cbn [fst snd]. split; [reflexivity|]. split; [now apply NC|].
    assert (SPP : pad [SP]) by (constructor; [now left|constructor]).
    split; [exists [SP], [SP]; auto|]. split; [solve_clean|]. split; [exists [SP], [SP]; auto|solve_clean].
Qed.
(** Only the first translation of a key is kept (internal/mo/parser.go:202,
    catalog/po/file.go:49-60). *)
Example C28_duplicates_example : exists s ts e f, mo_pairs s ts /\ In e ts /\ fst e <> [] /\ parse_mo s = Ok f /\
  e = (bs "a" ++ [NUL] ++ bs "as", bs "2" ++ [NUL] ++ bs "3") /\
  Forall (fun m => m_id m = bs "a" -> map snd (m_str m) = [bs "1"]) (f_messages f).
Proof.
  exists odd_mo, odd_texts. eexists. destruct C28_every_example as (P & _ & f & E & M & _). exists f. split; [exact P|].
  split; [right; right; right; now left|]. split; [discriminate|]. split; [exact E|]. split; [reflexivity|].
  clear P. vm_compute in E. injection E as <-. cbn [f_messages]. constructor; [intros _; reflexivity|]. constructor; [discriminate|constructor].
Qed.
Print Assumptions C29_accepted.
Print Assumptions C29_texts.
Print Assumptions C28_every_file.
Print Assumptions C28_every_example.
Print Assumptions C28_duplicates_example.
