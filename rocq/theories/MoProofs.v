(** Lemmas about the MO parser. *)
From Coq Require Import String Ascii List ZArith Bool Lia ZifyBool.
From Verif Require Import Base BaseProofs Utf8Model StrModel PoStrModel PoFileModel PoFileSpec PoOutcomeProofs PoParseProofs PoMergeProofs
  MoModel MoSpec.
Import ListNotations.
Open Scope Z_scope.

(** ** Positions *)
Lemma drop_z_skipn : forall s off, 0 <= off -> drop_z s off = skipn (Z.to_nat off) s.
Proof.
  induction s as [|c s IH]; intros off H; [now rewrite skipn_nil|]. cbn [drop_z]. destruct (Z.leb_spec off 0).
  - now replace off with 0 by lia.
  - rewrite IH by lia. replace (Z.to_nat off) with (S (Z.to_nat (off - 1))) by lia. reflexivity.
Qed.
Lemma at_offset_iff : forall s off b, b <> [] ->
  (at_offset s off b <-> 0 <= off /\ firstn (length b) (skipn (Z.to_nat off) s) = b).
Proof.
  intros s off b N. split.
  - intros (p & q & -> & <-). split; [lia|]. rewrite Nat2Z.id, skipn_app, skipn_all, Nat.sub_diag. cbn [app skipn].
    rewrite firstn_app, Nat.sub_diag, firstn_all. cbn [firstn]. apply app_nil_r.
  - intros [H E]. exists (firstn (Z.to_nat off) s), (skipn (length b) (skipn (Z.to_nat off) s)). split.
    + rewrite <- E at 1. now rewrite !firstn_skipn.
    + rewrite firstn_length_le; [lia|]. destruct (Nat.le_gt_cases (Z.to_nat off) (length s)) as [L|L]; [exact L|].
      rewrite skipn_all2 in E by lia. rewrite firstn_nil in E. congruence.
Qed.
Lemma read_full_iff : forall s pos n b, (0 < n)%nat -> 0 <= pos ->
  (read_full s pos n = Ok b <-> at_offset s pos b /\ length b = n).
Proof.
  intros s pos n b N P. unfold read_full. cbv zeta. rewrite drop_z_skipn by exact P. split.
  - destruct (Nat.ltb_spec (length (skipn (Z.to_nat pos) s)) n) as [L|L]; [discriminate|]. intro H. injection H as <-.
    assert (E : length (firstn n (skipn (Z.to_nat pos) s)) = n) by now apply firstn_length_le.
    split; [|exact E]. apply at_offset_iff; [|split; [exact P|now rewrite E]]. intro X. rewrite X in E. cbn in E. lia.
  - intros [A E]. apply at_offset_iff in A as [_ A]; [|intros ->; cbn in E; lia]. rewrite E in A.
    destruct (Nat.ltb_spec (length (skipn (Z.to_nat pos) s)) n) as [L|L].
    + rewrite firstn_all2 in A by lia. rewrite A in L. lia.
    + now rewrite A.
Qed.
Lemma read_full_cases : forall s pos n, (exists b, read_full s pos n = Ok b) \/ read_full s pos n = Err.
Proof. intros. unfold read_full. cbv zeta. destruct (Nat.ltb _ n); eauto. Qed.

(** ** Numbers *)
Lemma u32_length : forall be n, length (u32 be n) = 4%nat.
Proof. intros [] n; reflexivity. Qed.
Lemma u16_length : forall be n, length (u16 be n) = 2%nat.
Proof. intros [] n; reflexivity. Qed.
Lemma uint_rev : forall be b, uint be (if be then rev b else b) = uint false b.
Proof. intros [] b; reflexivity. Qed.
Lemma uint_u32 : forall be n, fits n -> uint be (u32 be n) = n.
Proof.
  intros be n [L H]. unfold u32. cbv zeta. rewrite uint_rev. unfold uint. cbn [rev app fold_left].
  rewrite !byte_of_val by (Z.to_euclidean_division_equations; lia). Z.to_euclidean_division_equations; lia.
Qed.
Lemma uint_u16 : forall be n, 0 <= n < 65536 -> uint be (u16 be n) = n.
Proof.
  intros be n H. unfold u16. cbv zeta. rewrite uint_rev. unfold uint. cbn [rev app fold_left].
  rewrite !byte_of_val by (Z.to_euclidean_division_equations; lia). Z.to_euclidean_division_equations; lia.
Qed.
Lemma u32_uint : forall be b, length b = 4%nat -> fits (uint be b) /\ u32 be (uint be b) = b.
Proof.
  intros be b L. assert (E : exists a, length a = 4%nat /\ b = if be then rev a else a).
  { destruct be; [exists (rev b); now rewrite rev_length, rev_involutive|eauto]. }
  destruct E as (a & La & ->). rewrite uint_rev. clear L. do 5 (destruct a as [|? a]; try discriminate La). clear La.
  unfold u32, uint. cbn [rev app fold_left]. cbv zeta.
  pose proof (BaseProofs.bval_range a0). pose proof (BaseProofs.bval_range a1). pose proof (BaseProofs.bval_range a2). pose proof (BaseProofs.bval_range a3).
  set (n := ((0 * 256 + bval a3) * 256 + bval a2) * 256 + bval a1). 
  split; [unfold fits; lia|].
  replace ((n * 256 + bval a0) mod 256) with (bval a0) by (subst n; Z.to_euclidean_division_equations; lia).
  replace ((n * 256 + bval a0) / 256 mod 256) with (bval a1) by (subst n; Z.to_euclidean_division_equations; lia).
  replace ((n * 256 + bval a0) / 65536 mod 256) with (bval a2) by (subst n; Z.to_euclidean_division_equations; lia).
  replace ((n * 256 + bval a0) / 16777216) with (bval a3) by (subst n; Z.to_euclidean_division_equations; lia).
  now rewrite !byte_of_bval.
Qed.
Lemma u16_uint : forall be b, length b = 2%nat -> 0 <= uint be b < 65536 /\ u16 be (uint be b) = b.
Proof.
  intros be b L. assert (E : exists a, length a = 2%nat /\ b = if be then rev a else a).
  { destruct be; [exists (rev b); now rewrite rev_length, rev_involutive|eauto]. }
  destruct E as (a & La & ->). rewrite uint_rev. clear L. do 3 (destruct a as [|? a]; try discriminate La). clear La.
  unfold u16, uint. cbn [rev app fold_left]. cbv zeta.
  pose proof (BaseProofs.bval_range a0). pose proof (BaseProofs.bval_range a1).
  split; [lia|].
  replace (((0 * 256 + bval a1) * 256 + bval a0) mod 256) with (bval a0) by (Z.to_euclidean_division_equations; lia).
  replace (((0 * 256 + bval a1) * 256 + bval a0) / 256) with (bval a1) by (Z.to_euclidean_division_equations; lia).
  now rewrite !byte_of_bval.
Qed.

(** ** Header *)
Lemma at_offset_app : forall s o a b, at_offset s o (a ++ b) <-> at_offset s o a /\ at_offset s (o + Z.of_nat (length a)) b.
Proof.
  intros s o a b. split.
  - intros (p & q & -> & <-). split.
    + exists p, (b ++ q). now rewrite <- !app_assoc.
    + exists (p ++ a), q. rewrite app_length, <- !app_assoc. split; [reflexivity|lia].
  - intros [(p & q & E & P) (p' & q' & E' & P')]. exists p, q'. split; [|exact P]. rewrite E' in E.
    assert (L : length p' = length (p ++ a)) by (rewrite app_length; lia).
    rewrite (app_assoc p a q) in E. pose proof (f_equal (firstn (length (p ++ a))) E) as X.
    rewrite (firstn_app (length (p ++ a)) (p ++ a)), Nat.sub_diag, firstn_all, <- L in X.
    rewrite firstn_app, Nat.sub_diag, firstn_all in X. cbn [firstn] in X. rewrite !app_nil_r in X. subst p'.
    now rewrite E', <- !app_assoc.
Qed.
Lemma magic_order : forall be, uint false (u32 be 2500072158) = if be then magic_big else magic_little.
Proof. intros []; vm_compute; reflexivity. Qed.
Lemma split24 : forall b : bytes, length b = 24%nat ->
  b = slice 0 2 b ++ slice 2 4 b ++ slice 4 8 b ++ slice 8 12 b ++ slice 12 16 b ++ slice 16 20 b ++ slice 20 24 b.
Proof. intros b L. do 24 (destruct b as [|? b]; try discriminate L). destruct b; [reflexivity|discriminate L]. Qed.
Lemma slice_length : forall i j (b : bytes), (i <= j <= length b)%nat -> length (slice i j b) = (j - i)%nat.
Proof. intros i j b H. unfold slice. rewrite firstn_length_le; [reflexivity|]. rewrite skipn_length. lia. Qed.
Lemma head_slices : forall a b c d e f g : bytes, length a = 2%nat -> length b = 2%nat -> length c = 4%nat -> length d = 4%nat -> length e = 4%nat ->
  length f = 4%nat -> length g = 4%nat -> let t := a ++ b ++ c ++ d ++ e ++ f ++ g in
  length t = 24%nat /\ slice 0 2 t = a /\ slice 2 4 t = b /\ slice 4 8 t = c /\ slice 8 12 t = d /\ slice 12 16 t = e.
Proof.
  intros a b c d e f g A B C D E F G.
  do 2 (destruct a as [|? a]; try discriminate A). destruct a; [|discriminate A].
  do 2 (destruct b as [|? b]; try discriminate B). destruct b; [|discriminate B].
  do 4 (destruct c as [|? c]; try discriminate C). destruct c; [|discriminate C].
  do 4 (destruct d as [|? d]; try discriminate D). destruct d; [|discriminate D].
  do 4 (destruct e as [|? e]; try discriminate E). destruct e; [|discriminate E].
  do 4 (destruct f as [|? f]; try discriminate F). destruct f; [|discriminate F].
  do 4 (destruct g as [|? g]; try discriminate G). destruct g; [|discriminate G].
  repeat split.
Qed.
Lemma head_iff : forall s be count ids strs,
  (byte_order s = Ok be /\ mo_header s be = Ok (count, ids, strs)) <-> mo_head s be count ids strs.
Proof.
  intros s be count ids strs. unfold byte_order, mo_header. split.
  - intros [B H].
    destruct (read_full s 0 4) as [m| | |] eqn:M; try discriminate B. cbn [rbind] in B.
    destruct (read_full s 4 24) as [b| | |] eqn:R; try discriminate H. cbn [rbind] in H. cbv zeta in H.
    apply read_full_iff in M as [M ML]; [|lia|lia]. apply read_full_iff in R as [R RL]; [|lia|lia].
    assert (MB : m = u32 be 2500072158).
    { destruct (u32_uint false m ML) as [_ E]. rewrite <- E. pose proof (magic_order be) as X.
      destruct (u32_uint false (u32 be 2500072158) (u32_length be _)) as [_ Y]. rewrite <- Y, X. f_equal.
      destruct (Z.eqb_spec (uint false m) magic_little); [injection B as <-; assumption|].
      destruct (Z.eqb_spec (uint false m) magic_big); [injection B as <-; assumption|discriminate]. }
    set (v := uint be (slice 0 2 b)) in *. set (w := uint be (slice 2 4 b)) in *.
    destruct (negb (v =? 0) && negb (v =? 1)) eqn:V; [discriminate|].
    destruct (negb (w =? 0) && negb (w =? 1)) eqn:W; [discriminate|]. injection H as <- <- <-.
    assert (F : forall i j, (i <= j <= 24)%nat -> (j - i = 4)%nat -> fits (uint be (slice i j b)) /\ u32 be (uint be (slice i j b)) = slice i j b).
    { intros i j I J. apply u32_uint. rewrite slice_length; lia. }
    split; [apply (F 4 8)%nat; lia|]. split; [apply (F 8 12)%nat; lia|]. split; [apply (F 12 16)%nat; lia|].
    exists v, w, (uint be (slice 16 20 b)), (uint be (slice 20 24 b)).
    split; [clear - V; clearbody v; cbn [In]; lia|]. split; [clear - W; clearbody w; cbn [In]; lia|].
    split; [apply (F 16 20)%nat; lia|]. split; [apply (F 20 24)%nat; lia|].
    apply at_offset_app. rewrite u32_length. split; [now rewrite <- MB|].
    unfold v, w. rewrite (proj2 (F 4 8 ltac:(lia) ltac:(lia))%nat), (proj2 (F 8 12 ltac:(lia) ltac:(lia))%nat),
      (proj2 (F 12 16 ltac:(lia) ltac:(lia))%nat), (proj2 (F 16 20 ltac:(lia) ltac:(lia))%nat), (proj2 (F 20 24 ltac:(lia) ltac:(lia))%nat).
    rewrite (proj2 (u16_uint be (slice 0 2 b) ltac:(rewrite slice_length; lia))), (proj2 (u16_uint be (slice 2 4 b) ltac:(rewrite slice_length; lia))).
    rewrite <- split24 by exact RL. exact R.
  - intros (FC & FI & FS & v & w & hs & ho & V & W & FH & FO & A).
    apply at_offset_app in A as [M R]. rewrite u32_length in R.
    rewrite (proj2 (read_full_iff s 0 4 _ ltac:(lia) ltac:(lia)) (conj M (u32_length _ _))). cbn [rbind].
    destruct (head_slices (u16 be v) (u16 be w) (u32 be count) (u32 be ids) (u32 be strs) (u32 be hs) (u32 be ho))
      as (L & E1 & E2 & E3 & E4 & E5); try apply u16_length; try apply u32_length.
    rewrite (proj2 (read_full_iff s 4 24 _ ltac:(lia) ltac:(lia)) (conj R L)). cbn [rbind]. cbv zeta.
    rewrite E1, E2, E3, E4, E5, !uint_u32, !uint_u16 by (try assumption; cbn in V, W; lia). split.
    + rewrite magic_order. destruct be; reflexivity.
    + cbn in V, W. destruct V as [<-|[<-|[]]], W as [<-|[<-|[]]]; reflexivity.
Qed.

(** ** Tables *)
Lemma row_step : forall s be pos i len off, row_at s be pos (S i) len off <-> row_at s be (pos + 8) i len off.
Proof. intros. unfold row_at. replace (pos + 8 * Z.of_nat (S i)) with (pos + 8 + 8 * Z.of_nat i) by lia. reflexivity. Qed.
Lemma table_iff : forall s be n pos rows, 0 <= pos ->
  (read_table s be pos n = Ok rows <->
   length rows = n /\ forall i len off, nth_error rows i = Some (len, off) -> row_at s be pos i len off).
Proof.
  intros s be. induction n as [|n IH]; intros pos rows P; cbn [read_table].
  - split.
    + intro H. injection H as <-. split; [reflexivity|]. intros [|i] len off H; discriminate.
    + intros [L _]. destruct rows; [reflexivity|discriminate].
  - split.
    + destruct (read_full s pos 4) as [a| | |] eqn:A; try discriminate. cbn [rbind].
      destruct (read_full s (pos + 4) 4) as [b| | |] eqn:B; try discriminate. cbn [rbind].
      destruct (read_table s be (pos + 8) n) as [t| | |] eqn:T; try discriminate. cbn [rbind]. intro H. injection H as <-.
      apply read_full_iff in A as [A LA]; [|lia|lia]. apply read_full_iff in B as [B LB]; [|lia|lia].
      apply IH in T as [LT T]; [|lia]. split; [cbn; lia|]. intros [|i] len off H.
      * injection H as <- <-. destruct (u32_uint be a LA) as [Fa Ua]. destruct (u32_uint be b LB) as [Fb Ub].
        split; [exact Fa|]. split; [exact Fb|]. rewrite Ua, Ub. apply at_offset_app. rewrite LA.
        replace (pos + 8 * Z.of_nat 0) with pos by lia. split; [exact A|exact B].
      * apply row_step. now apply T.
    + intros [L H]. destruct rows as [|[len off] rows]; [discriminate|]. injection L as L.
      destruct (H 0%nat len off eq_refl) as (F1 & F2 & A). replace (pos + 8 * Z.of_nat 0) with pos in A by lia.
      apply at_offset_app in A as [A B]. rewrite u32_length in B.
      rewrite (proj2 (read_full_iff s pos 4 _ ltac:(lia) ltac:(lia)) (conj A (u32_length _ _))). cbn [rbind].
      rewrite (proj2 (read_full_iff s (pos + 4) 4 _ ltac:(lia) ltac:(lia)) (conj B (u32_length _ _))). cbn [rbind].
      rewrite (proj2 (IH (pos + 8) rows ltac:(lia))).
      * cbn [rbind]. now rewrite !uint_u32.
      * split; [exact L|]. intros i l o I. apply row_step. now apply H.
Qed.

(** ** Texts *)
Lemma text_iff : forall s len off t, 0 <= len -> 0 <= off ->
  (read_text s (len, off) = Ok t <-> text_read s len off t).
Proof.
  intros s len off t L O. unfold read_text. rewrite drop_z_skipn by exact O. cbv zeta. split.
  - destruct (Z.leb_spec (Z.of_nat (length s)) off) as [H|H]; [discriminate|]. intro E. injection E as <-.
    set (r := skipn (Z.to_nat off) s). assert (LR : Z.of_nat (length r) = Z.of_nat (length s) - off) by (unfold r; rewrite skipn_length; lia).
    assert (SP : s = firstn (Z.to_nat off) s ++ r) by (unfold r; now rewrite firstn_skipn).
    assert (LP : Z.of_nat (length (firstn (Z.to_nat off) s)) = off) by (rewrite firstn_length_le; lia).
    split; [exact H|]. split; [rewrite app_length, repeat_length, firstn_length; lia|].
    exists (firstn (Z.to_nat len) r), (Z.to_nat len - length (firstn (Z.to_nat len) r))%nat. split; [reflexivity|]. split.
    + exists (firstn (Z.to_nat off) s), (skipn (Z.to_nat len) r). split; [|exact LP]. rewrite firstn_skipn. exact SP.
    + intro N. rewrite firstn_length in *. lia.
  - intros (H & E & a & n & -> & (p & q & -> & P) & N). rewrite app_length, repeat_length in E. rewrite !app_length in H.
    destruct (Z.leb_spec (Z.of_nat (length (p ++ a ++ q))) off) as [H'|_]; [rewrite !app_length in H'; lia|].
    replace (Z.to_nat off) with (length p) by lia. rewrite skipn_app, skipn_all, Nat.sub_diag. cbn [app skipn].
    f_equal. destruct n as [|n].
    + cbn [repeat]. rewrite app_nil_r. replace (Z.to_nat len) with (length a) by lia.
      rewrite firstn_app, Nat.sub_diag, firstn_all. cbn [firstn]. rewrite app_nil_r, Nat.sub_diag. apply app_nil_r.
    + specialize (N ltac:(discriminate)). rewrite !app_length in N. assert (q = []) by (apply length_zero_iff_nil; lia). subst q.
      rewrite app_nil_r, firstn_all2 by lia. f_equal. f_equal. lia.
Qed.
Lemma read_text_cases : forall s e, (exists t, read_text s e = Ok t) \/ read_text s e = Err.
Proof. intros s [len off]. unfold read_text. destruct (_ <=? _); [auto|]. left. eexists. reflexivity. Qed.

Definition build (f : pofile) (ts : list (bytes * bytes)) : pofile :=
  fold_left (fun f t => mo_add f (fst t) (snd t)) ts f.
Definition rows_read (s : bytes) (rows : list (Z * Z)) (ts : list bytes) : Prop :=
  Forall2 (fun e t => read_text s e = Ok t) rows ts.
Lemma messages_iff : forall s r1 r2 f f', length r1 = length r2 ->
  (mo_messages s f r1 r2 = Ok f' <->
   exists ts, rows_read s r1 (map fst ts) /\ rows_read s r2 (map snd ts) /\ f' = build f ts).
Proof.
  intros s. induction r1 as [|e r1 IH]; intros [|e2 r2] f f' L; try discriminate L; cbn [mo_messages].
  - split.
    + intro H. injection H as <-. exists []. repeat split; constructor.
    + intros (ts & A & _ & ->). destruct ts; [reflexivity|inversion A].
  - injection L as L. split.
    + destruct (read_text s e) as [k| | |] eqn:K; try discriminate. cbn [rbind].
      destruct (read_text s e2) as [v| | |] eqn:V; try discriminate. cbn [rbind]. intro H.
      apply IH in H as (ts & A & B & ->); [|exact L]. exists ((k, v) :: ts). cbn [map fst snd].
      split; [constructor; assumption|]. split; [constructor; assumption|reflexivity].
    + intros (ts & A & B & ->). destruct ts as [|[k v] ts]; [inversion A|]. cbn [map fst snd] in *.
      inversion A as [|? ? ? ? K A']; subst. inversion B as [|? ? ? ? V B']; subst. rewrite K. cbn [rbind]. rewrite V. cbn [rbind].
      apply IH; [exact L|]. exists ts. auto.
Qed.
Lemma messages_cases : forall s r1 r2 f, (exists f', mo_messages s f r1 r2 = Ok f') \/ mo_messages s f r1 r2 = Err.
Proof.
  intros s. induction r1 as [|e r1 IH]; intros [|e2 r2] f; cbn [mo_messages]; eauto.
  destruct (read_text_cases s e) as [[k E]|E]; rewrite ?E; clear E; cbn [rbind]; [|auto].
  destruct (read_text_cases s e2) as [[v E]|E]; rewrite ?E; clear E; cbn [rbind]; [|auto]. apply IH.
Qed.
Lemma table_cases : forall s be n pos, (exists t, read_table s be pos n = Ok t) \/ read_table s be pos n = Err.
Proof.
  intros s be. induction n as [|n IH]; intro pos; cbn [read_table]; eauto.
  destruct (read_full_cases s pos 4) as [[a E]|E]; rewrite ?E; clear E; cbn [rbind]; [|auto].
  destruct (read_full_cases s (pos + 4) 4) as [[b E]|E]; rewrite ?E; clear E; cbn [rbind]; [|auto].
  destruct (IH (pos + 8)) as [[t E]|E]; rewrite ?E; clear E; cbn [rbind]; eauto.
Qed.
Lemma parse_mo_cases : forall s, (exists f, parse_mo s = Ok f) \/ parse_mo s = Err.
Proof.
  intro s. unfold parse_mo, byte_order, mo_header.
  destruct (read_full_cases s 0 4) as [[m E]|E]; rewrite ?E; clear E; cbn [rbind]; [|auto].
  assert (X : forall be, let r := do h <- (do b <- read_full s 4 24;
      (let major := uint be (slice 0 2 b) in let minor := uint be (slice 2 4 b) in
       if negb (major =? 0) && negb (major =? 1) then Err
       else if negb (minor =? 0) && negb (minor =? 1) then Err
       else Ok (uint be (slice 4 8 b), uint be (slice 8 12 b), uint be (slice 12 16 b))));
      (let '(count, ido, stro) := h in
       do ids <- read_table s be ido (Z.to_nat count); do strs <- read_table s be stro (Z.to_nat count);
       mo_messages s (PoFile new_header []) ids strs) in (exists f, r = Ok f) \/ r = Err).
  { intro be. cbv zeta. destruct (read_full_cases s 4 24) as [[b E]|E]; rewrite ?E; clear E; cbn [rbind]; [|auto].
    destruct (negb _ && _); cbn [rbind]; [auto|]. destruct (negb _ && _); cbn [rbind]; [auto|].
    match goal with |- context [read_table s be ?p ?n] => destruct (table_cases s be n p) as [[r1 E]|E]; rewrite ?E; clear E end; cbn [rbind]; [|auto].
    match goal with |- context [read_table s be ?p ?n] => destruct (table_cases s be n p) as [[r2 E]|E]; rewrite ?E; clear E end; cbn [rbind]; [|auto].
    apply messages_cases. }
  destruct (uint false m =? magic_little); [exact (X false)|]. destruct (uint false m =? magic_big); [exact (X true)|]. auto.
Qed.

Lemma parse_mo_iff : forall s f, parse_mo s = Ok f <->
  exists be count ids strs r1 r2 ts, mo_head s be count ids strs /\
    length r1 = Z.to_nat count /\ length r2 = Z.to_nat count /\
    (forall i len off, nth_error r1 i = Some (len, off) -> row_at s be ids i len off) /\
    (forall i len off, nth_error r2 i = Some (len, off) -> row_at s be strs i len off) /\
    rows_read s r1 (map fst ts) /\ rows_read s r2 (map snd ts) /\ f = build (PoFile new_header []) ts.
Proof.
  intros s f. unfold parse_mo. split.
  - destruct (byte_order s) as [be| | |] eqn:B; try discriminate. cbn [rbind].
    destruct (mo_header s be) as [[[count ids] strs]| | |] eqn:H; try discriminate. cbn [rbind].
    pose proof (proj1 (head_iff s be count ids strs) (conj B H)) as HD. pose proof HD as (FC & [FI _] & [FS _] & _).
    destruct (read_table s be ids (Z.to_nat count)) as [r1| | |] eqn:R1; try discriminate. cbn [rbind].
    destruct (read_table s be strs (Z.to_nat count)) as [r2| | |] eqn:R2; try discriminate. cbn [rbind]. intro M.
    apply table_iff in R1 as [L1 T1]; [|exact FI]. apply table_iff in R2 as [L2 T2]; [|exact FS].
    apply messages_iff in M as (ts & A1 & A2 & E); [|congruence].
    exists be, count, ids, strs, r1, r2, ts. repeat (split; [assumption|]). exact E.
  - intros (be & count & ids & strs & r1 & r2 & ts & HD & L1 & L2 & T1 & T2 & A1 & A2 & ->).
    pose proof (proj2 (head_iff s be count ids strs) HD) as [B H]. destruct HD as (FC & [FI _] & [FS _] & _).
    rewrite B. cbn [rbind]. rewrite H. cbn [rbind].
    rewrite (proj2 (table_iff s be _ ids r1 FI) (conj L1 T1)). cbn [rbind].
    rewrite (proj2 (table_iff s be _ strs r2 FS) (conj L2 T2)). cbn [rbind].
    apply messages_iff; [congruence|]. exists ts. auto.
Qed.

(** ** Files in the GNU layout *)
Lemma text_present : forall s len off t, Z.of_nat (length t) = len -> at_offset s off (t ++ [NUL]) ->
  read_text s (len, off) = Ok t.
Proof.
  intros s len off t L A. pose proof A as (p & q & E & P). apply text_iff; [lia|lia|].
  split; [rewrite E, !app_length; cbn [length]; lia|]. split; [exact L|]. exists t, O. split; [now rewrite app_nil_r|].
  split; [now apply at_offset_app in A|congruence].
Qed.
Lemma rows_of : forall s be ts table, (forall i t, nth_error ts i = Some t -> string_at s be table i t) ->
  exists rows, length rows = length ts /\
    (forall i len off, nth_error rows i = Some (len, off) -> row_at s be table i len off) /\ rows_read s rows ts.
Proof.
  intros s be. induction ts as [|t ts IH]; intros table H.
  - exists []. split; [reflexivity|]. split; [intros [|i] ? ? ?; discriminate|constructor].
  - destruct (IH (table + 8)) as (rows & L & R & A).
    { intros i u U. destruct (H (S i) u U) as (off & O & T). exists off. split; [now apply row_step|exact T]. }
    destruct (H O t eq_refl) as (off & O & T). exists ((Z.of_nat (length t), off) :: rows).
    split; [cbn; lia|]. split; [|constructor; [now apply text_present|exact A]].
    intros [|i] len o I; [now injection I as <- <-|]. apply row_step. now apply R.
Qed.
Lemma split_nul_joined : forall l, l <> [] -> Forall (fun t => ~ In NUL t) l -> split_on NUL (nul_joined l) = l.
Proof.
  induction l as [|x l IH]; intros N F; [congruence|]. pose proof (Forall_inv F) as X. apply Forall_inv_tail in F.
  destruct l as [|y l]; [now apply PoItemProofs.split_one|]. change (nul_joined (x :: y :: l)) with (x ++ NUL :: nul_joined (y :: l)).
  rewrite PoItemProofs.split_sep by exact X. now rewrite IH.
Qed.
Lemma number_from_ok : forall l i, map fst (number_from (Z.of_nat i) l) = map Z.of_nat (seq i (length l)) /\
  map snd (number_from (Z.of_nat i) l) = l.
Proof.
  induction l as [|x l IH]; intro i; [auto|]. cbn [number_from map fst snd length seq].
  replace (Z.of_nat i + 1) with (Z.of_nat (S i)) by lia. destruct (IH (S i)) as [-> ->]. auto.
Qed.
Lemma message_of_texts : forall e k v, entry_texts (EMsg e) k v -> representable e ->
  is_message e (mo_message k v) /\ k <> [].
Proof.
  intros [ctx id pl strs] k v [-> ->] (NI & ZI & C & P). cbn [mm_ctx mm_id mm_pl mm_strs] in *.
  change context_end with EOT in *. unfold mo_message.
  assert (E : match index_byte EOT (match ctx with Some c => c ++ [EOT] | None => [] end ++ id ++ match pl with Some p => NUL :: p | None => [] end) with
              | Some i => (firstn i (match ctx with Some c => c ++ [EOT] | None => [] end ++ id ++ match pl with Some p => NUL :: p | None => [] end),
                           skipn (S i) (match ctx with Some c => c ++ [EOT] | None => [] end ++ id ++ match pl with Some p => NUL :: p | None => [] end))
              | None => ([], match ctx with Some c => c ++ [EOT] | None => [] end ++ id ++ match pl with Some p => NUL :: p | None => [] end)
              end = (opt_text ctx, id ++ match pl with Some p => NUL :: p | None => [] end)).
  { destruct ctx as [c|].
    - rewrite <- app_assoc. cbn [app]. rewrite PoScanProofs.index_app by exact C. f_equal.
      + rewrite firstn_app, Nat.sub_diag, firstn_all. cbn [firstn]. apply app_nil_r.
      + rewrite skipn_app, skipn_all2 by lia. cbn [app]. replace (S (length c) - length c)%nat with 1%nat by lia. reflexivity.
    - cbn [app]. rewrite (proj2 (PoDecodeProofs.index_none EOT _)); [reflexivity|]. destruct C as [C1 C2]. intro I. apply in_app_or in I as [I|I]; [auto|].
      destruct pl as [p|]; [|exact I]. destruct I as [I|I]; [discriminate I|auto]. }
  rewrite E. clear E. split.
  - unfold is_message. cbn [mm_ctx mm_id mm_pl mm_strs]. destruct pl as [p|].
    + rewrite PoScanProofs.index_app by exact ZI. cbn [m_ctx m_id m_pl m_com m_str opt_text].
      rewrite firstn_app, Nat.sub_diag, firstn_all. cbn [firstn]. rewrite app_nil_r.
      rewrite skipn_app, skipn_all2 by lia. cbn [app]. replace (S (length id) - length id)%nat with 1%nat by lia. cbn [skipn].
      destruct P as [P1 P2]. rewrite split_nul_joined by assumption. destruct (number_from_ok strs 0) as [N1 N2]. auto 10.
    + rewrite app_nil_r, (proj2 (PoDecodeProofs.index_none NUL id) ZI). destruct P as [t ->]. repeat split.
  - intro X. apply app_eq_nil in X as [_ X]. apply app_eq_nil in X as [X _]. congruence.
Qed.
Lemma add_fresh : forall ms m, ~ In (key m) (map key ms) -> add_to ms m = ms ++ [m].
Proof.
  induction ms as [|x ms IH]; intros m N; [reflexivity|]. cbn [add_to map In] in *.
  destruct (same_key x m) eqn:S; [exfalso; apply N; left; now apply same_key_iff|]. rewrite IH by tauto. reflexivity.
Qed.
Lemma mo_header_same : forall ls h h', header_lines h ls = Some h' -> mo_header_lines h ls = h'.
Proof.
  induction ls as [|l ls IH]; intros h h'; cbn [header_lines mo_header_lines]; [congruence|].
  destruct (index_byte ":" l); [apply IH|]. destruct (is_nil (trim_space l)); [apply IH|discriminate].
Qed.
Definition set_fields (kvs : list (bytes * bytes)) : header := fold_left (fun h e => header_set h (fst e) (snd e)) kvs new_header.
Lemma build_entries : forall l ts f, Forall2 (fun e t => entry_texts e (fst t) (snd t)) l ts -> Forall representable (msgs_of l) ->
  NoDup (map key (f_messages f) ++ map mo_key (msgs_of l)) ->
  exists ms, f_messages (build f ts) = f_messages f ++ ms /\ Forall2 is_message (msgs_of l) ms /\
    f_header (build f ts) = fold_left (fun _ kvs => set_fields kvs) (hdrs_of l) (f_header f).
Proof.
  induction l as [|e l IH]; intros ts f E R ND; inversion E as [|? [k v] ? ts' H E']; subst; cbn [fst snd] in *.
  - exists []. split; [now rewrite app_nil_r|]. split; [constructor|reflexivity].
  - destruct e as [kvs|m]; cbn [msgs_of hdrs_of flat_map app] in *; fold (msgs_of l) in *; fold (hdrs_of l) in *.
    + destruct H as [-> [HF ->]].
      set (hh := mo_header_lines new_header (split_on LF (concat (map (fun e => fst e ++ bs ": " ++ snd e ++ [LF]) kvs)))).
      assert (HH : hh = set_fields kvs) by (apply mo_header_same, header_lines_ok, HF).
      destruct (IH ts' (PoFile hh (f_messages f)) E' R ND) as (ms & A & B & C).
      exists ms. split; [exact A|]. split; [exact B|]. cbn [f_header fold_left] in *. rewrite <- HH. exact C.
    + pose proof (Forall_inv R) as RM. apply Forall_inv_tail in R. cbn beta in RM. destruct (message_of_texts m k v H RM) as [IM KN].
      assert (K : key (mo_message k v) = mo_key m).
      { destruct IM as (X & Y & _). unfold key, mo_key. now rewrite X, Y. }
      assert (A0 : mo_add f k v = PoFile (f_header f) (f_messages f ++ [mo_message k v])).
      { unfold mo_add. destruct k as [|c k]; [congruence|]. cbn [is_nil]. unfold add_message.
        assert (N : m_id (mo_message (c :: k) v) <> []) by (destruct IM as (_ & -> & _); apply RM).
        destruct (m_id (mo_message (c :: k) v)); [congruence|]. cbn [is_nil]. rewrite add_fresh; [reflexivity|].
        rewrite K. cbn [map] in ND. apply NoDup_remove_2 in ND. intro X. apply ND. apply in_or_app. now left. }
      destruct (IH ts' (mo_add f k v) E' R) as (ms & A & B & C).
      { rewrite A0. cbn [f_messages]. rewrite map_app. cbn [map]. rewrite K, <- app_assoc. exact ND. }
      exists (mo_message k v :: ms). rewrite A0 in A, C. cbn [f_messages f_header] in A, C. change (build f ((k, v) :: ts')) with (build (mo_add f k v) ts').
      rewrite A0. rewrite <- app_assoc in A. split; [exact A|]. split; [constructor; assumption|exact C].
Qed.
Theorem mo_file_read : forall s be l, mo_file s be l -> NoDup (map mo_key (msgs_of l)) ->
  exists f, parse_mo s = Ok f /\ Forall2 is_message (msgs_of l) (f_messages f) /\
    f_header f = fold_left (fun _ kvs => set_fields kvs) (hdrs_of l) new_header.
Proof.
  intros s be l (ts & (ids & strs & HD & T) & E & R) ND.
  destruct (build_entries l ts (PoFile new_header []) E R ND) as (ms & A & B & C).
  exists (build (PoFile new_header []) ts). split; [|split; [rewrite A; exact B|exact C]].
  destruct (rows_of s be (map fst ts) ids) as (r1 & L1 & R1 & A1).
  { intros i t H. rewrite nth_error_map in H. destruct (nth_error ts i) as [e|] eqn:N; [|discriminate]. injection H as <-. now apply T. }
  destruct (rows_of s be (map snd ts) strs) as (r2 & L2 & R2 & A2).
  { intros i t H. rewrite nth_error_map in H. destruct (nth_error ts i) as [e|] eqn:N; [|discriminate]. injection H as <-. now apply T. }
  rewrite map_length in L1, L2. apply parse_mo_iff. exists be, (Z.of_nat (length ts)), ids, strs, r1, r2, ts.
  split; [exact HD|]. split; [lia|]. split; [lia|]. auto.
Qed.

(** ** Any file *)
Lemma infix_trans : forall a b c, infix a b -> infix b c -> infix a c.
Proof. intros a b c (p & q & ->) (p' & q' & ->). exists (p' ++ p), (q ++ q'). now rewrite <- !app_assoc. Qed.
Lemma infix_firstn : forall i (t : bytes), infix (firstn i t) t.
Proof. intros i t. exists [], (skipn i t). now rewrite firstn_skipn. Qed.
Lemma infix_skipn : forall i (t : bytes), infix (skipn i t) t.
Proof. intros i t. exists (firstn i t), []. now rewrite app_nil_r, firstn_skipn. Qed.
Lemma infix_nil : forall t, infix [] t.
Proof. intro t. exists [], t. reflexivity. Qed.
Lemma infix_refl : forall t, infix t t.
Proof. intro t. exists [], []. now rewrite app_nil_r. Qed.
Lemma infix_split : forall c t x, In x (split_on c t) -> infix x t.
Proof.
  intros c t. induction t as [|a t IH]; intros x I; cbn [split_on] in I.
  - destruct I as [<-|[]]. apply infix_refl.
  - destruct (split_on c t) as [|y l] eqn:E; [now apply PoDecodeProofs.split_ne in E|].
    destruct (Ascii.eqb a c).
    + destruct I as [<-|I]; [apply infix_nil|]. eapply infix_trans; [now apply IH|]. exists [a], []. now rewrite app_nil_r.
    + destruct I as [<-|I].
      * assert (P : exists q, t = y ++ q).
        { clear - E. revert y l E. induction t as [|b t IHt]; intros y l E; cbn [split_on] in E; [injection E as <- _; now exists []|].
          destruct (Ascii.eqb b c); [injection E as <- _; now exists (b :: t)|].
          destruct (split_on c t) as [|z l'] eqn:E2; [now apply PoDecodeProofs.split_ne in E2|]. injection E as <- _.
          destruct (IHt z l' eq_refl) as [q ->]. now exists q. }
        destruct P as [q ->]. exists [], q. reflexivity.
      * eapply infix_trans; [apply IH; now right|]. exists [a], []. now rewrite app_nil_r.
Qed.
Lemma number_from_snd : forall (P : bytes -> Prop) l i, (forall x, In x l -> P x) -> Forall (fun e => P (snd e)) (number_from i l).
Proof. intros P. induction l as [|x l IH]; intros i H; constructor; [apply H; now left|]. apply IH. intros y I. apply H. now right. Qed.
Lemma message_texts : forall s k v, infix k s -> infix v s -> from_texts (fun t => infix t s) (mo_message k v).
Proof.
  intros s k v K V. unfold mo_message.
  assert (X : exists c i, match index_byte EOT k with Some i => (firstn i k, skipn (S i) k) | None => ([], k) end = (c, i) /\ infix c s /\ infix i s).
  { destruct (index_byte EOT k) as [i|]; eexists _, _; (split; [reflexivity|]).
    - split; (eapply infix_trans; [|exact K]); [apply infix_firstn|apply infix_skipn].
    - split; [apply infix_nil|exact K]. }
  destruct X as (c & i & -> & C & I). destruct (index_byte NUL i) as [j|]; unfold from_texts; cbn [m_ctx m_id m_pl m_str].
  - split; [exact C|]. split; [eapply infix_trans; [apply infix_firstn|exact I]|]. split; [eapply infix_trans; [apply infix_skipn|exact I]|].
    apply (number_from_snd (fun t => infix t s)). intros x X. eapply infix_trans; [eapply infix_split; exact X|exact V].
  - split; [exact C|]. split; [exact I|]. split; [apply infix_nil|]. constructor; [exact V|constructor].
Qed.
Lemma add_to_texts : forall P ms m, Forall (from_texts P) ms -> from_texts P m -> Forall (from_texts P) (add_to ms m).
Proof.
  intros P. induction ms as [|x ms IH]; intros m F M; cbn [add_to]; [constructor; [exact M|constructor]|].
  pose proof (Forall_inv F) as X. cbn beta in X. apply Forall_inv_tail in F. destruct (same_key x m).
  - constructor; [|exact F]. destruct X as (X1 & X2 & X3 & X4). unfold merge_message, from_texts. cbn [m_ctx m_id m_pl m_str].
    split; [exact X1|]. split; [exact X2|]. split; [|exact X4]. destruct (is_nil (m_pl x)); [apply M|exact X3].
  - constructor; [exact X|now apply IH].
Qed.
Lemma build_texts : forall s ts f, Forall (fun t => infix (fst t) s /\ infix (snd t) s) ts ->
  Forall (from_texts (fun t => infix t s)) (f_messages f) -> Forall (from_texts (fun t => infix t s)) (f_messages (build f ts)).
Proof.
  intros s. induction ts as [|[k v] ts IH]; intros f F M; [exact M|]. pose proof (Forall_inv F) as [K V]. apply Forall_inv_tail in F.
  cbn [fst snd] in K, V. change (build f ((k, v) :: ts)) with (build (mo_add f k v) ts). apply IH; [exact F|]. unfold mo_add.
  destruct (is_nil k); [exact M|]. cbn [f_messages]. unfold add_message. destruct (is_nil _); [exact M|].
  apply add_to_texts; [exact M|now apply message_texts].
Qed.

Lemma forall2_rows : forall (P : Z * Z -> bytes -> Prop) rows ts i t, Forall2 P rows ts -> nth_error ts i = Some t ->
  exists e, nth_error rows i = Some e /\ P e t.
Proof.
  intros P rows ts i t F. revert i. induction F as [|e u rows ts H F IH]; intros [|i] N; try discriminate.
  - injection N as <-. now exists e.
  - now apply IH.
Qed.
Lemma text_infix : forall s len off t, text_read s len off t -> infix t (s ++ repeat NUL (Z.to_nat len)) /\
  (off + len <= Z.of_nat (length s) -> infix t s).
Proof.
  intros s len off t (_ & L & a & n & -> & (p & q & -> & P) & N). rewrite app_length, repeat_length in L. split.
  - destruct n as [|n].
    + exists p, (q ++ repeat NUL (Z.to_nat len)). cbn [repeat]. now rewrite app_nil_r, <- !app_assoc.
    + specialize (N ltac:(discriminate)). rewrite !app_length in N. assert (q = []) by (apply length_zero_iff_nil; lia). subst q.
      exists p, (repeat NUL (Z.to_nat len - S n)). rewrite app_nil_r, <- !app_assoc. do 2 f_equal.
      rewrite <- repeat_app. f_equal. lia.
  - intro H. destruct n as [|n]; [exists p, q; now rewrite app_nil_r|]. specialize (N ltac:(discriminate)). rewrite !app_length in *. lia.
Qed.
Lemma head_count : forall s be count ids strs be' count' ids' strs', mo_head s be count ids strs -> mo_head s be' count' ids' strs' ->
  be = be' /\ count = count' /\ ids = ids' /\ strs = strs'.
Proof.
  intros s be count ids strs be' count' ids' strs' A B. apply head_iff in A as [A1 A2], B as [B1 B2].
  rewrite A1 in B1. injection B1 as <-. rewrite A2 in B2. injection B2 as -> -> ->. auto.
Qed.
Lemma infix_app : forall a b c, infix a b -> infix a (b ++ c).
Proof. intros a b c (p & q & ->). exists p, (q ++ c). now rewrite <- !app_assoc. Qed.
Lemma row_read : forall s be table rows ts t, (forall i len off, nth_error rows i = Some (len, off) -> row_at s be table i len off) ->
  rows_read s rows ts -> In t ts ->
  exists i len off, (i < length rows)%nat /\ row_at s be table i len off /\ text_read s len off t.
Proof.
  intros s be table rows ts t R A I. apply In_nth_error in I as [i N]. destruct (forall2_rows _ _ _ _ _ A N) as ([len off] & E & T).
  exists i, len, off. pose proof (R i len off E) as RA. split; [apply nth_error_Some; congruence|]. split; [exact RA|].
  destruct RA as ([? ?] & [? ?] & _). now apply text_iff.
Qed.
Theorem mo_any : forall s f, parse_mo s = Ok f ->
  exists be count ids strs, mo_head s be count ids strs /\
    (forall table i, In table [ids; strs] -> (i < Z.to_nat count)%nat ->
      exists len off, row_at s be table i len off /\ off < Z.of_nat (length s)) /\
    (exists n, Forall (from_texts (fun t => infix t (s ++ repeat NUL n))) (f_messages f)) /\
    ((forall table i len off, In table [ids; strs] -> (i < Z.to_nat count)%nat -> row_at s be table i len off ->
        off + len <= Z.of_nat (length s)) ->
     Forall (from_texts (fun t => infix t s)) (f_messages f)).
Proof.
  intros s f H. apply parse_mo_iff in H as (be & count & ids & strs & r1 & r2 & ts & HD & L1 & L2 & R1 & R2 & A1 & A2 & ->).
  exists be, count, ids, strs. split; [exact HD|].
  assert (X : forall table rows us i, (forall i len off, nth_error rows i = Some (len, off) -> row_at s be table i len off) ->
    rows_read s rows us -> (i < length rows)%nat -> exists len off, row_at s be table i len off /\ off < Z.of_nat (length s)).
  { intros table rows us i R A I. destruct (nth_error rows i) as [[len off]|] eqn:E; [|apply nth_error_None in E; lia].
    exists len, off. pose proof (R i len off E) as RA. split; [exact RA|].
    assert (T : exists t, read_text s (len, off) = Ok t).
    { clear - A E. revert i E. induction A as [|e u rows us H A IH]; intros [|i] E; try discriminate; [injection E as ->; eauto|eauto]. }
    destruct T as [t T]. unfold read_text in T. destruct (Z.leb_spec (Z.of_nat (length s)) off); [discriminate|assumption]. }
  split.
  { intros table i [<-|[<-|[]]] I; [eapply X; [exact R1|exact A1|lia]|eapply X; [exact R2|exact A2|lia]]. }
  split.
  - exists (Z.to_nat 4294967296). apply build_texts; [|constructor]. apply Forall_forall. intros [k v] I. cbn [fst snd].
    assert (Y : forall table rows us t, (forall i len off, nth_error rows i = Some (len, off) -> row_at s be table i len off) ->
      rows_read s rows us -> In t us -> infix t (s ++ repeat NUL (Z.to_nat 4294967296))).
    { intros table rows us t R A J. destruct (row_read s be table rows us t R A J) as (i & len & off & _ & ([F1 F2] & _) & T).
      apply text_infix in T as [T _]. replace (Z.to_nat 4294967296) with (Z.to_nat len + (Z.to_nat 4294967296 - Z.to_nat len))%nat by lia.
      rewrite repeat_app, app_assoc. now apply infix_app. }
    split; [eapply Y; [exact R1|exact A1|]|eapply Y; [exact R2|exact A2|]].
    + apply in_map_iff. now exists (k, v).
    + apply in_map_iff. now exists (k, v).
  - intro IN. apply build_texts; [|constructor]. apply Forall_forall. intros [k v] I. cbn [fst snd]. split.
    + destruct (row_read s be ids r1 (map fst ts) k R1 A1) as (i & len & off & J & RA & T); [apply in_map_iff; now exists (k, v)|].
      apply text_infix in T as [_ T]. apply T. apply (IN ids i); [now left|lia|exact RA].
    + destruct (row_read s be strs r2 (map snd ts) v R2 A2) as (i & len & off & J & RA & T); [apply in_map_iff; now exists (k, v)|].
      apply text_infix in T as [_ T]. apply T. apply (IN strs i); [right; now left|lia|exact RA].
Qed.
