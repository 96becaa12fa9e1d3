(** Comment lines of the PO line grammar: what the parser makes of them. *)
From Coq Require Import String Ascii List ZArith Bool Lia ZifyBool.
From Verif Require Import Base BaseProofs Utf8Model Utf8Proofs StrModel ReModel ReProofs PoStrModel
  PoStrSpec PoStrProofs PoDecodeProofs PoFileModel PoFileSpec TrimProofs PoScanProofs.
Import ListNotations.
Open Scope Z_scope.

(** ** Words *)
Lemma enc_no_ascii : forall r c, scalar r = true -> bval c < 128 -> In c (encode_rune r) -> encode_rune r = [c].
Proof.
  intros r c S B I. unfold encode_rune in *. rewrite S in *. apply scalar_range in S.
  destruct (r <? 128) eqn:E1.
  - destruct I as [I|[]]. now subst.
  - exfalso. assert (X : forall z, 128 <= z < 256 -> byte_of z = c -> False).
    { intros z Z E. subst c. rewrite byte_of_val in B by lia. lia. }
    destruct (r <? 2048) eqn:E2.
    + cbn [In] in I. destruct I as [I|[I|[]]]; apply X in I; Z.to_euclidean_division_equations; lia.
    + destruct (r <? 65536) eqn:E3; cbn [In] in I.
      * destruct I as [I|[I|[I|[]]]]; apply X in I; Z.to_euclidean_division_equations; lia.
      * destruct I as [I|[I|[I|[I|[]]]]]; apply X in I; Z.to_euclidean_division_equations; lia.
Qed.
Lemma word_ind_l : forall w, word w -> exists r u, scalar r = true /\ is_space r = false /\ w = encode_rune r ++ u.
Proof.
  intros w (N & rs & -> & F). destruct rs as [|r rs]; [destruct (N eq_refl)|].
  inversion F as [|? ? [A B] _]; subst. exists r, (encode_all rs). auto.
Qed.
Lemma word_ind_r : forall w, word w -> exists r u, scalar r = true /\ is_space r = false /\ w = u ++ encode_rune r.
Proof.
  intros w (N & rs & -> & F). destruct (exists_last (l := rs)) as (u & r & ->).
  { intros ->. apply N. reflexivity. }
  apply Forall_app in F as [_ F]. inversion F as [|? ? [A B] _]; subst. exists r, (encode_all u).
  split; [exact A|]. split; [exact B|]. rewrite encode_all_app. unfold encode_all at 2. cbn [map concat].
  now rewrite app_nil_r.
Qed.
Lemma word_clean : forall w, word w -> clean w.
Proof.
  intros w W. destruct (word_ind_l w W) as (r & u & A & B & C). destruct (word_ind_r w W) as (s & v & D & E & F).
  right. exists r, u, s, v. auto 10.
Qed.
Lemma word_no_space : forall w c, word w -> bval c < 128 -> is_space (bval c) = true -> ~ In c w.
Proof.
  intros w c (_ & rs & -> & F) B S I. unfold encode_all in I. apply in_concat in I as (x & X & I).
  apply in_map_iff in X as (r & <- & R). rewrite Forall_forall in F. apply F in R as [SC NS].
  apply enc_no_ascii in I; [|exact SC|exact B].
  rewrite <- (encode_byte c B) in I. apply encode_inj in I; [|exact SC|now apply solid_scalar]. subst r. congruence.
Qed.
Lemma clean_join : forall a t b, word a -> word b -> clean (a ++ t ++ b).
Proof.
  intros a t b A B. destruct (word_ind_l a A) as (r & u & A1 & A2 & ->).
  destruct (word_ind_r b B) as (s & v & B1 & B2 & ->). right.
  exists r, (u ++ t ++ v ++ encode_rune s), s, ((encode_rune r ++ u) ++ t ++ v).
  rewrite <- !app_assoc. auto 10.
Qed.
Lemma clean_ends : forall t, (exists a u, word a /\ t = a ++ u) -> (exists b v, word b /\ t = v ++ b) -> clean t.
Proof.
  intros t (a & u & A & E1) (b & v & B & E2). destruct (word_ind_l a A) as (r & x & A1 & A2 & ->).
  destruct (word_ind_r b B) as (s & y & B1 & B2 & ->). right.
  exists r, (x ++ u), s, (v ++ y). rewrite <- app_assoc in E1. rewrite app_assoc in E2. auto 10.
Qed.
Lemma word_app : forall a b, word a -> word b -> word (a ++ b).
Proof.
  intros a b (N & rs & -> & F) (_ & ss & -> & G). split; [intro E; apply app_eq_nil in E as [E _]; contradiction|].
  exists (rs ++ ss). split; [now rewrite encode_all_app|]. now apply Forall_app.
Qed.
Lemma word_solid : forall c, solid c = true -> word [c].
Proof.
  intros c S. unfold solid in S. split; [discriminate|]. exists [bval c]. unfold encode_all. cbn [map concat].
  rewrite encode_byte by lia. split; [reflexivity|]. constructor; [|constructor].
  split; [apply solid_scalar; lia|]. destruct (is_space (bval c)); [lia|reflexivity].
Qed.
Lemma digit_solid : forall c, is_digit c = true -> solid c = true.
Proof. intros c D. unfold is_digit in D. unfold solid, is_space, in_rng. lia. Qed.
Lemma word_digits : forall d, d <> [] -> Forall (fun c => is_digit c = true) d -> word d.
Proof.
  induction d as [|c d IH]; intros N F; [congruence|]. inversion F as [|? ? C D]; subst.
  destruct d as [|e d]; [apply word_solid, digit_solid, C|]. change (word ([c] ++ e :: d)).
  apply word_app; [apply word_solid, digit_solid, C|]. apply IH; [discriminate|exact D].
Qed.

(** ** References *)
Lemma ref_word : forall r s, ref_text_of r s -> word s.
Proof.
  intros r s (W & NC & _ & [[_ ->]|(d & N & D & _ & _ & ->)]); [exact W|].
  apply word_app; [exact W|]. change (word ([":"%char] ++ d)). apply word_app; [now apply word_solid|now apply word_digits].
Qed.
Lemma parse_ref_ok : forall r s, ref_text_of r s -> parse_ref s = r.
Proof.
  intros r s R. unfold parse_ref. rewrite (clean_trim s) by (apply word_clean, (ref_word r s R)). cbv zeta.
  destruct r as [p ln co]. unfold ref_text_of in R. cbn [r_path r_line r_col] in R.
  destruct R as (W & NC & -> & [[-> ->]|(d & N & D & V & M & ->)]).
  - rewrite (proj2 (index_none ":" p)) by exact NC. reflexivity.
  - rewrite index_app by exact NC. destruct p as [|a p]; [destruct W; congruence|].
    cbn [length]. change (S (length p)) with (length (a :: p)). rewrite firstn_len_app.
    change (S (length (a :: p))) with (1 + length (a :: p))%nat. rewrite <- skipn_skipn, skipn_len_app.
    cbn [skipn]. rewrite parse_int_digits; [now rewrite V|exact N| |now rewrite V].
    apply forallb_forall. now rewrite <- Forall_forall.
Qed.
Lemma refs_ends : forall rs t, refs_text rs t -> (exists a u, word a /\ t = a ++ u) /\ (exists b v, word b /\ t = v ++ b).
Proof.
  induction 1 as [r s R|r s rs t R RS [I1 I2]].
  - apply ref_word in R. split; [exists s, []; now rewrite app_nil_r|exists s, []; auto].
  - apply ref_word in R. split; [exists s, (SP :: t); auto|]. destruct I2 as (b & v & B & ->).
    exists b, (s ++ SP :: v). split; [exact B|]. now rewrite <- app_assoc.
Qed.
Lemma split_sep : forall c a b, ~ In c a -> split_on c (a ++ c :: b) = a :: split_on c b.
Proof.
  induction a as [|x a IH]; intros b N; cbn [app split_on].
  - now rewrite Ascii.eqb_refl.
  - destruct (Ascii.eqb_spec x c) as [->|]; [exfalso; apply N; now left|].
    rewrite IH by (intro I; apply N; now right). reflexivity.
Qed.
Lemma split_one : forall c a, ~ In c a -> split_on c a = [a].
Proof.
  induction a as [|x a IH]; intro N; [reflexivity|]. cbn [split_on].
  destruct (Ascii.eqb_spec x c) as [->|]; [exfalso; apply N; now left|].
  rewrite IH by (intro I; apply N; now right). reflexivity.
Qed.
Lemma refs_split : forall rs t, refs_text rs t -> map parse_ref (split_on " " t) = rs.
Proof.
  induction 1 as [r s R|r s rs t R RS IH].
  - rewrite split_one; [cbn; now rewrite (parse_ref_ok r s R)|].
    apply word_no_space; [exact (ref_word r s R)|reflexivity|reflexivity].
  - change SP with " "%char. rewrite split_sep
      by (apply word_no_space; [exact (ref_word r s R)|reflexivity|reflexivity]).
    cbn [map]. now rewrite (parse_ref_ok r s R), IH.
Qed.

(** ** Flags *)
Definition fsep (r : rune) : bool := is_space r || (r =? 44).
Definition fsegs (s : bytes) := segs_fuel (length s) s.
Lemma fsegs_enough : forall f f' s, (length s <= f)%nat -> (length s <= f')%nat ->
  segs_fuel f s = segs_fuel f' s.
Proof.
  induction f as [|f IH]; intros f' s L L'.
  - destruct s; [destruct f'; reflexivity|simpl in L; lia].
  - destruct s as [|c s]; [destruct f'; reflexivity|].
    destruct f' as [|f']; [simpl in L'; lia|]. cbn [segs_fuel].
    pose proof (decode_width c s) as W. destruct (decode_rune (c :: s)) as [r w]. cbn [snd] in W.
    f_equal. apply IH; rewrite skipn_length; cbn [length] in *; lia.
Qed.
Lemma fsegs_enc : forall r s, scalar r = true -> fsegs (encode_rune r ++ s) = (r, encode_rune r) :: fsegs s.
Proof.
  intros r s S. unfold fsegs. destruct (encode_rune r ++ s) as [|c u] eqn:E.
  { apply app_eq_nil in E as [E _]. destruct (encode_rune_ne r E). }
  cbn [length segs_fuel]. rewrite <- E, (decode_encode r s S), firstn_len_app, skipn_len_app.
  f_equal. apply fsegs_enough; [|lia]. apply (f_equal (@length ascii)) in E. rewrite app_length in E.
  cbn [length] in E. pose proof (encode_rune_ne r). destruct (encode_rune r); [congruence|cbn [length] in E; lia].
Qed.
Lemma fields_word : forall rs cur s, Forall (fun r => scalar r = true /\ fsep r = false) rs ->
  fields fsep (fsegs (encode_all rs ++ s)) cur = fields fsep (fsegs s) (cur ++ encode_all rs).
Proof.
  induction rs as [|r rs IH]; intros cur s F.
  - unfold encode_all. cbn [map concat app]. now rewrite app_nil_r.
  - inversion F as [|? ? [A B] F']; subst. unfold encode_all. cbn [map concat]. rewrite <- app_assoc.
    rewrite fsegs_enc by exact A. cbn [fields]. rewrite B. fold (encode_all rs). rewrite IH by exact F'.
    now rewrite <- app_assoc.
Qed.
Lemma fields_seps : forall w s, Forall (fun c => c = SP \/ c = TAB \/ c = ","%char) w ->
  fields fsep (fsegs (w ++ s)) [] = fields fsep (fsegs s) [].
Proof.
  induction w as [|c w IH]; intros s F; [reflexivity|]. inversion F as [|? ? C F']; subst.
  assert (B : bval c < 128) by (destruct C as [->|[->| ->]]; reflexivity).
  change ((c :: w) ++ s) with ([c] ++ w ++ s). rewrite <- (encode_byte c B), fsegs_enc by (now apply solid_scalar).
  cbn [fields]. replace (fsep (bval c)) with true by (destruct C as [->|[->| ->]]; reflexivity). now apply IH.
Qed.
Lemma flag_runes : forall f, flag f -> exists rs, f = encode_all rs /\ Forall (fun r => scalar r = true /\ fsep r = false) rs.
Proof.
  intros f ((_ & rs & -> & F) & NC). exists rs. split; [reflexivity|]. rewrite Forall_forall in *. intros r R.
  destruct (F r R) as [A B]. split; [exact A|]. unfold fsep. rewrite B. cbn [orb].
  destruct (Z.eqb_spec r 44) as [->|]; [|reflexivity]. exfalso. apply NC. unfold encode_all. apply in_concat.
  exists (encode_rune 44). split; [|now left]. now apply in_map.
Qed.
Lemma flag_fields_ok : forall fs t, flags_text fs t -> flag_fields t = fs.
Proof.
  unfold flag_fields. fold fsep. intros fs t H. fold (fsegs t).
  induction H as [f F|f w fs t F [WN W] FT IH].
  - pose proof (proj1 (proj1 F)) as N. destruct (flag_runes f F) as (rs & -> & R).
    rewrite <- (app_nil_r (encode_all rs)) at 1.
    rewrite fields_word by exact R. cbn [fsegs length segs_fuel fields app].
    destruct (encode_all rs); [congruence|reflexivity].
  - pose proof (proj1 (proj1 F)) as N. destruct (flag_runes f F) as (rs & -> & R).
    rewrite fields_word by exact R. cbn [app]. destruct w as [|c w]; [congruence|].
    pose proof (Forall_inv W) as C. pose proof (Forall_inv_tail W) as W'. cbn beta in C.
    assert (B : bval c < 128) by (destruct C as [->|[->| ->]]; reflexivity).
    change ((c :: w) ++ t) with ([c] ++ w ++ t). rewrite <- (encode_byte c B), fsegs_enc by (now apply solid_scalar).
    cbn [fields]. replace (fsep (bval c)) with true by (destruct C as [->|[->| ->]]; reflexivity).
    destruct (encode_all rs) as [|x u] eqn:E; [congruence|]. rewrite fields_seps by exact W'. now rewrite IH.
Qed.
Lemma flags_ends : forall rs t, flags_text rs t -> (exists a u, word a /\ t = a ++ u) /\ (exists b v, word b /\ t = v ++ b).
Proof.
  induction 1 as [f [F _]|f w fs t [F _] W FS [I1 I2]].
  - split; [exists f, []; now rewrite app_nil_r|exists f, []; auto].
  - split; [exists f, (w ++ t); auto|]. destruct I2 as (b & v & B & ->).
    exists b, (f ++ w ++ v). split; [exact B|]. now rewrite <- !app_assoc.
Qed.

(** ** Lines *)
Lemma from_app : forall n a b, (n <= length a)%nat -> from n (a ++ b) = Ok (skipn n a ++ b).
Proof.
  intros n a b L. unfold from. replace (Nat.ltb (length (a ++ b)) n) with false
    by (symmetry; apply Nat.ltb_ge; rewrite app_length; lia).
  f_equal. rewrite skipn_app. replace (n - length a)%nat with O by lia. reflexivity.
Qed.
Lemma clean_after : forall p g t, p <> [] -> solid (hd NUL p) = true -> t <> [] -> clean t -> clean (p ++ g ++ t).
Proof.
  intros p g t N S NT [->|(r & u & s & v & _ & _ & _ & SC & NS & E)]; [congruence|].
  destruct p as [|a p]; [congruence|]. cbn [app hd] in *.
  apply (clean_ascii_end a _ s (a :: p ++ g ++ v)); [exact S| |exact SC|exact NS].
  rewrite E. cbn [app]. now rewrite <- !app_assoc.
Qed.

(** What one item adds to the comment. *)
Definition add_item (c : comment) (i : citem) : comment :=
  match i with
  | ITrans t => Com (add_line (cm_tr c) t) (cm_ex c) (cm_refs c) (cm_flags c) (cm_pctx c) (cm_pid c)
  | IExtr t => Com (cm_tr c) (add_line (cm_ex c) t) (cm_refs c) (cm_flags c) (cm_pctx c) (cm_pid c)
  | IRefs rs => Com (cm_tr c) (cm_ex c) (cm_refs c ++ rs) (cm_flags c) (cm_pctx c) (cm_pid c)
  | IFlags fs => Com (cm_tr c) (cm_ex c) (cm_refs c) (cm_flags c ++ fs) (cm_pctx c) (cm_pid c)
  | IPrevCtx v => Com (cm_tr c) (cm_ex c) (cm_refs c) (cm_flags c) (cm_pctx c ++ v) (cm_pid c)
  | IPrevId v => Com (cm_tr c) (cm_ex c) (cm_refs c) (cm_flags c) (cm_pctx c) (cm_pid c ++ v)
  end.
(** What is left of the items with ignoreComments. *)
Definition is_flags (i : citem) : bool := match i with IFlags _ => true | _ => false end.
Definition kept (ign : bool) (is : list citem) : list citem := if ign then filter is_flags is else is.

Fixpoint crun (fuel : nat) (c : comment) (ts : list (ptok * bytes)) : res comment :=
  match ts with
  | [] => Ok c
  | (k, l) :: ts' => do c' <- comment_step fuel c k l ; crun fuel c' ts'
  end.
Lemma crun_app : forall fuel ts ts' c, crun fuel c (ts ++ ts') = do c' <- crun fuel c ts ; crun fuel c' ts'.
Proof.
  induction ts as [|[k l] ts IH]; intros ts' c; cbn [app crun]; [reflexivity|].
  destruct (comment_step fuel c k l); cbn [rbind]; [apply IH|reflexivity..].
Qed.
Definition ctoks (ts : list (ptok * bytes)) : Prop := Forall (fun t => is_comment (fst t) = true) ts.
Definition short (fuel : nat) (ls : list bytes) : Prop := Forall (fun l => (length l < fuel)%nat) ls.

Definition reads (ign : bool) (fuel : nat) (last : ptok) (ls : list bytes) (is : list citem) : Prop :=
  exists ts k, scans ign last ls ts k /\ ctoks ts /\ forall c, crun fuel c ts = Ok (fold_left add_item is c).

Lemma reads_nil : forall ign fuel last, reads ign fuel last [] [].
Proof. intros. exists [], last. split; [apply scans_nil|]. split; [constructor|reflexivity]. Qed.
Lemma reads_app : forall ign fuel last ls is ls' is', reads ign fuel last ls is ->
  (forall k, reads ign fuel k ls' is') -> reads ign fuel last (ls ++ ls') (is ++ is').
Proof.
  intros ign fuel last ls is ls' is' (ts & k & S & C & R) H. destruct (H k) as (ts' & k' & S' & C' & R').
  exists (ts ++ ts'), k'. split; [eapply scans_app; eauto|]. split; [now apply Forall_app|].
  intro c. rewrite crun_app, R. cbn [rbind]. rewrite R'. now rewrite fold_left_app.
Qed.
Lemma reads_line : forall ign fuel last t l k i, padded t l -> clean t -> t <> [] ->
  scan_line ign last t = Some k -> is_comment k = true ->
  (forall c, comment_step fuel c k t = Ok (add_item c i)) -> reads ign fuel last [l] [i].
Proof.
  intros ign fuel last t l k i P C N S K H. exists [(k, t)], k. split; [now apply scans_line|].
  split; [constructor; [exact K|constructor]|]. intro c. cbn [crun]. rewrite H. reflexivity.
Qed.
Lemma reads_skip : forall ign fuel last t l, padded t l -> clean t -> t <> [] ->
  scan_line ign last t = None -> reads ign fuel last [l] [].
Proof.
  intros ign fuel last t l P C N S. exists [], last. split; [eapply scans_skip; eauto|].
  split; [constructor|reflexivity].
Qed.

Lemma clean_ends_ne : forall t, (exists a u, word a /\ t = a ++ u) -> t <> [].
Proof. intros t (a & u & [N _] & ->) E. apply app_eq_nil in E as [E _]. contradiction. Qed.

(** a simple comment line: prefix, blanks, text *)
Lemma simple_line : forall fuel last p g t l k i, gap g -> t <> [] -> clean t -> padded (p ++ g ++ t) l ->
  p <> [] -> solid (hd NUL p) = true ->
  scan_line false last (p ++ g ++ t) = Some k -> is_comment k = true ->
  (forall c, comment_step fuel c k (p ++ g ++ t) = Ok (add_item c i)) ->
  reads false fuel last [l] [i].
Proof.
  intros fuel last p g t l k i G NT C P NP SO S K H.
  eapply reads_line; [exact P|now apply clean_after| |exact S|exact K|exact H].
  destruct p; [congruence|discriminate].
Qed.
Lemma simple_skip : forall fuel last p g t l, gap g -> t <> [] -> clean t -> padded (p ++ g ++ t) l ->
  p <> [] -> solid (hd NUL p) = true -> scan_line true last (p ++ g ++ t) = None ->
  reads true fuel last [l] [].
Proof.
  intros fuel last p g t l G NT C P NP SO S.
  eapply reads_skip; [exact P|now apply clean_after| |exact S]. destruct p; [congruence|discriminate].
Qed.
Lemma prefix_skip : forall last p c x, c <> ","%char -> p = "#"%char :: c :: x ->
  scan_line true last p = None.
Proof. intros last p c x N ->. unfold scan_line. cbn [Ascii.eqb Bool.eqb]. now apply scan_ign. Qed.
Lemma gap_trim_sp : forall g t, gap g -> clean t -> trim_space (SP :: g ++ t) = t.
Proof. intros g t G C. apply (trim_gap (SP :: g) t); [|exact C]. constructor; [now left|exact G]. Qed.
Lemma is_nil_gap : forall (g t : bytes), t <> [] -> is_nil (g ++ t) = false.
Proof. intros [|a g] [|b t] N; reflexivity || congruence. Qed.

(** ** Previous context and id *)
Lemma prev_conts : forall ls vs, Forall2 (cont_line (bs "#| ")) ls vs -> forall fuel last tk mk,
  short fuel ls -> prev_cont_tok last = tk -> prev_cont_tok tk = tk -> is_comment tk = true ->
  (forall c g q v, gap g -> quoted_text q v -> (length q < fuel)%nat ->
     comment_step fuel c tk (bs "#| " ++ g ++ q) = Ok (add_item c (mk v))) ->
  reads false fuel last ls (map mk vs).
Proof.
  induction 1 as [|l v ls vs (q & Q & g & G & _ & P) H IH]; intros fuel last tk mk F L T K ST.
  - apply reads_nil.
  - inversion F as [|? ? FL F']; subst.
    assert (CL : clean (bs "#| " ++ g ++ q)).
    { rewrite app_assoc. eapply quoted_solid; [exact Q|discriminate|reflexivity]. }
    assert (LQ : (length q < fuel)%nat).
    { destruct P as (w1 & w2 & _ & _ & ->). rewrite !app_length in FL. lia. }
    set (tk := prev_cont_tok last) in *.
    assert (SL : scan_line false last (bs "#| " ++ g ++ q) = Some tk)
      by exact (scan_prev_cont last g q v G Q).
    destruct (IH fuel tk tk mk F' T T K ST) as (ts & k & S & C & R).
    exists ([(tk, bs "#| " ++ g ++ q)] ++ ts), k. split; [|split].
    + change (l :: ls) with ([l] ++ ls). apply (scans_app false last [l] _ tk); [|exact S].
      apply scans_line; [exact P|exact CL|discriminate|exact SL].
    + constructor; [exact K|exact C].
    + intro c. cbn [app crun map fold_left]. rewrite ST with (v := v) by assumption. cbn [rbind]. apply R.
Qed.
Lemma prev_field : forall kw fuel last ls v mk tk tl, field kw (bs "#| ") ls v -> short fuel ls ->
  kw <> [] -> solid (hd NUL kw) = true ->
  (forall x, scan_line false last (kw ++ x) = Some tk) -> is_comment tk = true ->
  prev_cont_tok tk = tl -> prev_cont_tok tl = tl -> is_comment tl = true ->
  (forall c g q v, gap g -> quoted_text q v -> (length q < fuel)%nat ->
     comment_step fuel c tk (kw ++ SP :: g ++ q) = Ok (add_item c (mk v))) ->
  (forall c g q v, gap g -> quoted_text q v -> (length q < fuel)%nat ->
     comment_step fuel c tl (bs "#| " ++ g ++ q) = Ok (add_item c (mk v))) ->
  (forall c a b, add_item (add_item c (mk a)) (mk b) = add_item c (mk (a ++ b))) ->
  reads false fuel last ls [mk v].
Proof.
  intros kw fuel last ls v mk tk tl F SH N SO SC K T1 T2 K2 ST1 ST2 AD.
  destruct F as [l g q v ls vs P G Q CO]. inversion SH as [|? ? FL F']; subst.
  assert (CL : clean (kw ++ SP :: g ++ q)).
  { change (SP :: g ++ q) with ((SP :: g) ++ q). rewrite app_assoc. eapply quoted_solid; [exact Q| |].
    - destruct kw; [congruence|discriminate].
    - destruct kw; [congruence|exact SO]. }
  assert (LQ : (length q < fuel)%nat).
  { destruct P as (w1 & w2 & _ & _ & ->). rewrite !app_length in FL. cbn [length] in FL.
    rewrite !app_length in FL. lia. }
  destruct (prev_conts ls vs CO fuel tk (prev_cont_tok tk) mk F' eq_refl T2 K2 ST2) as (ts & k & S & C & R).
  exists ([(tk, kw ++ SP :: g ++ q)] ++ ts), k. split; [|split].
  - change (l :: ls) with ([l] ++ ls). apply (scans_app false last [l] _ tk); [|exact S].
    apply scans_line; [exact P|exact CL| |apply SC]. destruct kw; [congruence|discriminate].
  - constructor; [exact K|exact C].
  - intro c. cbn [app crun]. rewrite (ST1 c g q v) by assumption. cbn [rbind]. rewrite R. cbn [fold_left].
    f_equal. clear - AD. revert v. induction vs as [|w vs IH]; intro v; cbn [map concat fold_left].
    + now rewrite app_nil_r.
    + rewrite AD, IH. now rewrite <- app_assoc.
Qed.

Lemma quoted_ne : forall q v, quoted_text q v -> q <> [].
Proof. intros q v (b & -> & _). discriminate. Qed.
Lemma dec_q : forall fuel q v, quoted_text q v -> (length q < fuel)%nat -> dec fuel q = Ok v.
Proof. intros fuel q v Q L. apply (dec_quoted fuel [] q v); auto. Qed.

(** with ignoreComments the lines of a previous context or id are skipped *)
Lemma skip_lines : forall fuel ls last, Forall (fun l => exists x, clean ("#"%char :: "|"%char :: x) /\
    padded ("#"%char :: "|"%char :: x) l) ls -> reads true fuel last ls [].
Proof.
  induction ls as [|l ls IH]; intros last F; [apply reads_nil|]. inversion F as [|? ? (x & C & P) F']; subst.
  change (l :: ls) with ([l] ++ ls). apply (reads_app true fuel last [l] [] ls []).
  - eapply reads_skip; [exact P|exact C|discriminate|]. eapply prefix_skip; [|reflexivity]. discriminate.
  - intro k. now apply IH.
Qed.
Lemma field_skip : forall fuel last kw x ls v, field kw (bs "#| ") ls v -> kw = bs "#|" ++ x ->
  reads true fuel last ls [].
Proof.
  intros fuel last kw x ls v F ->. apply skip_lines. destruct F as [l g q v ls vs P G Q CO]. constructor.
  - exists (x ++ SP :: g ++ q). split; [|exact P].
    change ("#"%char :: "|"%char :: x ++ SP :: g ++ q) with ((bs "#|" ++ x) ++ (SP :: g) ++ q).
    rewrite app_assoc. eapply quoted_solid; [exact Q|discriminate|reflexivity].
  - clear P. induction CO as [|l' v' ls vs (q' & Q' & g' & G' & _ & P') CO IH]; constructor; [|exact IH].
    exists (SP :: g' ++ q'). split; [|exact P'].
    change ("#"%char :: "|"%char :: SP :: g' ++ q') with ((bs "#| " ++ g') ++ q').
    eapply quoted_solid; [exact Q'|discriminate|reflexivity].
Qed.

Theorem item_reads : forall ign fuel last i ls, item_lines i ls -> short fuel ls ->
  reads ign fuel last ls (kept ign [i]).
Proof.
  intros ign fuel last i ls H SH. destruct H as [l P|t g l N C G P|t g l N C G P|rs t g l R G P|fs t g l R G P|ls v F|ls v F].
  - assert (CL : clean (bs "#")) by (apply word_clean, word_solid; reflexivity). destruct ign.
    + cbn [kept filter is_flags]. eapply reads_skip; [exact P|exact CL|discriminate|reflexivity].
    + cbn [kept]. eapply reads_line; [exact P|exact CL|discriminate|reflexivity|reflexivity|reflexivity].
  - destruct ign.
    + cbn [kept filter is_flags]. eapply simple_skip; [exact G|exact N|exact C|exact P|discriminate|reflexivity|].
      eapply prefix_skip; [|reflexivity]. discriminate.
    + cbn [kept]. eapply simple_line with (k := TTrans);
        [exact G|exact N|exact C|exact P|discriminate|reflexivity| |reflexivity|].
      * cbn [bs list_ascii_of_string app scan_line Ascii.eqb Bool.eqb scan_comment].
        rewrite is_nil_gap by exact N. reflexivity.
      * intro c. cbn [comment_step]. change (bs "# " ++ g ++ t) with (bs "#" ++ SP :: g ++ t).
        rewrite from_app by (cbn; lia). cbn [rbind]. change (skipn 1 (bs "#")) with (@nil ascii). cbn [app].
        now rewrite gap_trim_sp.
  - destruct ign.
    + cbn [kept filter is_flags]. eapply simple_skip; [exact G|exact N|exact C|exact P|discriminate|reflexivity|].
      eapply prefix_skip; [|reflexivity]. discriminate.
    + cbn [kept]. eapply simple_line with (k := TExtr);
        [exact G|exact N|exact C|exact P|discriminate|reflexivity| |reflexivity|].
      * reflexivity.
      * intro c. cbn [comment_step]. change (bs "#. " ++ g ++ t) with (bs "#." ++ SP :: g ++ t).
        rewrite from_app by (cbn; lia). cbn [rbind]. change (skipn 2 (bs "#.")) with (@nil ascii). cbn [app].
        now rewrite gap_trim_sp.
  - destruct (refs_ends rs t R) as [E1 E2]. pose proof (clean_ends t E1 E2) as C.
    pose proof (clean_ends_ne t E1) as N. destruct ign.
    + cbn [kept filter is_flags]. eapply simple_skip; [exact G|exact N|exact C|exact P|discriminate|reflexivity|].
      eapply prefix_skip; [|reflexivity]. discriminate.
    + cbn [kept]. eapply simple_line with (k := TRefs);
        [exact G|exact N|exact C|exact P|discriminate|reflexivity| |reflexivity|].
      * reflexivity.
      * intro c. cbn [comment_step]. change (bs "#: " ++ g ++ t) with (bs "#:" ++ SP :: g ++ t).
        rewrite from_app by (cbn; lia). cbn [rbind]. change (skipn 2 (bs "#:")) with (@nil ascii). cbn [app].
        rewrite gap_trim_sp by assumption. now rewrite (refs_split rs t R).
  - destruct (flags_ends fs t R) as [E1 E2]. pose proof (clean_ends t E1 E2) as C.
    pose proof (clean_ends_ne t E1) as N.
    replace (kept ign [IFlags fs]) with [IFlags fs] by (destruct ign; reflexivity).
    eapply reads_line with (k := TFlags) (t := bs "#, " ++ g ++ t);
      [exact P|apply clean_after; [discriminate|reflexivity|exact N|exact C]|discriminate| |reflexivity|].
    + destruct ign; reflexivity.
    + intro c. cbn [comment_step]. change (bs "#, " ++ g ++ t) with (bs "#," ++ SP :: g ++ t).
      rewrite from_app by (cbn; lia). cbn [rbind]. change (skipn 2 (bs "#,")) with (@nil ascii). cbn [app].
      rewrite gap_trim_sp by assumption. now rewrite (flag_fields_ok fs t R).
  - destruct ign; [cbn [kept filter is_flags]; eapply field_skip; [exact F|reflexivity]|]. cbn [kept].
    eapply prev_field with (tk := TPrevCtx) (tl := TPrevCtxL);
      [exact F|exact SH|discriminate|reflexivity| |reflexivity|reflexivity|reflexivity|reflexivity| | |].
    + intro x. exact (scan_prev_ctx last x).
    + intros c g q w G Q L. cbn [comment_step]. rewrite from_app by (cbn; lia).
      change (skipn 10 (bs "#| msgctxt")) with (@nil ascii). cbn [rbind app].
      rewrite gap_trim_sp by (assumption || now apply (quoted_clean q w)).
      pose proof (quoted_ne q w Q). destruct q; [congruence|]. now rewrite (dec_q fuel _ w Q L).
    + intros c g q w G Q L. cbn [comment_step]. change (bs "#| " ++ g ++ q) with (bs "#|" ++ SP :: g ++ q).
      rewrite from_app by (cbn; lia).
      change (skipn 2 (bs "#|")) with (@nil ascii). cbn [rbind app].
      rewrite gap_trim_sp by (assumption || now apply (quoted_clean q w)).
      now rewrite (dec_q fuel q w Q L).
    + intros c a b. cbn. now rewrite app_assoc.
  - destruct ign; [cbn [kept filter is_flags]; eapply field_skip; [exact F|reflexivity]|]. cbn [kept].
    eapply prev_field with (tk := TPrevId) (tl := TPrevIdL);
      [exact F|exact SH|discriminate|reflexivity| |reflexivity|reflexivity|reflexivity|reflexivity| | |].
    + intro x. exact (scan_prev_id last x).
    + intros c g q w G Q L. cbn [comment_step]. rewrite from_app by (cbn; lia).
      change (skipn 8 (bs "#| msgid")) with (@nil ascii). cbn [rbind app].
      rewrite gap_trim_sp by (assumption || now apply (quoted_clean q w)).
      pose proof (quoted_ne q w Q). destruct q; [congruence|]. now rewrite (dec_q fuel _ w Q L).
    + intros c g q w G Q L. cbn [comment_step]. change (bs "#| " ++ g ++ q) with (bs "#|" ++ SP :: g ++ q).
      rewrite from_app by (cbn; lia).
      change (skipn 2 (bs "#|")) with (@nil ascii). cbn [rbind app].
      rewrite gap_trim_sp by (assumption || now apply (quoted_clean q w)).
      now rewrite (dec_q fuel q w Q L).
    + intros c a b. cbn. now rewrite app_assoc.
Qed.

Lemma kept_app : forall ign a b, kept ign (a ++ b) = kept ign a ++ kept ign b.
Proof. intros [|] a b; [apply filter_app|reflexivity]. Qed.
Theorem items_read : forall ign fuel is ls, items_lines is ls -> short fuel ls -> forall last,
  reads ign fuel last ls (kept ign is).
Proof.
  induction 1 as [|i is l ls I IS IH]; intros SH last.
  - destruct ign; apply reads_nil.
  - apply Forall_app in SH as [S1 S2]. change (i :: is) with ([i] ++ is). rewrite kept_app.
    apply reads_app; [now apply item_reads|]. intro k. now apply IH.
Qed.

(** ** The comment of a list of items *)
Lemma add_item_fields : forall is c, fold_left add_item is c =
  Com (fold_left add_line (flat_map (fun i => match i with ITrans t => [t] | _ => [] end) is) (cm_tr c))
      (fold_left add_line (flat_map (fun i => match i with IExtr t => [t] | _ => [] end) is) (cm_ex c))
      (cm_refs c ++ flat_map (fun i => match i with IRefs rs => rs | _ => [] end) is)
      (cm_flags c ++ flat_map (fun i => match i with IFlags fs => fs | _ => [] end) is)
      (cm_pctx c ++ flat_map (fun i => match i with IPrevCtx v => v | _ => [] end) is)
      (cm_pid c ++ flat_map (fun i => match i with IPrevId v => v | _ => [] end) is).
Proof.
  induction is as [|i is IH]; intro c.
  - cbn. rewrite !app_nil_r. now destruct c.
  - cbn [fold_left]. rewrite IH. destruct i; cbn [add_item cm_tr cm_ex cm_refs cm_flags cm_pctx cm_pid flat_map app fold_left];
      rewrite <- ?app_assoc; reflexivity.
Qed.
Lemma add_lines_ne : forall l x, x <> [] -> fold_left add_line l x = lines_text (x :: l).
Proof.
  induction l as [|y l IH]; intros x N; [reflexivity|]. cbn [fold_left].
  destruct x as [|a x]; [congruence|]. cbn [add_line]. rewrite IH by discriminate.
  destruct l; cbn [lines_text]; [reflexivity|]. now rewrite <- app_assoc.
Qed.
Lemma add_lines : forall l, fold_left add_line l [] = lines_text (drop_empty l).
Proof.
  induction l as [|x l IH]; [reflexivity|]. destruct x as [|a x]; cbn [fold_left add_line drop_empty]; [exact IH|].
  now rewrite add_lines_ne.
Qed.
Theorem com_of_fold : forall is, fold_left add_item is new_comment = com_of is.
Proof. intro is. rewrite add_item_fields. unfold com_of. cbn [new_comment cm_tr cm_ex cm_refs cm_flags cm_pctx cm_pid app]. now rewrite !add_lines. Qed.
