(** The CLDR rule parser accepts exactly the texts of CldrGramSpec. *)
From Coq Require Import String Ascii List ZArith Bool Lia ZifyBool.
From Verif Require Import Base BaseProofs Utf8Model Utf8Proofs StrModel ReModel ReProofs CldrModel CldrSpec CldrOperandProofs CldrTextProofs CldrParseProofs CldrTotalProofs CldrSampleProofs CldrGramSpec.
Import ListNotations.
Open Scope Z_scope.

(** ** Words *)
Lemma separator_b : forall r, issep r = true <-> separator r.
Proof. intro r. unfold separator, is_space, in_rng. cbn [In]. lia. Qed.
Lemma separator_f : forall r, issep r = false <-> ~ separator r.
Proof. intro r. rewrite <- separator_b. destruct (issep r); split; congruence. Qed.
(** a segment has bytes *)
Definition full (l : list (Z * bytes)) : Prop := Forall (fun x => snd x <> []) l.
Lemma concat_full : forall u, full u -> u <> [] -> concat (map snd u) <> [].
Proof. intros [|[r b] u] F N; [contradiction|]. inversion F; subst. cbn. destruct b; [contradiction|discriminate]. Qed.
Lemma fields_words : forall l, full l -> words l (fields issep l []) /\
  forall u, u <> [] -> full u -> Forall (fun x => ~ separator (fst x)) u -> words (u ++ l) (fields issep l (concat (map snd u))).
Proof.
  induction l as [|[r b] l IH]; intro F.
  - split; [constructor|]. intros u N U S. cbn [fields]. pose proof (concat_full u U N) as C. destruct (concat (map snd u)) eqn:E; [contradiction|].
    rewrite <- E. apply wo_word; try assumption; [constructor|exact I].
  - inversion F as [|? ? B F']; subst. destruct (IH F') as [A1 A2]. cbn [fields]. destruct (is_space r || (r =? 44)) eqn:S.
    + pose proof (proj1 (separator_b r) S) as SP. split; [now constructor|]. intros u N U NS. pose proof (concat_full u U N) as C. destruct (concat (map snd u)) eqn:E; [contradiction|].
      rewrite <- E. apply wo_word; try assumption. now constructor.
    + pose proof (proj1 (separator_f r) S) as SP. split.
      * specialize (A2 [(r, b)]). cbn [map concat snd app] in A2. rewrite app_nil_r in A2. apply A2; [discriminate|repeat constructor; exact B|repeat constructor; exact SP].
      * intros u N U NS. specialize (A2 (u ++ [(r, b)])). rewrite map_app, concat_app in A2. cbn [map concat snd app] in A2. rewrite app_nil_r, <- app_assoc in A2. apply A2.
        -- destruct u; discriminate.
        -- apply Forall_app. split; [exact U|repeat constructor; exact B].
        -- apply Forall_app. split; [exact NS|repeat constructor; exact SP].
Qed.
Lemma words_fields : forall l ws, words l ws -> full l -> fields issep l [] = ws.
Proof.
  intros l ws W. induction W as [|r b l ws S W IH|u l ws N U W IH H]; intro F.
  - reflexivity.
  - inversion F; subst. cbn [fields]. rewrite (proj2 (separator_b r) S). now apply IH.
  - apply Forall_app in F as [FU FL]. specialize (IH FL).
    assert (G : forall v cur, Forall (fun x => ~ separator (fst x)) v -> fields issep (v ++ l) cur = fields issep l (cur ++ concat (map snd v))).
    { induction v as [|[r b] v IV]; intros cur V; [cbn; now rewrite app_nil_r|]. inversion V; subst. cbn [app fields map concat snd]. rewrite (proj2 (separator_f r)) by assumption.
      rewrite IV by assumption. now rewrite <- app_assoc. }
    rewrite G by exact U. cbn [app]. pose proof (concat_full u FU N) as C. destruct (concat (map snd u)) eqn:E; [contradiction|]. rewrite <- E.
    destruct l as [|[r b] l]; [cbn in *; rewrite E; now rewrite <- IH|]. cbn [fst] in H. cbn [fields] in *. rewrite (proj2 (separator_b r) H) in *. rewrite E. now rewrite IH.
Qed.
Lemma segs_full : forall f s, full (segs_fuel f s).
Proof.
  induction f as [|f IH]; intros [|c s]; cbn [segs_fuel]; try constructor. pose proof (decode_width c s) as W. destruct (decode_rune (c :: s)) as [r w]. cbn [snd] in W.
  constructor; [|apply IH]. cbn [snd]. destruct w; [lia|]. discriminate.
Qed.
Theorem tokens_words : forall s ws, words (segs s) ws <-> generate_tokens s = ws.
Proof.
  intros s ws. split.
  - intro W. exact (words_fields _ _ W (segs_full _ _)).
  - intros <-. exact (proj1 (fields_words (segs s) (segs_full _ _))).
Qed.
Lemma words_nonempty : forall l ws, words l ws -> full l -> Forall (fun w => w <> []) ws.
Proof.
  intros l ws W. induction W as [|r b l ws S W IH|u l ws N U W IH H]; intro F; [constructor|inversion F; auto|].
  apply Forall_app in F as [FU FL]. constructor; [now apply concat_full|auto].
Qed.

(** ** Keywords *)
Definition plainc (k : ascii) : Prop := bval k <> 196 /\ is_upper k = false.
Lemma lower_plain : forall c k, plainc k -> (lower c = k <-> c = k \/ 97 <= bval k <= 122 /\ bval c = bval k - 32).
Proof.
  intros c k [K U]. pose proof (bval_range c) as RC. pose proof (bval_range k) as RK. unfold lower. destruct (is_upper c) eqn:E; unfold is_upper in *.
  - split.
    + intros <-. right. rewrite byte_of_val in * by lia. lia.
    + intros [->|H]; [lia|]. apply bval_inj. rewrite byte_of_val by lia. lia.
  - split; [auto|]. intros [H|H]; [exact H|lia].
Qed.
Lemma cased_lower : forall n w k, (length w <= n)%nat -> Forall plainc k -> (kw_lower w = k <-> cased w k).
Proof.
  induction n as [|n IH]; intros w k L P.
  - destruct w; [|simpl in L; lia]. cbn [kw_lower]. split; [intros <-; constructor|]. intro C. now inversion C.
  - destruct w as [|a w]; [cbn [kw_lower]; split; [intros <-; constructor|intro C; now inversion C]|]. cbn [length] in L.
    assert (G : forall k1 ks, Forall plainc (k1 :: ks) -> lower a = k1 -> kw_lower w = ks -> cased (a :: w) (k1 :: ks)).
    { intros k1 ks F A B. inversion F; subst. apply ca_char; [now apply lower_plain|]. apply IH; [lia|assumption|reflexivity]. }
    destruct w as [|b t].
    + cbn [kw_lower]. split.
      * intros <-. inversion P; subst. apply G; auto.
      * intro C. inversion C; subst. f_equal; [apply lower_plain; [now inversion P|assumption]|]. match goal with X : cased [] _ |- _ => now inversion X end.
    + cbn [length] in L. cbn [kw_lower]. destruct ((bval a =? 196) && (bval b =? 176)) eqn:E.
      * assert (EA : a = byte_of 196) by (apply bval_inj; rewrite byte_of_val; lia). assert (EB : b = byte_of 176) by (apply bval_inj; rewrite byte_of_val; lia). subst.
        split.
        -- intros <-. inversion P; subst. apply ca_dot. apply IH; [lia|assumption|reflexivity].
        -- intro C. inversion C as [|c k1 w ks Q C1|w ks C1]; subst.
           ++ exfalso. inversion P as [|? ? [B U] _]; subst. destruct Q as [<-|Q]; [now apply B|]. change (bval (byte_of 196)) with 196 in Q. lia.
           ++ f_equal. apply IH; [lia|now inversion P|exact C1].
      * split.
        -- intros <-. inversion P; subst. apply G; auto.
        -- intro C. inversion C as [|c k1 w ks Q C1|w ks C1]; subst.
           ++ f_equal; [apply lower_plain; [now inversion P|exact Q]|]. refine (proj2 (IH (b :: t) ks _ _) C1); [cbn [length]; lia|now inversion P].
           ++ vm_compute in E. discriminate.
Qed.
Lemma cased_iff : forall w k, Forall plainc k -> (kw_lower w = k <-> cased w k).
Proof. intros w k P. now apply (cased_lower (length w)). Qed.
Ltac plain := repeat (apply Forall_cons || apply Forall_nil); (split; [let X := fresh in intro X; vm_compute in X; discriminate|reflexivity]).
Ltac symb := repeat (apply Forall_cons || apply Forall_nil); (let X := fresh in let Y := fresh in intros [X Y]; vm_compute in X; vm_compute in Y; congruence).
Lemma cased_symbol : forall w k, Forall (fun c => ~ 97 <= bval c <= 122) k -> cased w k -> w = k.
Proof.
  intros w k F C. induction C as [|c k w ks Q C IH|w ks C IH]; [reflexivity| |]; inversion F as [|? ? B F']; subst.
  - destruct Q as [->|Q]; [now rewrite (IH F')|lia].
  - exfalso. apply B. split; intro X; vm_compute in X; discriminate.
Qed.

(** ** Numbers *)
Lemma digits_lang : forall s, lang re_value s <-> digits s.
Proof.
  intro s. split.
  - unfold re_value, rplus. intro H. apply lang_seq in H as (a & b & -> & A & B). apply lang_set in A as (c & -> & D). apply lang_star_set in B.
    split; [discriminate|]. apply all_digits_b. cbn [app forallb]. now rewrite D, B.
  - intros [N D]. apply rmatch_lang. apply lang_digits; [now apply all_digits_b|exact N].
Qed.
Lemma nz_digit : forall c, (49 <=? bval c) && (bval c <=? 57) = true <-> is_digit c = true /\ c <> "0"%char.
Proof.
  intro c. split.
  - intro H. split; [apply is_digit_val; lia|]. intros ->. vm_compute in H. discriminate.
  - intros [D N]. apply is_digit_val in D. assert (bval c <> 48) by (intro X; apply N, bval_inj; exact X). lia.
Qed.
Lemma lead_lang : forall s, lang (RSeq r19 (RStar rdigit)) s <-> digits s /\ no_leading_zero s.
Proof.
  intro s. split.
  - intro H. apply lang_seq in H as (a & b & -> & A & B). apply lang_set in A as (c & -> & D). apply lang_star_set in B. apply nz_digit in D as [D N].
    split; [|exact N]. split; [discriminate|]. apply all_digits_b. cbn [app forallb]. now rewrite D, B.
  - intros [[N D] Z]. destruct s as [|c s]; [contradiction|]. apply all_digits_b in D. cbn [forallb] in D. apply andb_true_iff in D as [D1 D2].
    apply (LSeq _ _ [c] s); [constructor; now apply nz_digit|now apply lang_star_set].
Qed.
Lemma char_lang : forall c s, lang (rchar c) s <-> s = [c].
Proof.
  intros c s. unfold rchar. rewrite lang_set. split.
  - intros (d & -> & E). apply Ascii.eqb_eq in E. now subst.
  - intros ->. exists c. split; [reflexivity|apply Ascii.eqb_refl].
Qed.
Lemma zero_whole : whole (bs "0").
Proof. split; [split; [discriminate|repeat constructor]|now left]. Qed.
Lemma whole_lang : forall s, lang re_int s <-> whole s.
Proof.
  intro s. unfold re_int. rewrite lang_alt, lead_lang. split.
  - intros [H|[D N]]; [|split; auto]. apply char_lang in H. subst s. exact zero_whole.
  - intros [D [->|N]]; [left; now apply char_lang|auto].
Qed.
Lemma fraction_lang : forall s, lang (ropt (RSeq (rchar ".") (RStar rdigit))) s <-> fraction s.
Proof.
  intro s. unfold ropt, fraction. rewrite lang_alt, lang_empty, lang_seq. split.
  - intros [H|(a & b & -> & A & B)]; [now left|right]. apply char_lang in A. subst a.
    apply lang_star_set in B. exists b. split; [now apply all_digits_b|reflexivity].
  - intros [H|(f & D & ->)]; [now left|right]. exists ["."%char], f. split; [reflexivity|]. split; [now apply char_lang|]. apply lang_star_set. now apply all_digits_b.
Qed.
Lemma star_digits : forall s, lang (RStar rdigit) s <-> all_digits s.
Proof. intro s. unfold rdigit. rewrite lang_star_set. symmetry. apply all_digits_b. Qed.
Lemma opt_lang : forall r s, lang (ropt r) s <-> s = [] \/ lang r s.
Proof. intros r s. unfold ropt. rewrite lang_alt, lang_empty. reflexivity. Qed.
Lemma range_lang : forall w, lang re_range w <-> exists s t, w = s ++ bs ".." ++ t /\ digits s /\ digits t /\ no_leading_zero t.
Proof.
  intro w. split.
  - unfold re_range. cbn [rseq]. intro H. apply lang_seq in H as (s & x & -> & S & H). apply lang_seq in H as (d & y & -> & D & H). apply lang_rlit in D. subst d.
    apply lang_seq in H as (a & z & -> & A & H). apply lang_seq in H as (b & e & -> & B & E). apply lang_empty in E. subst e. rewrite app_nil_r.
    assert (L : lang (RSeq r19 (RStar rdigit)) (a ++ b)) by (now apply LSeq). apply lead_lang in L as [L1 L2]. exists s, (a ++ b). split; [reflexivity|]. split; [now apply digits_lang|]. auto.
  - intros (s & t & -> & S & T & N). assert (L : lang (RSeq r19 (RStar rdigit)) t) by (now apply lead_lang). apply lang_seq in L as (a & b & -> & A & B).
    unfold re_range. cbn [rseq]. apply LSeq; [now apply digits_lang|]. apply LSeq; [now apply lang_rlit|]. apply LSeq; [exact A|].
    rewrite <- (app_nil_r b). apply LSeq; [exact B|constructor].
Qed.
Lemma all_digits_app : forall a b, all_digits a -> all_digits b -> all_digits (a ++ b).
Proof. intros a b A B. now apply Forall_app. Qed.
Lemma lead_app : forall a b, digits a -> no_leading_zero a -> all_digits b -> digits (a ++ b) /\ no_leading_zero (a ++ b).
Proof. intros [|c a] b [N D] Z B; [contradiction|]. split; [split; [discriminate|now apply all_digits_app]|exact Z]. Qed.
Lemma sample_lang : forall w, lang re_sample_value w <-> sample_word w.
Proof.
  intro w. unfold re_sample_value. rewrite lang_alt. split.
  - intros [H|H]; apply lang_seq in H as (x & y & -> & X & Y).
    + apply fraction_lang in Y. apply lang_alt in X as [X|X].
      * apply char_lang in X. subst x. apply (sw_plain (bs "0")); [exact zero_whole|exact Y].
      * cbn [rseq] in X. apply lang_seq in X as (a & r & -> & A & X). apply lang_seq in X as (b & r2 & -> & B & X). apply lang_seq in X as (c & r3 & -> & C & X).
        apply lang_seq in X as (e & n & -> & E & X). apply lang_empty in X. subst n. rewrite app_nil_r.
        assert (L : lang (RSeq r19 (RStar rdigit)) (a ++ b)) by (now apply LSeq). apply lead_lang in L as [L1 L2]. apply star_digits in E.
        apply opt_lang in C as [->|C].
        -- destruct (lead_app _ _ L1 L2 E) as [M1 M2]. replace ((a ++ b ++ [] ++ e) ++ y) with (((a ++ b) ++ e) ++ y) by (rewrite !app_nil_l, <- !app_assoc; reflexivity).
           apply sw_plain; [split; auto|exact Y].
        -- apply char_lang in C. subst c. replace ((a ++ b ++ ["c"%char] ++ e) ++ y) with ((a ++ b) ++ "c"%char :: e ++ y) by (rewrite <- !app_assoc; reflexivity).
           now apply sw_first.
    + assert (WX : whole x).
      { apply lang_alt in X as [X|X]; [apply char_lang in X; subst x; exact zero_whole|]. cbn [rseq] in X. apply lang_seq in X as (a & r & -> & A & X).
        apply lang_seq in X as (b & r2 & -> & B & X). apply lang_seq in X as (c & n & -> & C & X). apply lang_empty in X. subst n. rewrite app_nil_r.
        assert (L : lang (RSeq r19 (RStar rdigit)) (a ++ b)) by (now apply LSeq). apply lead_lang in L as [L1 L2]. apply star_digits in C.
        destruct (lead_app _ _ L1 L2 C) as [M1 M2]. rewrite <- app_assoc in *. split; auto. }
      apply opt_lang in Y as [->|Y]; [apply sw_plain; [exact WX|now left]|]. cbn [rseq] in Y.
      apply lang_seq in Y as (p & r & -> & P & Y). apply char_lang in P. subst p. apply lang_seq in Y as (f & r2 & -> & F & Y). apply star_digits in F.
      apply lang_seq in Y as (c & r3 & -> & C & Y). apply lang_seq in Y as (e & n & -> & E & Y). apply lang_empty in Y. subst n. rewrite app_nil_r. apply star_digits in E.
      apply opt_lang in C as [->|C].
      * apply sw_plain; [exact WX|]. right. exists (f ++ e). split; [now apply all_digits_app|reflexivity].
      * apply char_lang in C. subst c. now apply sw_last.
  - intros [a f A F|a e f A Z E F|a f e A F E].
    + left. apply LSeq; [|now apply fraction_lang]. apply lang_alt. destruct A as [D [->|N]]; [left; now apply char_lang|right].
      assert (L : lang (RSeq r19 (RStar rdigit)) a) by (now apply lead_lang). apply lang_seq in L as (x & y & -> & X & Y). cbn [rseq]. apply LSeq; [exact X|].
      rewrite <- (app_nil_r y). apply LSeq; [exact Y|]. apply (LSeq _ _ [] []); [apply opt_lang; now left|]. apply (LSeq _ _ [] []); constructor.
    + left. replace (a ++ "c"%char :: e ++ f) with ((a ++ "c"%char :: e) ++ f) by (rewrite <- app_assoc; reflexivity). apply LSeq; [|now apply fraction_lang]. apply lang_alt. right.
      assert (L : lang (RSeq r19 (RStar rdigit)) a) by (now apply lead_lang). apply lang_seq in L as (x & y & -> & X & Y). cbn [rseq]. rewrite <- app_assoc. apply LSeq; [exact X|].
      apply LSeq; [exact Y|]. apply (LSeq _ _ ["c"%char] e); [apply opt_lang; right; now apply char_lang|]. rewrite <- (app_nil_r e). apply LSeq; [now apply star_digits|constructor].
    + right. apply LSeq.
      * apply lang_alt. destruct A as [D [->|N]]; [left; now apply char_lang|right].
        assert (L : lang (RSeq r19 (RStar rdigit)) a) by (now apply lead_lang). apply lang_seq in L as (x & y & -> & X & Y). cbn [rseq]. apply LSeq; [exact X|].
        rewrite <- (app_nil_r y). apply LSeq; [exact Y|]. apply (LSeq _ _ [] []); constructor.
      * apply opt_lang. right. cbn [rseq]. apply (LSeq _ _ ["."%char]); [now apply char_lang|]. apply LSeq; [now apply star_digits|].
        apply (LSeq _ _ ["c"%char] e); [apply opt_lang; right; now apply char_lang|]. rewrite <- (app_nil_r e). apply LSeq; [now apply star_digits|constructor].
Qed.
Lemma sample_num_parts : forall a f, whole a -> fraction f -> exists x, sample_num x /\ nm_text x = a ++ f.
Proof.
  intros a f [[N D] W] [->|(g & G & ->)].
  - exists (sn a None). rewrite nm_text_sn. split; [|reflexivity]. apply sample_num_intro; auto. now apply all_digits_b.
  - exists (sn a (Some g)). rewrite nm_text_sn. split; [|reflexivity]. apply sample_num_intro; auto; now apply all_digits_b.
Qed.
Lemma samples_lang : forall w, lang re_sample_range w <-> exists x y, sample_num x /\ sample_num y /\ w = nm_text x ++ "~"%char :: nm_text y.
Proof.
  intro w. split.
  - unfold re_sample_range. cbn [rseq]. intro H. apply lang_seq in H as (a & r & -> & A & H). apply lang_seq in H as (f & r2 & -> & F & H).
    apply lang_seq in H as (c & r3 & -> & C & H). apply char_lang in C. subst c. apply lang_seq in H as (b & r4 & -> & B & H). apply lang_seq in H as (g & n & -> & G & H).
    apply lang_empty in H. subst n. rewrite app_nil_r. apply whole_lang in A, B. apply fraction_lang in F, G.
    destruct (sample_num_parts a f A F) as (x & X & TX). destruct (sample_num_parts b g B G) as (y & Y & TY). exists x, y. split; [exact X|]. split; [exact Y|]. rewrite TX, TY, <- app_assoc. reflexivity.
  - intros (x & y & X & Y & ->). destruct (text_parts x X) as (L1 & L2 & TX). destruct (text_parts y Y) as (L3 & L4 & TY).
    unfold re_sample_range. cbn [rseq]. rewrite TX, TY, <- app_assoc. apply LSeq; [exact L1|]. apply LSeq; [exact L2|]. apply (LSeq _ _ ["~"%char]); [now apply char_lang|].
    apply LSeq; [exact L3|]. apply lang_seq. eexists _, []. split; [rewrite app_nil_r; reflexivity|]. split; [exact L4|constructor].
Qed.

(** the kind and text of a token of the model *)
Inductive shows : ctok -> bytes -> token -> Prop :=
| sh_oper w : shows KOperand w (TOper w)
| sh_rem w : shows KRem w TRem
| sh_eq w : shows KEqual w (TRel false)
| sh_ne w : shows KNotEqual w (TRel true)
| sh_and w : shows KAnd w TAnd
| sh_or w : shows KOr w TOr
| sh_mark w : shows KSample w TMark
| sh_val s : digits s -> shows KValue s (TVal s)
| sh_range s t : digits s -> digits t -> no_leading_zero t -> shows KRange (s ++ bs ".." ++ t) (TRange s t)
| sh_sample s : shows KSampleValue s (TSample s)
| sh_samples x y : sample_num x -> sample_num y -> shows KSampleRange (nm_text x ++ "~"%char :: nm_text y) (TSamples x y).

Lemma number_shows : forall w t, number w t -> shows (classify w) w t.
Proof.
  intros w t [s D|s u S T Z|s S N|x y X Y].
  - rewrite classify_value; [now constructor|apply all_digits_b, (proj2 D)|exact (proj1 D)].
  - rewrite classify_range; [now constructor|apply all_digits_b, (proj2 S)|exact (proj1 S)|apply all_digits_b, (proj2 T)|exact Z].
  - unfold classify. destruct (rmatch re_value s) eqn:V; [apply rmatch_lang, digits_lang in V; contradiction|].
    rewrite (proj2 (rmatch_lang s re_sample_value)); [constructor|now apply sample_lang].
  - rewrite classify_srange by assumption. now constructor.
Qed.
Lemma classify_number : forall w, classify w = KUnknown \/ exists t, number w t.
Proof.
  intro w. unfold classify. destruct (rmatch re_value w) eqn:V; [right; apply rmatch_lang, digits_lang in V; eexists; now constructor|].
  destruct (rmatch re_sample_value w) eqn:S.
  { right. apply rmatch_lang, sample_lang in S. exists (TSample w). constructor; [exact S|]. intro D. apply digits_lang, rmatch_lang in D. congruence. }
  destruct (rmatch re_range w) eqn:R; [right; apply rmatch_lang, range_lang in R as (s & t & -> & A & B & C); eexists; now constructor|].
  destruct (rmatch re_sample_range w) eqn:M; [right; apply rmatch_lang, samples_lang in M as (x & y & A & B & ->); eexists; now constructor|now left].
Qed.
Lemma number_head : forall w t, number w t -> exists c u, w = c :: u /\ is_digit c = true.
Proof.
  assert (A : forall s r, digits s -> exists c u, s ++ r = c :: u /\ is_digit c = true).
  { intros [|c s] r [N D]; [contradiction|]. inversion D; subst. exists c, (s ++ r). auto. }
  intros w t [s D|s u S T Z|s [a f W F|a e f D Z E F|a f e W F E] N|x y X Y].
  - rewrite <- (app_nil_r s). now apply A.
  - now apply A.
  - apply A. apply W.
  - now apply A.
  - apply A. apply W.
  - destruct (num_head x X) as (c & u & E & D). rewrite E. exists c; eexists. split; [reflexivity|exact D].
Qed.

(** ** Scanner *)
Definition ktok (l w : bytes) : option token :=
  if mem_b l [bs "n"; bs "i"; bs "v"; bs "w"; bs "f"; bs "t"; bs "c"; bs "e"] then Some (TOper w)
  else if beq l (bs "=") then Some (TRel false)
  else if mem_b l [bs "%"; bs "mod"] then Some TRem
  else if beq l (bs "!=") then Some (TRel true)
  else if mem_b l [bs "@integer"; bs "@decimal"] then Some TMark
  else if beq l (bs "and") then Some TAnd
  else if beq l (bs "or") then Some TOr
  else None.
Lemma keyword_ktok : forall w t, keyword w t <-> ktok (kw_lower w) w = Some t.
Proof.
  intros w t. split.
  - intros [w' o C|w' [->|C]| | |w' C|w' C|w' [C|C]]; try reflexivity.
    + destruct o; apply cased_iff in C; try plain; rewrite C; reflexivity.
    + apply cased_iff in C; [|plain]. rewrite C. reflexivity.
    + apply cased_iff in C; [|plain]. rewrite C. reflexivity.
    + apply cased_iff in C; [|plain]. rewrite C. reflexivity.
    + apply cased_iff in C; [|plain]. rewrite C. reflexivity.
    + apply cased_iff in C; [|plain]. rewrite C. reflexivity.
  - unfold ktok. intro H.
    assert (SY : forall k, Forall plainc k -> Forall (fun c => ~ 97 <= bval c <= 122) k -> kw_lower w = k -> w = k) by (intros k P S E; apply (cased_symbol w k S); now apply cased_iff).
    destruct (mem_b (kw_lower w) [bs "n"; bs "i"; bs "v"; bs "w"; bs "f"; bs "t"; bs "c"; bs "e"]) eqn:M1.
    { injection H as <-. apply mem_b_in in M1. cbn [In] in M1.
      decompose [or] M1; try contradiction; match goal with X : _ = kw_lower w |- _ => symmetry in X; apply cased_iff in X; [|plain] end.
      - now apply (kw_oper w On). - now apply (kw_oper w Oi). - now apply (kw_oper w Ov). - now apply (kw_oper w Ow).
      - now apply (kw_oper w Of). - now apply (kw_oper w Ot). - now apply (kw_oper w Oc). - now apply (kw_oper w Oe). }
    destruct (beq (kw_lower w) (bs "=")) eqn:M2.
    { injection H as <-. apply beq_eq in M2. apply SY in M2; [subst w; constructor|plain|symb]. }
    destruct (mem_b (kw_lower w) [bs "%"; bs "mod"]) eqn:M3.
    { injection H as <-. apply mem_b_in in M3. cbn [In] in M3. constructor. destruct M3 as [M3|[M3|[]]]; symmetry in M3.
      - left. apply SY in M3; [exact M3|plain|symb].
      - right. apply cased_iff in M3; [exact M3|plain]. }
    destruct (beq (kw_lower w) (bs "!=")) eqn:M4.
    { injection H as <-. apply beq_eq in M4. apply SY in M4; [subst w; constructor|plain|symb]. }
    destruct (mem_b (kw_lower w) [bs "@integer"; bs "@decimal"]) eqn:M5.
    { injection H as <-. apply mem_b_in in M5. cbn [In] in M5. constructor. destruct M5 as [M5|[M5|[]]]; symmetry in M5; apply cased_iff in M5; try plain; auto. }
    destruct (beq (kw_lower w) (bs "and")) eqn:M6.
    { injection H as <-. apply beq_eq in M6. constructor. apply cased_iff in M6; [exact M6|plain]. }
    destruct (beq (kw_lower w) (bs "or")) eqn:M7; [|discriminate].
    injection H as <-. apply beq_eq in M7. constructor. apply cased_iff in M7; [exact M7|plain].
Qed.
Lemma filler_iff : forall w, filler w <-> mem_b (kw_lower w) [encode_rune 8230; bs "..."; bs "."] = true.
Proof.
  intro w. split; [intros [->|[->| ->]]; reflexivity|]. intro M. apply mem_b_in in M. cbn [In] in M.
  assert (SY : forall k, Forall plainc k -> Forall (fun c => ~ 97 <= bval c <= 122) k -> kw_lower w = k -> w = k) by (intros k P S E; apply (cased_symbol w k S); now apply cased_iff).
  change (encode_rune 8230) with ["226"%char; "128"%char; "166"%char] in M.
  destruct M as [M|[M|[M|[]]]]; symmetry in M; apply SY in M; try plain; try symb; unfold filler; auto.
Qed.
(** a word that begins with a digit is neither *)
Lemma digit_word : forall c u, is_digit c = true -> ktok (kw_lower (c :: u)) (c :: u) = None /\ ~ filler (c :: u).
Proof.
  intros c u D. split.
  - destruct (kw_head c u D) as (t & K). rewrite K. unfold ktok, mem_b.
    assert (NE : forall k, is_digit k = false -> Ascii.eqb c k = false) by (intros; apply digit_neq; assumption).
    cbn [bs list_ascii_of_string existsb]. repeat (rewrite (beq_head c t) by (apply NE; reflexivity)). reflexivity.
  - intros [E|[E|E]]; injection E as -> _; vm_compute in D; discriminate.
Qed.
Definition nonempty (ws : list bytes) : Prop := Forall (fun w => w <> []) ws.
(** what a word that is no keyword and no filler can begin *)
Lemma lexed_other : forall w r ts, w <> [] -> ktok (kw_lower w) w = None -> ~ filler w -> lexed (w :: r) ts ->
  (exists t ts', ts = t :: ts' /\ number w t /\ lexed r ts') \/
  (exists j b r' t ts', r = j :: b :: r' /\ (j = bs ".." \/ j = bs "~") /\ ts = t :: ts' /\ number (w ++ j ++ b) t /\ lexed r' ts').
Proof.
  intros w r ts N K F L. inversion L; subst.
  - contradiction.
  - match goal with X : keyword _ _ |- _ => apply keyword_ktok in X; congruence end.
  - left. eauto.
  - right. eexists _, _, _, _, _. split; [reflexivity|]. eauto.
Qed.
Lemma join_not_lexed : forall j r ts, j = bs ".." \/ j = bs "~" -> ~ lexed (j :: r) ts.
Proof.
  intros j r ts J L. assert (A : ktok (kw_lower j) j = None /\ ~ filler j) by (destruct J as [-> | ->]; (split; [reflexivity|]); intros [E|[E|E]]; discriminate).
  assert (N : j <> []) by (destruct J as [-> | ->]; discriminate). destruct A as [A1 A2].
  destruct (lexed_other j r ts N A1 A2 L) as [(t & ts' & _ & M & _)|(k & b & r' & t & ts' & _ & _ & _ & M & _)]; apply number_head in M as (c & u & E & D);
    destruct J as [-> | ->]; injection E as <- _; discriminate.
Qed.
Lemma shows_unknown : forall w t, ~ shows KUnknown w t.
Proof. intros w t S. inversion S. Qed.
Lemma number_known : forall w t, number w t -> classify w <> KUnknown /\ classify w <> KEof.
Proof. intros w t M. apply number_shows in M. split; intro E; rewrite E in M; inversion M. Qed.
Lemma shows_fun : forall k w t t', shows k w t -> shows k w t' -> t = t'.
Proof.
  intros k w t t' A B.
  assert (SP : forall s t s' t', digits s -> digits t -> digits s' -> digits t' -> s ++ bs ".." ++ t = s' ++ bs ".." ++ t' -> s = s' /\ t = t').
  { intros s u s' u' [_ D1] [_ D2] [_ D3] [_ D4] E. apply all_digits_b in D1, D2, D3, D4. apply (f_equal split_dots) in E. rewrite !split_dots_two in E by assumption. now injection E. }
  assert (SQ : forall x y x' y', sample_num x -> sample_num y -> sample_num x' -> sample_num y' -> nm_text x ++ "~"%char :: nm_text y = nm_text x' ++ "~"%char :: nm_text y' -> x = x' /\ y = y').
  { intros x y x' y' X Y X' Y' E. apply (f_equal (split_on "~"%char)) in E. rewrite !split_sample in E by assumption. injection E as E1 E2. split; now apply nm_text_inj. }
  inversion A; subst; inversion B; subst; try reflexivity.
  - match goal with X : _ ++ _ = _ ++ _ |- _ => apply SP in X as [-> ->]; auto end.
  - match goal with X : _ ++ _ = _ ++ _ |- _ => apply SQ in X as [-> ->]; auto end.
Qed.
Lemma number_fun : forall w t t', number w t -> number w t' -> t = t'.
Proof. intros w t t' A B. exact (shows_fun _ _ _ _ (number_shows _ _ A) (number_shows _ _ B)). Qed.
(** one step of the scanner *)
Lemma cscan_lexed : forall ws k l r, nonempty ws -> cscan ws = (k, l, r) ->
  nonempty r /\
  (k = KEof -> forall ts, lexed ws ts <-> ts = []) /\
  (k = KUnknown -> forall ts, ~ lexed ws ts) /\
  (k <> KEof -> k <> KUnknown -> exists t, shows k l t /\ forall ts, lexed ws ts <-> exists ts', ts = t :: ts' /\ lexed r ts').
Proof.
  induction ws as [|w ws IH]; intros k l r NE H.
  - injection H as <- <- <-. split; [constructor|]. split; [|split; congruence]. intros _ ts. split; [intro L; now inversion L|intros ->; constructor].
  - inversion NE as [|? ? W NW]; subst.
    assert (KW : forall k0 l0 t, k0 <> KEof -> k0 <> KUnknown -> shows k0 l0 t -> ktok (kw_lower w) w = Some t -> (k0, l0, ws) = (k, l, r) ->
      nonempty r /\ (k = KEof -> forall ts, lexed (w :: ws) ts <-> ts = []) /\ (k = KUnknown -> forall ts, ~ lexed (w :: ws) ts) /\
      (k <> KEof -> k <> KUnknown -> exists t, shows k l t /\ forall ts, lexed (w :: ws) ts <-> exists ts', ts = t :: ts' /\ lexed r ts')).
    { intros k0 l0 t N1 N2 S KT E. injection E as <- <- <-. split; [exact NW|]. split; [congruence|]. split; [congruence|]. intros _ _. exists t. split; [exact S|]. intro ts. split.
      - intro L. inversion L as [|? ? ? FI|? ? t' ts' K'|? ? t' ts' M|a j b ws' t' ts' NA J M]; subst.
        + exfalso. apply filler_iff in FI. destruct (mem_b_in _ _ FI) as [E|[E|[E|[]]]]; rewrite <- E in KT; discriminate.
        + apply keyword_ktok in K'. rewrite KT in K'. injection K' as ->. eauto.
        + exfalso. destruct (number_head _ _ M) as (c & u & -> & D). destruct (digit_word c u D). congruence.
        + exfalso. destruct (number_head _ _ M) as (c & u & E & D). destruct w as [|c' u']; [contradiction|]. injection E as -> _. destruct (digit_word c u' D). congruence.
      - intros (ts' & -> & L). apply lx_keyword; [now apply keyword_ktok|exact L]. }
    cbn [cscan] in H. destruct (beq (kw_lower w) []) eqn:B0.
    { exfalso. apply beq_eq in B0. destruct w as [|a [|b t]]; [contradiction|discriminate|]. cbn [kw_lower] in B0. destruct ((bval a =? 196) && (bval b =? 176)); discriminate. }
    unfold ktok in KW. set (kl := kw_lower w) in *.
    destruct (mem_b kl [bs "n"; bs "i"; bs "v"; bs "w"; bs "f"; bs "t"; bs "c"; bs "e"]) eqn:B1; [apply (KW KOperand w (TOper w)); [discriminate|discriminate|constructor|reflexivity|exact H]|].
    destruct (beq kl (bs "=")) eqn:B2; [apply (KW KEqual w (TRel false)); [discriminate|discriminate|constructor|reflexivity|exact H]|].
    destruct (mem_b kl [bs "%"; bs "mod"]) eqn:B3; [apply (KW KRem (bs "%") TRem); [discriminate|discriminate|constructor|reflexivity|exact H]|].
    destruct (beq kl (bs "!=")) eqn:B4; [apply (KW KNotEqual (bs "!=") (TRel true)); [discriminate|discriminate|constructor|reflexivity|exact H]|].
    destruct (mem_b kl [bs "@integer"; bs "@decimal"]) eqn:B5; [apply (KW KSample w TMark); [discriminate|discriminate|constructor|reflexivity|exact H]|].
    destruct (beq kl (bs "and")) eqn:B6; [apply (KW KAnd w TAnd); [discriminate|discriminate|constructor|reflexivity|exact H]|].
    destruct (beq kl (bs "or")) eqn:B7; [apply (KW KOr w TOr); [discriminate|discriminate|constructor|reflexivity|exact H]|].
    assert (KN : ktok (kw_lower w) w = None) by (unfold ktok; fold kl; rewrite B1, B2, B3, B4, B5, B6, B7; reflexivity). clear KW.
    destruct (mem_b kl [encode_rune 8230; bs "..."; bs "."]) eqn:B8.
    { assert (FI : filler w) by (apply filler_iff; exact B8).
      assert (EQ : forall ts, lexed (w :: ws) ts <-> lexed ws ts).
      { intro ts. split; [|intro L; now apply lx_filler]. intro L. inversion L as [|? ? ? FI' L'|? ? t' ts' K'|? ? t' ts' M|a j b ws' t' ts' NA J M]; subst; [exact L'| | |].
        - apply keyword_ktok in K'. congruence.
        - exfalso. destruct (number_head _ _ M) as (c & u & -> & D). now apply (digit_word c u D).
        - exfalso. destruct (number_head _ _ M) as (c & u & E & D). destruct w as [|c' u']; [contradiction|]. injection E as -> _. now apply (digit_word c u' D). }
      destruct (IH k l r NW H) as (A1 & A2 & A3 & A4). split; [exact A1|]. split; [intros E ts; rewrite EQ; now apply A2|]. split; [intros E ts; rewrite EQ; now apply A3|].
      intros N1 N2. destruct (A4 N1 N2) as (t & S & Q). exists t. split; [exact S|]. intro ts. now rewrite EQ. }
    assert (NF : ~ filler w) by (intro FI; apply filler_iff in FI; unfold kl in B8; congruence). clear B0 B1 B2 B3 B4 B5 B6 B7 B8. fold (classify w) in H.
    assert (ONE : forall r0, r0 = ws -> (match ws with j :: _ => mem_b j [bs ".."; bs "~"] = false | [] => True end) -> (classify w, w, r0) = (k, l, r) ->
      nonempty r /\ (k = KEof -> forall ts, lexed (w :: ws) ts <-> ts = []) /\ (k = KUnknown -> forall ts, ~ lexed (w :: ws) ts) /\
      (k <> KEof -> k <> KUnknown -> exists t, shows k l t /\ forall ts, lexed (w :: ws) ts <-> exists ts', ts = t :: ts' /\ lexed r ts')).
    { intros r0 -> NJ E. injection E as <- <- <-. split; [exact NW|].
      assert (INV : forall ts, lexed (w :: ws) ts -> exists t ts', ts = t :: ts' /\ number w t /\ lexed ws ts').
      { intros ts L. destruct (lexed_other w ws ts W KN NF L) as [X|(j & b & r' & t & ts' & -> & J & _)]; [exact X|]. exfalso. destruct J as [-> | ->]; discriminate. }
      destruct (classify_number w) as [U|(t & M)].
      - split; [congruence|]. split; [|congruence]. intros _ ts L. destruct (INV ts L) as (t & ts' & _ & M & _). now apply number_known in M.
      - destruct (number_known w t M) as [K1 K2]. split; [congruence|]. split; [congruence|]. intros _ _. exists t. split; [now apply number_shows|]. intro ts. split.
        + intro L. destruct (INV ts L) as (t' & ts' & -> & M' & L'). exists ts'. split; [now rewrite (number_fun w t t' M M')|exact L'].
        + intros (ts' & -> & L). now apply lx_number. }
    destruct ws as [|j ws2]; [apply (ONE []); auto|]. destruct (mem_b j [bs ".."; bs "~"]) eqn:MJ; [|apply (ONE (j :: ws2)); auto]. clear ONE.
    assert (J : j = bs ".." \/ j = bs "~") by (destruct (mem_b_in _ _ MJ) as [E|[E|[]]]; auto).
    assert (INV : forall ts, lexed (w :: j :: ws2) ts -> exists b r' t ts', ws2 = b :: r' /\ ts = t :: ts' /\ number (w ++ j ++ b) t /\ lexed r' ts').
    { intros ts L. destruct (lexed_other w _ ts W KN NF L) as [(t & ts' & _ & _ & X)|(j' & b & r' & t & ts' & E & _ & T & M & L')].
      - exfalso. revert X. now apply join_not_lexed.
      - injection E as -> ->. exists b, r', t, ts'. auto. }
    inversion NW as [|? ? _ N2]; subst. destruct ws2 as [|b r3].
    + injection H as <- <- <-. split; [constructor|]. split; [discriminate|]. split; [|congruence]. intros _ ts L. destruct (INV ts L) as (b & r' & t & ts' & E & _). discriminate.
    + fold (classify (w ++ j ++ b)) in H. injection H as <- <- <-. inversion N2 as [|? ? _ N3]; subst. split; [exact N3|].
      destruct (classify_number (w ++ j ++ b)) as [U|(t & M)].
      * split; [congruence|]. split; [|congruence]. intros _ ts L. destruct (INV ts L) as (b' & r' & t & ts' & E & _ & M & _). injection E as <- <-. now apply number_known in M.
      * destruct (number_known _ t M) as [K1 K2]. split; [congruence|]. split; [congruence|]. intros _ _. exists t. split; [now apply number_shows|]. intro ts. split.
        -- intro L. destruct (INV ts L) as (b' & r' & t' & ts' & E & -> & M' & L'). injection E as <- <-. exists ts'. split; [now rewrite (number_fun _ t t' M M')|exact L'].
        -- intros (ts' & -> & L). now apply lx_joined.
Qed.

(** ** Parser *)
(** the tokens still to come, the current one included *)
Definition view (st : pst) (ts : list token) : Prop :=
  nonempty (p_rest st) /\ p_tok st <> KUnknown /\
  match p_tok st with
  | KEof => ts = []
  | k => exists t ts', ts = t :: ts' /\ shows k (p_lit st) t /\ lexed (p_rest st) ts'
  end.
Definition good (st : pst) : Prop :=
  nonempty (p_rest st) /\ p_tok st <> KUnknown /\ (p_tok st <> KEof -> exists t, shows (p_tok st) (p_lit st) t).
Lemma enter_view : forall r, nonempty r ->
  match enter r with Ok st => good st /\ forall ts, lexed r ts <-> view st ts | Err => forall ts, ~ lexed r ts | _ => False end.
Proof.
  intros r N. unfold enter, pnext. cbn [p_rest]. destruct (cscan r) as [[k l] r'] eqn:C. destruct (cscan_lexed r k l r' N C) as (A1 & A2 & A3 & A4).
  assert (G : k <> KUnknown -> good (PSt k l r') /\ forall ts, lexed r ts <-> view (PSt k l r') ts).
  { intro NU. split; [split; [exact A1|]; split; [exact NU|]; intro NE; destruct (A4 NE NU) as (t & S & _); eauto|]. intro ts. unfold view. cbn [p_rest p_tok p_lit].
    assert (D : k = KEof \/ k <> KEof) by (destruct k; (now left) || (right; discriminate)). destruct D as [->|NE].
    - rewrite (A2 eq_refl). tauto.
    - destruct (A4 NE NU) as (t & S & Q). rewrite Q.
      assert (X : (exists ts', ts = t :: ts' /\ lexed r' ts') <-> exists t0 ts', ts = t0 :: ts' /\ shows k l t0 /\ lexed r' ts').
      { split; [intros (ts' & E & L); exists t, ts'; auto|]. intros (t0 & ts' & E & S0 & L). exists ts'. now rewrite (shows_fun _ _ _ _ S S0). }
      rewrite X. destruct k; try contradiction; tauto. }
  destruct k; try (apply G; discriminate). intros ts. now apply A3.
Qed.
Lemma next_ok : forall st st', nonempty (p_rest st) -> pnext st = Ok st' -> good st' /\ forall ts, lexed (p_rest st) ts <-> view st' ts.
Proof. intros st st' N H. pose proof (enter_view (p_rest st) N) as E. change (enter (p_rest st)) with (pnext st) in E. rewrite H in E. exact E. Qed.
Lemma next_lexed : forall st ts, nonempty (p_rest st) -> lexed (p_rest st) ts -> exists st', pnext st = Ok st' /\ view st' ts.
Proof.
  intros st ts N L. pose proof (enter_view (p_rest st) N) as E. change (enter (p_rest st)) with (pnext st) in E. destruct (pnext st) as [st'| | |]; try contradiction; [|now elim (E ts)].
  exists st'. split; [reflexivity|]. now apply E.
Qed.
(** the current token *)
Lemma view_intro : forall st t ts, good st -> shows (p_tok st) (p_lit st) t -> lexed (p_rest st) ts -> view st (t :: ts).
Proof. intros st t ts (N & U & _) S L. split; [exact N|]. split; [exact U|]. destruct (p_tok st); try (exists t, ts; auto; fail). inversion S. Qed.
Lemma view_cons : forall st t ts, view st (t :: ts) -> nonempty (p_rest st) /\ shows (p_tok st) (p_lit st) t /\ lexed (p_rest st) ts.
Proof.
  intros st t ts (N & U & V). split; [exact N|]. destruct (p_tok st); try discriminate; try contradiction; destruct V as (t0 & ts0 & E & S & L); injection E as -> ->; auto.
Qed.
Lemma view_nil : forall st, view st [] -> p_tok st = KEof.
Proof. intros st (N & U & V). destruct (p_tok st); try reflexivity; try contradiction; destruct V as (t0 & ts0 & E & _); discriminate. Qed.
Lemma good_eof : forall st, good st -> p_tok st = KEof -> view st [].
Proof. intros st (N & U & _) E. split; [exact N|]. split; [exact U|]. now rewrite E. Qed.

(** *** Runs *)
(** reading [ts] leads from one state to another *)
Inductive run : pst -> list token -> pst -> Prop :=
| ru_nil : forall st, run st [] st
| ru_step : forall st t st1 ts st', shows (p_tok st) (p_lit st) t -> pnext st = Ok st1 -> run st1 ts st' -> run st (t :: ts) st'.
Lemma run_good : forall st ts z, run st ts z -> good st -> good z.
Proof. intros st ts z R. induction R as [st|st t st1 ts z S P R IH]; intro G; [exact G|]. apply IH. exact (proj1 (next_ok _ _ (proj1 G) P)). Qed.
Lemma run_view : forall st ts z us, run st ts z -> good st -> view z us -> view st (ts ++ us).
Proof.
  intros st ts z us R. induction R as [st|st t st1 ts z S P R IH]; intros G V; [exact V|]. destruct (next_ok _ _ (proj1 G) P) as [G1 E]. apply view_intro; [exact G|exact S|]. apply E. now apply IH.
Qed.
Lemma view_run : forall ts st us, view st (ts ++ us) -> exists z, run st ts z /\ view z us.
Proof.
  induction ts as [|t ts IH]; intros st us V; [exists st; split; [constructor|exact V]|]. destruct (view_cons _ _ _ V) as (N & S & L). destruct (next_lexed st _ N L) as (st1 & P & V1).
  destruct (IH _ _ V1) as (z & R & V2). exists z. split; [|exact V2]. now apply ru_step with st1.
Qed.
Lemma run_app : forall st ts z us y, run st ts z -> run z us y -> run st (ts ++ us) y.
Proof. intros st ts z us y R. induction R as [st|st t st1 ts z S P R IH]; intro V; [exact V|]. apply ru_step with st1; auto. Qed.
Lemma run_split : forall ts st us y, run st (ts ++ us) y -> exists z, run st ts z /\ run z us y.
Proof.
  induction ts as [|t ts IH]; intros st us y R; [exists st; split; [constructor|exact R]|]. inversion R as [|? ? st1 ? ? S P R1]; subst.
  destruct (IH _ _ _ R1) as (z & A & B). exists z. split; [now apply ru_step with st1|exact B].
Qed.
Lemma run_cons : forall st t ts z, run st (t :: ts) z -> shows (p_tok st) (p_lit st) t /\ exists st1, pnext st = Ok st1 /\ run st1 ts z.
Proof. intros st t ts z R. inversion R; subst. eauto. Qed.
Lemma run_one : forall st t z, shows (p_tok st) (p_lit st) t -> pnext st = Ok z -> run st [t] z.
Proof. intros. apply ru_step with z; auto. constructor. Qed.
Lemma run_single : forall st t z, run st [t] z -> shows (p_tok st) (p_lit st) t /\ pnext st = Ok z.
Proof. intros st t z R. apply run_cons in R as (S & st1 & P & R). inversion R; subst. auto. Qed.
Lemma next_good : forall st z, good st -> pnext st = Ok z -> good z.
Proof. intros st z G P. exact (proj1 (next_ok st z (proj1 G) P)). Qed.

(** *** Values *)
Lemma uint_big : forall s n, forallb is_digit s = true -> 0 <= n -> n <= maxUint64 -> maxInt64 < dec_from n s ->
  exists u, maxInt64 < u /\ (parse_uint_loop s n = PInt u \/ parse_uint_loop s n = PRange u).
Proof.
  induction s as [|c s IH]; intros n D N M B.
  - exists n. split; [exact B|]. left. reflexivity.
  - cbn [forallb] in D. apply andb_true_iff in D as [D1 D2]. pose proof (digit_val_range _ D1). cbn [parse_uint_loop]. rewrite D1.
    change (dec_from n (c :: s)) with (dec_from (n * 10 + digit_val c) s) in B. destruct (maxUint64 <? n * 10 + digit_val c) eqn:E.
    + exists maxUint64. split; [reflexivity|]. now right.
    + apply IH; [exact D2|lia|lia|exact B].
Qed.
Lemma parse_big : forall s, digits s -> maxInt64 < dec_val s -> parse_int s = PRange maxInt64.
Proof.
  intros s [N D] B. apply all_digits_b in D. destruct s as [|c s]; [contradiction|]. destruct (uint_big (c :: s) 0 D) as (u & U & P); [lia|unfold maxUint64; lia|exact B|].
  cbn [forallb] in D. apply andb_true_iff in D as [D1 D2]. destruct (digit_not_sign _ D1) as [E1 E2]. unfold parse_int. rewrite E1, E2. cbn [orb]. cbv iota. unfold parse_uint.
  destruct P as [-> | ->]; destruct (maxInt64 <? u) eqn:E; (reflexivity || (apply Z.ltb_ge in E; lia)).
Qed.
Lemma ignore_clipped : forall s, digits s -> parse_int_ignore s = clipped s.
Proof.
  intros s D. unfold clipped. change 9223372036854775807 with maxInt64. destruct (Z_le_gt_dec (dec_val s) maxInt64) as [L|G].
  - rewrite Z.min_l by exact L. apply parse_int_ignore_digits; [apply D|apply all_digits_b, D|exact L].
  - rewrite Z.min_r by lia. unfold parse_int_ignore. now rewrite parse_big by (assumption || lia).
Qed.
Lemma err_digits : forall s, digits s -> parse_int_err s = if dec_val s <=? maxInt64 then Ok (dec_val s) else Err.
Proof.
  intros s D. unfold parse_int_err. destruct (dec_val s <=? maxInt64) eqn:L.
  - apply Z.leb_le in L. rewrite parse_int_digits; [reflexivity|apply D|apply all_digits_b, D|exact L].
  - apply Z.leb_gt in L. now rewrite parse_big.
Qed.

Lemma shows_val : forall k w s, shows k w (TVal s) -> k = KValue /\ w = s /\ digits s.
Proof. intros k w s H. inversion H; subst. auto. Qed.
Lemma shows_range : forall k w s t, shows k w (TRange s t) -> k = KRange /\ w = s ++ bs ".." ++ t /\ digits s /\ digits t.
Proof. intros k w s t H. inversion H; subst. auto. Qed.
Lemma shows_krange : forall w t, shows KRange w t -> exists s u, t = TRange s u /\ w = s ++ bs ".." ++ u /\ digits s /\ digits u /\ no_leading_zero u.
Proof. intros w t H. inversion H; subst. eauto 10. Qed.
Lemma value_sound : forall st v st', good st -> p_value st = Ok (v, st') -> exists s, v = clipped s /\ run st [TVal s] st'.
Proof.
  intros st v st' G H. unfold p_value in H. destruct (p_tok st) eqn:T; try discriminate. destruct (pnext st) as [st1| | |] eqn:P; try discriminate. cbn [rbind] in H. injection H as <- <-.
  destruct (proj2 (proj2 G)) as (t & S); [now rewrite T|]. pose proof S as S0. rewrite T in S0. inversion S0; subst. exists (p_lit st). split; [now apply ignore_clipped|now apply run_one].
Qed.
Lemma value_complete : forall st s st', run st [TVal s] st' -> p_value st = Ok (clipped s, st').
Proof. intros st s st' R. apply run_single in R as (S & P). apply shows_val in S as (T & W & D). unfold p_value. rewrite T, P, W. cbn [rbind]. now rewrite ignore_clipped. Qed.

(** *** Lists *)
Lemma range_sound : forall st e st', good st -> p_range st = Ok (e, st') -> exists t, elem_of t e /\ run st [t] st'.
Proof.
  intros st e st' G H. unfold p_range in H. destruct (p_tok st) eqn:T; try discriminate. destruct (proj2 (proj2 G)) as (t & S); [now rewrite T|]. pose proof S as S0.
  rewrite T in S. apply shows_krange in S as (s & u & -> & W & DS & DU & NZ). rewrite W, split_dots_two in H by (apply all_digits_b; (apply DS || apply DU)).
  rewrite (err_digits s DS), (err_digits u DU) in H. destruct (dec_val s <=? maxInt64) eqn:E1; [|discriminate]. destruct (dec_val u <=? maxInt64) eqn:E2; [|discriminate]. cbn [rbind] in H.
  destruct (dec_val u <? dec_val s) eqn:E3; [discriminate|]. destruct (pnext st) as [st1| | |] eqn:P; try discriminate. cbn [rbind] in H. injection H as <- <-.
  exists (TRange s u). split; [constructor; unfold maxInt64 in *; lia|now apply run_one].
Qed.
Lemma range_complete : forall st s u e st', run st [TRange s u] st' -> elem_of (TRange s u) e -> p_range st = Ok (e, st').
Proof.
  intros st s u e st' R E. apply run_single in R as (S & P). apply shows_range in S as (T & W & DS & DU). inversion E as [|s0 t0 B]; subst. unfold p_range.
  rewrite T, W, split_dots_two by (apply all_digits_b; (apply DS || apply DU)).
  rewrite (err_digits s DS), (err_digits u DU). rewrite !(proj2 (Z.leb_le _ maxInt64)) by (unfold maxInt64; lia). cbn [rbind]. rewrite (proj2 (Z.ltb_ge _ _)) by lia. now rewrite P.
Qed.
Definition list_kind (k : ctok) : bool := match k with KValue | KRange => true | _ => false end.
Definition one_elem (st : pst) : res (relem * pst) :=
  match p_tok st with KValue => do vs <- p_value st ; Ok (RVal (fst vs), snd vs) | KRange => p_range st | _ => Err end.
Lemma list_step : forall f st, p_list (S f) st = do xs <- one_elem st ; if list_kind (p_tok (snd xs)) then do ls <- p_list f (snd xs) ; Ok (fst xs :: fst ls, snd ls) else Ok ([fst xs], snd xs).
Proof. intros f st. cbn [p_list]. unfold one_elem. destruct (match p_tok st with KValue => _ | KRange => _ | _ => _ end) as [xs| | |]; try reflexivity. cbn [rbind]. destruct (p_tok (snd xs)); reflexivity. Qed.
Lemma elem_sound : forall st e st', good st -> one_elem st = Ok (e, st') -> exists t, elem_of t e /\ run st [t] st'.
Proof.
  intros st e st' G H. unfold one_elem in H. destruct (p_tok st) eqn:T; try discriminate; [|now apply range_sound].
  destruct (p_value st) as [[v st1]| | |] eqn:P; try discriminate. cbn [rbind fst snd] in H. injection H as <- <-. destruct (value_sound _ _ _ G P) as (s & -> & R).
  exists (TVal s). split; [constructor|exact R].
Qed.
Lemma elem_complete : forall st t e st', elem_of t e -> run st [t] st' -> one_elem st = Ok (e, st').
Proof.
  intros st t e st' E R. destruct (run_single _ _ _ R) as (S & _). unfold one_elem. destruct E as [s|s u B].
  - apply shows_val in S as (T & _). now rewrite T, (value_complete _ _ _ R).
  - pose proof S as S'. apply shows_range in S' as (T & _). rewrite T. apply range_complete with (s := s) (u := u); [exact R|now constructor].
Qed.
Lemma list_sound : forall f st l st', good st -> p_list f st = Ok (l, st') -> list_kind (p_tok st') = false /\
  exists ls, ls <> [] /\ Forall2 elem_of ls l /\ run st ls st'.
Proof.
  induction f as [|f IH]; intros st l st' G H; [discriminate|]. rewrite list_step in H. destruct (one_elem st) as [[e st1]| | |] eqn:E; try discriminate. cbn [rbind fst snd] in H.
  destruct (elem_sound _ _ _ G E) as (t & ET & R1). pose proof (run_good _ _ _ R1 G) as G1. destruct (list_kind (p_tok st1)) eqn:K.
  - destruct (p_list f st1) as [[l2 st2]| | |] eqn:L; try discriminate. cbn [rbind fst snd] in H. injection H as <- <-. destruct (IH _ _ _ G1 L) as (K2 & ls & N & F & R2).
    split; [exact K2|]. exists (t :: ls). split; [discriminate|]. split; [now constructor|]. exact (run_app _ [t] _ _ _ R1 R2).
  - injection H as <- <-. split; [exact K|]. exists [t]. split; [discriminate|]. split; [repeat constructor; exact ET|exact R1].
Qed.
Lemma elem_kind : forall t e k w, elem_of t e -> shows k w t -> list_kind k = true.
Proof. intros t e k w [s|s u B] S; inversion S; reflexivity. Qed.
Lemma list_complete : forall ls l, Forall2 elem_of ls l -> ls <> [] -> forall f st st', (length ls <= f)%nat -> list_kind (p_tok st') = false -> run st ls st' -> p_list f st = Ok (l, st').
Proof.
  intros ls l F. induction F as [|t e ls l E F IH]; intros N f st st' L K R; [contradiction|]. destruct f as [|f]; [cbn in L; lia|]. rewrite list_step.
  apply (run_split [t]) in R as (st1 & R1 & R2). rewrite (elem_complete _ _ _ _ E R1). cbn [rbind fst snd].
  destruct F as [|t2 e2 ls l E2 F].
  - inversion R2; subst. now rewrite K.
  - destruct (run_cons _ _ _ _ R2) as (S & _). rewrite (elem_kind _ _ _ _ E2 S). rewrite (IH ltac:(discriminate) f st1 st' ltac:(cbn [length] in *; lia) K R2). reflexivity.
Qed.

(** *** Relations *)
Lemma expr_sound : forall st e st', good st -> p_expression st = Ok (e, st') -> exists xs, expr_of xs e /\ run st xs st'.
Proof.
  intros st e st' G H. unfold p_expression in H. destruct (p_tok st) eqn:T; try discriminate. destruct (pnext st) as [st1| | |] eqn:P; try discriminate. cbn [rbind] in H.
  pose proof (run_one st (TOper (p_lit st)) st1 ltac:(rewrite T; constructor) P) as R1. pose proof (run_good _ _ _ R1 G) as G1.
  assert (NO : Ok (CExpr (p_lit st) None, st1) = Ok (e, st') -> exists xs, expr_of xs e /\ run st xs st').
  { intro X. injection X as <- <-. eexists. split; [constructor|exact R1]. }
  destruct (p_tok st1) eqn:T1; try (apply NO; exact H). clear NO.
  destruct (pnext st1) as [st2| | |] eqn:P1; try discriminate. cbn [rbind] in H. pose proof (run_one st1 TRem st2 ltac:(rewrite T1; constructor) P1) as R2.
  destruct (p_value st2) as [[v st3]| | |] eqn:PV; try discriminate. cbn [rbind fst snd] in H. injection H as <- <-. destruct (value_sound _ _ _ (run_good _ _ _ R2 G1) PV) as (s & -> & R3).
  eexists. split; [constructor|]. exact (run_app _ [_] _ [_; _] _ R1 (run_app _ [_] _ [_] _ R2 R3)).
Qed.
Lemma expr_complete : forall xs e, expr_of xs e -> forall st st', p_tok st' <> KRem -> run st xs st' -> p_expression st = Ok (e, st').
Proof.
  intros xs e [w|w s] st st' E R; unfold p_expression; apply run_cons in R as (S & st1 & P & R); assert (T : p_tok st = KOperand /\ p_lit st = w) by (inversion S; subst; auto); destruct T as [T W];
    rewrite T, P, W; cbn [rbind].
  - inversion R; subst. destruct (p_tok st'); try reflexivity. now elim E.
  - apply run_cons in R as (S1 & st2 & P2 & R). assert (T1 : p_tok st1 = KRem) by (inversion S1; auto). rewrite T1, P2. cbn [rbind]. now rewrite (value_complete _ _ _ R).
Qed.
Lemma rel_sound : forall f st n st', good st -> p_relation f st = Ok (n, st') -> list_kind (p_tok st') = false /\ exists us, rel_of us n /\ run st us st'.
Proof.
  intros f st n st' G H. unfold p_relation in H. destruct (p_expression st) as [[e st1]| | |] eqn:E; try discriminate. cbn [rbind fst snd] in H.
  destruct (expr_sound _ _ _ G E) as (xs & X & R1). pose proof (run_good _ _ _ R1 G) as G1.
  assert (B : exists neg, (p_tok st1 = if neg : bool then KNotEqual else KEqual) /\ (do st2 <- pnext st1 ; do ls <- p_list f st2 ; Ok (CRel neg e (fst ls), snd ls)) = Ok (n, st')).
  { destruct (p_tok st1) eqn:T; try discriminate; [exists false|exists true]; auto. }
  clear H. destruct B as (neg & T & H). destruct (pnext st1) as [st2| | |] eqn:P; try discriminate. cbn [rbind] in H.
  pose proof (run_one st1 (TRel neg) st2 ltac:(rewrite T; destruct neg; constructor) P) as R2.
  destruct (p_list f st2) as [[l st3]| | |] eqn:L; try discriminate. cbn [rbind fst snd] in H. injection H as <- <-. destruct (list_sound _ _ _ _ (run_good _ _ _ R2 G1) L) as (K & ls & N & F & R3).
  split; [exact K|]. exists (xs ++ TRel neg :: ls). split; [now constructor|]. exact (run_app _ _ _ _ _ R1 (run_app _ [_] _ _ _ R2 R3)).
Qed.
Lemma rel_complete : forall us n, rel_of us n -> forall f st st', (length us <= f)%nat -> list_kind (p_tok st') = false -> run st us st' -> p_relation f st = Ok (n, st').
Proof.
  intros us n [xs e neg ls l X N F] f st st' L K R. apply run_split in R as (st1 & R1 & R). apply run_cons in R as (S & st2 & P & R). unfold p_relation.
  assert (T : p_tok st1 = if neg then KNotEqual else KEqual) by (inversion S; reflexivity).
  rewrite (expr_complete _ _ X st st1); [|rewrite T; destruct neg; discriminate|exact R1]. cbn [rbind fst snd]. rewrite app_length in L. cbn [length] in L.
  rewrite T. destruct neg; rewrite P; cbn [rbind]; rewrite (list_complete ls l F N f st2 st' ltac:(lia) K R); reflexivity.
Qed.

(** *** Conditions *)
Lemma and_step : forall f st, p_andc (S f) st = do ls <- p_relation (S f) st ; if tok_eqb (p_tok (snd ls)) KAnd then do st1 <- pnext (snd ls) ; do rs <- p_andc f st1 ; Ok (CAnd (fst ls) (fst rs), snd rs) else Ok ls.
Proof. intros f st. cbn [p_andc]. destruct (p_relation (S f) st) as [ls| | |]; try reflexivity. cbn [rbind]. destruct (p_tok (snd ls)); reflexivity. Qed.
Lemma or_step : forall f st, p_cond (S f) st = do ls <- p_andc (S f) st ; if tok_eqb (p_tok (snd ls)) KOr then do st1 <- pnext (snd ls) ; do rs <- p_cond f st1 ; Ok (COr (fst ls) (fst rs), snd rs) else Ok ls.
Proof. intros f st. cbn [p_cond]. destruct (p_andc (S f) st) as [ls| | |]; try reflexivity. cbn [rbind]. destruct (p_tok (snd ls)); reflexivity. Qed.
Lemma tok_eqb_eq : forall a b, tok_eqb a b = true -> a = b.
Proof. intros [] []; try discriminate; reflexivity. Qed.
Lemma and_sound : forall f st n st', good st -> p_andc f st = Ok (n, st') -> list_kind (p_tok st') = false /\ tok_eqb (p_tok st') KAnd = false /\ exists us, and_of us n /\ run st us st'.
Proof.
  induction f as [|f IH]; intros st n st' G H; [discriminate|]. rewrite and_step in H. destruct (p_relation (S f) st) as [[n1 st1]| | |] eqn:R; try discriminate. cbn [rbind fst snd] in H.
  destruct (rel_sound _ _ _ _ G R) as (K1 & us & RO & R1). pose proof (run_good _ _ _ R1 G) as G1. destruct (tok_eqb (p_tok st1) KAnd) eqn:T.
  - apply tok_eqb_eq in T. destruct (pnext st1) as [st2| | |] eqn:P; try discriminate. cbn [rbind] in H. pose proof (run_one st1 TAnd st2 ltac:(rewrite T; constructor) P) as R2.
    destruct (p_andc f st2) as [[n2 st3]| | |] eqn:A; try discriminate. cbn [rbind fst snd] in H. injection H as <- <-. destruct (IH _ _ _ (run_good _ _ _ R2 G1) A) as (K3 & K4 & vs & AO & R3).
    split; [exact K3|]. split; [exact K4|]. exists (us ++ TAnd :: vs). split; [now constructor|]. exact (run_app _ _ _ _ _ R1 (run_app _ [_] _ _ _ R2 R3)).
  - injection H as <- <-. split; [exact K1|]. split; [exact T|]. exists us. split; [now constructor|exact R1].
Qed.
Lemma and_complete : forall us n, and_of us n -> forall f st st', (length us <= f)%nat -> list_kind (p_tok st') = false -> tok_eqb (p_tok st') KAnd = false -> run st us st' -> p_andc f st = Ok (n, st').
Proof.
  assert (NE : forall us n, rel_of us n -> us <> []) by (intros us n [xs e neg ls l X N F]; destruct xs; discriminate).
  intros us n A. induction A as [us n R|us n vs m R A IH]; intros f st st' L K1 K2 V.
  - destruct f as [|f]; [destruct us; [now elim (NE _ _ R)|cbn in L; lia]|]. rewrite and_step. rewrite (rel_complete _ _ R (S f) st st' L K1 V). cbn [rbind fst snd]. now rewrite K2.
  - rewrite app_length in L. cbn [length] in L. destruct f as [|f]; [lia|]. rewrite and_step. apply run_split in V as (st1 & R1 & V). apply run_cons in V as (S1 & st2 & P & R2).
    assert (T : p_tok st1 = KAnd) by (inversion S1; reflexivity). rewrite (rel_complete _ _ R (S f) st st1 ltac:(lia) ltac:(now rewrite T) R1). cbn [rbind fst snd]. rewrite T, P. cbn [tok_eqb rbind].
    now rewrite (IH f st2 st' ltac:(lia) K1 K2 R2).
Qed.
Lemma or_sound : forall f st n st', good st -> p_cond f st = Ok (n, st') -> list_kind (p_tok st') = false /\ tok_eqb (p_tok st') KAnd = false /\ tok_eqb (p_tok st') KOr = false /\ exists us, or_of us n /\ run st us st'.
Proof.
  induction f as [|f IH]; intros st n st' G H; [discriminate|]. rewrite or_step in H. destruct (p_andc (S f) st) as [[n1 st1]| | |] eqn:R; try discriminate. cbn [rbind fst snd] in H.
  destruct (and_sound _ _ _ _ G R) as (K1 & K2 & us & RO & R1). pose proof (run_good _ _ _ R1 G) as G1. destruct (tok_eqb (p_tok st1) KOr) eqn:T.
  - apply tok_eqb_eq in T. destruct (pnext st1) as [st2| | |] eqn:P; try discriminate. cbn [rbind] in H. pose proof (run_one st1 TOr st2 ltac:(rewrite T; constructor) P) as R2.
    destruct (p_cond f st2) as [[n2 st3]| | |] eqn:A; try discriminate. cbn [rbind fst snd] in H. injection H as <- <-. destruct (IH _ _ _ (run_good _ _ _ R2 G1) A) as (K3 & K4 & K5 & vs & AO & R3).
    split; [exact K3|]. split; [exact K4|]. split; [exact K5|]. exists (us ++ TOr :: vs). split; [now constructor|]. exact (run_app _ _ _ _ _ R1 (run_app _ [_] _ _ _ R2 R3)).
  - injection H as <- <-. split; [exact K1|]. split; [exact K2|]. split; [exact T|]. exists us. split; [now constructor|exact R1].
Qed.
Lemma or_complete : forall us n, or_of us n -> forall f st st', (length us <= f)%nat -> list_kind (p_tok st') = false -> tok_eqb (p_tok st') KAnd = false -> tok_eqb (p_tok st') KOr = false ->
  run st us st' -> p_cond f st = Ok (n, st').
Proof.
  assert (NE : forall us n, and_of us n -> us <> []) by (intros us n [? ? [xs e neg ls l X N F]|? ? ? ? [xs e neg ls l X N F] _]; destruct xs; discriminate).
  intros us n A. induction A as [us n R|us n vs m R A IH]; intros f st st' L K1 K2 K3 V.
  - destruct f as [|f]; [destruct us; [now elim (NE _ _ R)|cbn in L; lia]|]. rewrite or_step. rewrite (and_complete _ _ R (S f) st st' L K1 K2 V). cbn [rbind fst snd]. now rewrite K3.
  - rewrite app_length in L. cbn [length] in L. destruct f as [|f]; [lia|]. rewrite or_step. apply run_split in V as (st1 & R1 & V). apply run_cons in V as (S1 & st2 & P & R2).
    assert (T : p_tok st1 = KOr) by (inversion S1; reflexivity). rewrite (and_complete _ _ R (S f) st st1 ltac:(lia) ltac:(now rewrite T) ltac:(now rewrite T) R1). cbn [rbind fst snd]. rewrite T, P. cbn [tok_eqb rbind].
    now rewrite (IH f st2 st' ltac:(lia) K1 K2 K3 R2).
Qed.

(** *** Samples *)
Lemma map_inj : forall x zs us, Forall (fun z => sample_num z /\ same_places x z) zs -> Forall (fun z => sample_num z /\ same_places x z) us -> map nm_digits zs = map nm_digits us -> zs = us.
Proof.
  intros x zs us F. revert us. induction F as [|z zs [Z P] F IH]; intros [|u us] G E; try discriminate; [reflexivity|]. cbn [map] in E. inversion G as [|? ? [U Q] G']; subst.
  injection E as E1 E2. f_equal; [|now apply IH]. apply sample_num_inj; [exact Z|exact U| |exact E1]. apply same_places_trans with x; [now apply same_places_sym|exact Q].
Qed.
Lemma steps_fun : forall x y zs us, steps_from x y zs -> steps_from x y us -> zs = us.
Proof. intros x y zs us [F1 E1] [F2 E2]. apply (map_inj x); try assumption. congruence. Qed.
Lemma loop_steps : forall fuel x y, sample_num x -> sample_num y -> same_places x y -> nm_digits x <= nm_digits y -> (Z.to_nat (nm_digits y - nm_digits x) < fuel)%nat ->
  exists zs, sample_loop fuel (nm_text x) (nm_text y) = Ok (map nm_text zs) /\ steps_from x y zs.
Proof.
  intros fuel x y X Y P L F. destruct (sample_loop_up (Z.to_nat (nm_digits y - nm_digits x)) x y fuel X Y P) as (zs & E & G & M); [lia|exact F|].
  exists zs. split; [exact E|]. now split.
Qed.
Lemma loop_sound : forall fuel x y l, sample_num x -> sample_num y -> parse_sample_range fuel (nm_text x ++ "~"%char :: nm_text y) = Ok l ->
  same_places x y /\ nm_digits x <= nm_digits y /\ exists zs, steps_from x y zs /\ l = map nm_text zs.
Proof.
  intros fuel x y l X Y H. unfold parse_sample_range in H. rewrite split_sample in H by assumption. destruct (sample_loop_ok_inv _ _ _ _ X Y H) as [P L].
  split; [exact P|]. split; [exact L|]. destruct (loop_steps (S (Nat.max fuel (Z.to_nat (nm_digits y - nm_digits x)))) x y X Y P L ltac:(lia)) as (zs & E & SF).
  exists zs. split; [exact SF|]. rewrite (sample_loop_mono _ (S (Nat.max fuel (Z.to_nat (nm_digits y - nm_digits x)))) _ _ _ H) in E by lia. congruence.
Qed.
Lemma shows_srange : forall k w x y, shows k w (TSamples x y) -> k = KSampleRange /\ w = nm_text x ++ "~"%char :: nm_text y /\ sample_num x /\ sample_num y.
Proof. intros k w x y H. inversion H; subst. auto. Qed.
Lemma shows_ksrange : forall w t, shows KSampleRange w t -> exists x y, t = TSamples x y /\ w = nm_text x ++ "~"%char :: nm_text y /\ sample_num x /\ sample_num y.
Proof. intros w t H. inversion H; subst. eauto 10. Qed.
Lemma samples_step : forall fuel n st, samples_loop fuel (S n) st =
  match p_tok st with
  | KEof => Ok []
  | KSample => do st' <- pnext st ; samples_loop fuel n st'
  | KSampleValue | KValue => do st' <- pnext st ; do l <- samples_loop fuel n st' ; Ok (p_lit st :: l)
  | KSampleRange => do rs <- parse_sample_range fuel (p_lit st) ; do st' <- pnext st ; do l <- samples_loop fuel n st' ; Ok (rs ++ l)
  | _ => Err
  end.
Proof. intros fuel n st. cbn [samples_loop]. destruct (p_tok st); reflexivity. Qed.
Lemma samples_sound : forall fuel n st l, good st -> samples_loop fuel n st = Ok l -> exists ts z, samples_of ts l /\ run st ts z /\ p_tok z = KEof.
Proof.
  intros fuel. induction n as [|n IH]; intros st l G H.
  - cbn [samples_loop] in H. destruct (p_tok st) eqn:T; try discriminate. injection H as <-. exists [], st. split; [constructor|]. split; [constructor|exact T].
  - rewrite samples_step in H. destruct (p_tok st) eqn:T; try discriminate.
    + injection H as <-. exists [], st. split; [constructor|]. split; [constructor|exact T].
    + destruct (pnext st) as [st1| | |] eqn:P; try discriminate. cbn [rbind] in H. destruct (samples_loop fuel n st1) as [l1| | |] eqn:L; try discriminate. cbn [rbind] in H. injection H as <-.
      destruct (proj2 (proj2 G)) as (t & S); [now rewrite T|]. rewrite T in S. inversion S as [| | | | | | |s D| | |]; subst.
      destruct (IH _ _ (next_good _ _ G P) L) as (ts & z & O & R & E). exists (TVal (p_lit st) :: ts), z. split; [now constructor|]. split; [|exact E]. apply ru_step with st1; [now rewrite T|exact P|exact R].
    + destruct (pnext st) as [st1| | |] eqn:P; try discriminate. cbn [rbind] in H.
      destruct (IH _ _ (next_good _ _ G P) H) as (ts & z & O & R & E). exists (TMark :: ts), z. split; [now constructor|]. split; [|exact E]. apply ru_step with st1; [rewrite T; constructor|exact P|exact R].
    + destruct (pnext st) as [st1| | |] eqn:P; try discriminate. cbn [rbind] in H. destruct (samples_loop fuel n st1) as [l1| | |] eqn:L; try discriminate. cbn [rbind] in H. injection H as <-.
      destruct (IH _ _ (next_good _ _ G P) L) as (ts & z & O & R & E). exists (TSample (p_lit st) :: ts), z. split; [now constructor|]. split; [|exact E]. apply ru_step with st1; [rewrite T; constructor|exact P|exact R].
    + destruct (proj2 (proj2 G)) as (t & S); [now rewrite T|]. pose proof S as S0. rewrite T in S. apply shows_ksrange in S as (x & y & -> & W & X & Y). rewrite W in H.
      destruct (parse_sample_range fuel _) as [rs| | |] eqn:R; try discriminate. cbn [rbind] in H. destruct (loop_sound _ _ _ _ X Y R) as (SP & LE & zs & SF & ->).
      destruct (pnext st) as [st1| | |] eqn:P; try discriminate. cbn [rbind] in H. destruct (samples_loop fuel n st1) as [l1| | |] eqn:L; try discriminate. cbn [rbind] in H. injection H as <-.
      destruct (IH _ _ (next_good _ _ G P) L) as (ts & z & O & R1 & E). exists (TSamples x y :: ts), z. split; [now constructor|]. split; [|exact E]. now apply ru_step with st1.
Qed.
Lemma samples_complete : forall ts l, samples_of ts l -> exists F, forall fuel n st z, (F <= fuel)%nat -> run st ts z ->
  samples_loop fuel (length ts + n) st = do m <- samples_loop fuel n z ; Ok (l ++ m).
Proof.
  intros ts l O. induction O as [|ts l O (F & IH)|s ts l O (F & IH)|s ts l O (F & IH)|x y zs ts l SP LE SF O (F & IH)].
  - exists 0%nat. intros fuel n st z _ R. inversion R; subst. cbn [length Nat.add]. destruct (samples_loop fuel n z); reflexivity.
  - exists F. intros fuel n st z LF R. cbn [length Nat.add]. rewrite samples_step. apply run_cons in R as (S & st1 & P & R). assert (T : p_tok st = KSample) by (inversion S; reflexivity).
    rewrite T, P. cbn [rbind]. now apply IH.
  - exists F. intros fuel n st z LF R. cbn [length Nat.add]. rewrite samples_step. apply run_cons in R as (S & st1 & P & R). apply shows_val in S as (T & W & _).
    rewrite T, W, P. cbn [rbind]. rewrite (IH _ _ _ _ LF R). destruct (samples_loop fuel n z); reflexivity.
  - exists F. intros fuel n st z LF R. cbn [length Nat.add]. rewrite samples_step. apply run_cons in R as (S & st1 & P & R). assert (T : p_tok st = KSampleValue /\ p_lit st = s) by (inversion S; auto).
    destruct T as [T W]. rewrite T, W, P. cbn [rbind]. rewrite (IH _ _ _ _ LF R). destruct (samples_loop fuel n z); reflexivity.
  - exists (Nat.max F (S (Z.to_nat (nm_digits y - nm_digits x)))). intros fuel n st z LF R. cbn [length Nat.add]. rewrite samples_step.
    apply run_cons in R as (S & st1 & P & R). apply shows_srange in S as (T & W & X & Y). rewrite T, W. unfold parse_sample_range. rewrite split_sample by assumption.
    destruct (loop_steps fuel x y X Y SP LE ltac:(lia)) as (us & E & SU). rewrite E. cbn [rbind]. rewrite (steps_fun _ _ _ _ SF SU), P. cbn [rbind].
    rewrite (IH fuel n st1 z ltac:(lia) R). destruct (samples_loop fuel n z); try reflexivity. cbn [rbind]. now rewrite app_assoc.
Qed.
Lemma samples_fun : forall ts l, samples_of ts l -> forall m, samples_of ts m -> l = m.
Proof.
  intros ts l O. induction O as [|ts l O IH|s ts l O IH|s ts l O IH|x y zs ts l SP LE SF O IH]; intros m H; inversion H; subst; auto; try (f_equal; auto; fail).
  match goal with X : steps_from x y _ |- _ => rewrite (steps_fun _ _ _ _ SF X) end. f_equal. auto.
Qed.

(** *** Rules *)
Lemma lexed_length : forall ws ts, lexed ws ts -> (length ts <= length ws)%nat.
Proof. intros ws ts L. induction L; cbn [length]; lia. Qed.
Lemma p_samples_eq : forall fuel n st, p_samples fuel n st = match p_tok st with KEof => Ok [] | KSample => samples_loop fuel n st | _ => Err end.
Proof. reflexivity. Qed.
Lemma rule_sound : forall fuel s r, parse_rule fuel s = Ok r -> exists ws ts, words (segs s) ws /\ lexed ws ts /\ rule_of ts (cr_root r) (cr_samples r).
Proof.
  intros fuel s r H. unfold parse_rule in H. pose proof (proj2 (tokens_words s (generate_tokens s)) eq_refl) as W. exists (generate_tokens s).
  pose proof (words_nonempty _ _ W (segs_full _ _)) as N. pose proof (enter_view _ N) as E. unfold enter in E. destruct (pnext _) as [st| | |]; try discriminate. cbn [rbind] in H.
  destruct E as [G E].
  assert (C : (exists sm, r = CRule None sm /\ p_tok st = KSample /\ p_samples fuel (S (length (generate_tokens s))) st = Ok sm) \/
    exists n st1 sm, r = CRule (Some n) sm /\ p_cond (S (length (generate_tokens s))) st = Ok (n, st1) /\ p_samples fuel (S (length (generate_tokens s))) st1 = Ok sm).
  { clear E W N. set (k := S (length (generate_tokens s))) in *. clearbody k.
    assert (O : p_tok st <> KSample -> (do ns <- (do r <- p_cond k st; Ok (Some (fst r), snd r)); do sm <- p_samples fuel k (snd ns); Ok (CRule (fst ns) sm)) = Ok r ->
      exists n st1 sm, r = CRule (Some n) sm /\ p_cond k st = Ok (n, st1) /\ p_samples fuel k st1 = Ok sm).
    { intros _ X. destruct (p_cond k st) as [[n st1]| | |]; try discriminate. cbn [rbind fst snd] in X. destruct (p_samples fuel k st1) as [sm| | |] eqn:PS; try discriminate. injection X as <-. eauto 10. }
    destruct (p_tok st) eqn:T; try (right; apply O; [discriminate|exact H]). left. cbn [rbind fst snd] in H. destruct (p_samples fuel k st) as [sm| | |] eqn:PS; try discriminate. injection H as <-. eauto. }
  destruct C as [(sm & -> & T & PS)|(n & st1 & sm & -> & PC & PS)]; cbn [cr_root cr_samples].
  - rewrite p_samples_eq, T in PS. destruct (samples_sound _ _ _ _ G PS) as (ts & z & O & R & EZ). exists ts. split; [exact W|].
    split; [apply E; rewrite <- (app_nil_r ts); apply run_view with z; [exact R|exact G|apply good_eof; [exact (run_good _ _ _ R G)|exact EZ]]|].
    destruct R as [st|st t st1 ts z S P R]; [congruence|]. rewrite T in S. inversion S; subst. inversion O; subst. now constructor.
  - destruct (or_sound _ _ _ _ G PC) as (_ & _ & _ & us & O & R1). pose proof (run_good _ _ _ R1 G) as G1. rewrite p_samples_eq in PS. destruct (p_tok st1) eqn:T; try discriminate.
    + injection PS as <-. exists us. split; [exact W|]. split; [|now constructor]. apply E. rewrite <- (app_nil_r us). apply run_view with st1; [exact R1|exact G|now apply good_eof].
    + destruct (samples_sound _ _ _ _ G1 PS) as (ts & z & O1 & R2 & EZ). exists (us ++ ts). split; [exact W|].
      split; [apply E; rewrite <- (app_nil_r (us ++ ts)); apply run_view with z; [exact (run_app _ _ _ _ _ R1 R2)|exact G|apply good_eof; [exact (run_good _ _ _ R2 G1)|exact EZ]]|].
      destruct R2 as [st1|st1 t st2 ts z S P R2]; [congruence|]. rewrite T in S. inversion S; subst. inversion O1; subst. now constructor.
Qed.
Lemma or_first : forall us n, or_of us n -> exists w r, us = TOper w :: r.
Proof.
  assert (X : forall us n, rel_of us n -> exists w r, us = TOper w :: r) by (intros us n [xs e neg ls l [w|w s] N F]; cbn [app]; eauto).
  assert (Y : forall us n, and_of us n -> exists w r, us = TOper w :: r) by (intros us n [ts m R|ts m vs k R _]; destruct (X _ _ R) as (w & r & ->); cbn [app]; eauto).
  intros us n [ts m R|ts m vs k R _]; destruct (Y _ _ R) as (w & r & ->); cbn [app]; eauto.
Qed.
Lemma rule_complete : forall s ws ts root sm, words (segs s) ws -> lexed ws ts -> rule_of ts root sm -> exists F, forall fuel, (F <= fuel)%nat -> parse_rule fuel s = Ok (CRule root sm).
Proof.
  intros s ws ts root sm W L R. pose proof (words_nonempty _ _ W (segs_full _ _)) as N. apply tokens_words in W. pose proof (enter_view _ N) as E. unfold enter in E. unfold parse_rule. rewrite W.
  pose proof (lexed_length _ _ L) as LL. destruct (pnext _) as [st| | |]; [| |contradiction|contradiction]; [|now elim (E ts)]. cbn [rbind]. destruct E as [G E]. apply E in L. clear E W N s.
  rewrite <- (app_nil_r ts) in L. apply view_run in L as (z & RZ & VZ). apply view_nil in VZ.
  assert (SL : forall sts l st0, samples_of sts l -> run st0 sts z -> (length sts <= S (length ws))%nat -> exists F, forall fuel, (F <= fuel)%nat -> samples_loop fuel (S (length ws)) st0 = Ok l).
  { intros sts l st0 O RS LE. destruct (samples_complete _ _ O) as (F & C). exists F. intros fuel LF. specialize (C fuel (S (length ws) - length sts)%nat st0 z LF RS).
    replace (length sts + (S (length ws) - length sts))%nat with (S (length ws)) in C by lia. rewrite C.
    assert (Z : samples_loop fuel (S (length ws) - length sts) z = Ok []) by (destruct (S (length ws) - length sts)%nat; cbn [samples_loop]; now rewrite VZ). rewrite Z. cbn [rbind]. now rewrite app_nil_r. }
  assert (PC : forall n us st1, or_of us n -> (length us <= length ws)%nat -> run st us st1 -> p_tok st1 = KEof \/ p_tok st1 = KSample -> p_tok st <> KSample /\ p_cond (S (length ws)) st = Ok (n, st1)).
  { intros n us st1 O LE RU K. split.
    - destruct (or_first _ _ O) as (w & r & ->). apply run_cons in RU as (S & _). intro X. rewrite X in S. inversion S.
    - apply (or_complete us n O); try (destruct K as [K|K]; now rewrite K); [lia|exact RU]. }
  destruct R as [ts n O|ts n sts l O SO|sts l SO].
  - exists 0%nat. intros fuel _. destruct (PC n ts z O LL RZ (or_introl VZ)) as (T & P1). rewrite P1.
    destruct (p_tok st); try (now elim T); cbn [rbind fst snd]; unfold p_samples; rewrite VZ; reflexivity.
  - apply run_split in RZ as (st1 & RA & RB). assert (K : p_tok st1 = KSample) by (destruct (run_cons _ _ _ _ RB) as (S & _); inversion S; reflexivity). rewrite app_length in LL. cbn [length] in LL.
    destruct (SL _ _ st1 (so_mark _ _ SO) RB) as (F & C); [cbn [length]; lia|]. exists F. intros fuel LF. destruct (PC n ts st1 O ltac:(lia) RA (or_intror K)) as (T & P1). rewrite P1.
    pose proof (C fuel LF) as Q. destruct (p_tok st); try (now elim T); cbn [rbind fst snd]; unfold p_samples; rewrite K, Q; reflexivity.
  - assert (K : p_tok st = KSample) by (destruct (run_cons _ _ _ _ RZ) as (S & _); inversion S; reflexivity). destruct (SL _ _ st (so_mark _ _ SO) RZ) as (F & C); [cbn [length] in *; lia|].
    exists F. intros fuel LF. rewrite K. cbn [rbind fst snd]. rewrite p_samples_eq, K, (C fuel LF). reflexivity.
Qed.

(** *** Meaning *)
Lemma small_clipped : forall s, small (dec_val s) -> clipped s = dec_val s.
Proof. intros s H. unfold small, clipped in *. lia. Qed.
Lemma elem_node : forall ls l, Forall2 elem_reads ls l -> Forall elem_small l -> Forall2 elem_of ls (map node_elem l).
Proof.
  intros ls l F. induction F as [|t e ls l E F IH]; intro S; [constructor|]. inversion S as [|? ? SE SL]; subst. constructor; [|now apply IH].
  destruct E as [s|s t]; cbn [node_elem elem_small] in *; [rewrite <- small_clipped by exact SE; constructor|constructor; unfold small in *; lia].
Qed.
Lemma expr_node : forall xs e, expr_reads xs e -> match x_mod e with Some m => small m /\ 0 < m | None => True end -> expr_of xs (CExpr (oper_text (x_op e)) (x_mod e)).
Proof. intros xs e [o|o s] S; cbn [x_mod x_op] in *; [constructor|]. rewrite <- (small_clipped s) by apply S. constructor. Qed.
Lemma rel_node : forall xs e neg ls l, expr_reads xs e -> ls <> [] -> Forall2 elem_reads ls l -> cond_small (Rel neg e l) -> rel_of (xs ++ TRel neg :: ls) (node_of (Rel neg e l)).
Proof. intros xs e neg ls l X N F [S1 S2]. cbn [node_of]. constructor; [now apply expr_node|exact N|now apply elem_node]. Qed.
Lemma and_node : forall ts c, cond_reads ts c -> is_and c -> cond_small c -> and_of ts (node_of c).
Proof.
  intros ts c H. induction H as [xs e neg ls l X N F|ts a us b A IA B IB|ts a us b A IA B IB]; intros I S.
  - apply ao_rel. now apply rel_node.
  - destruct S as [S1 S2]. destruct A; try contradiction. destruct I as [I1 I2]. change (and_of ((xs ++ TRel neg :: ls) ++ TAnd :: us) (CAnd (node_of (Rel neg e l)) (node_of b))).
    apply ao_and; [|now apply IB]. now apply rel_node.
  - contradiction.
Qed.
Lemma or_node : forall ts c, cond_reads ts c -> is_or c -> cond_small c -> or_of ts (node_of c).
Proof.
  intros ts c H. induction H as [xs e neg ls l X N F|ts a us b A IA B IB|ts a us b A IA B IB]; intros I S.
  - apply oo_and, ao_rel. now apply rel_node.
  - apply oo_and. refine (and_node _ _ _ I S). now constructor.
  - destruct I as [I1 I2]. destruct S as [S1 S2]. cbn [node_of]. apply oo_or; [now apply and_node|now apply IB].
Qed.
Lemma oper_dec : forall w, (exists o, w = oper_text o) \/ capital w.
Proof.
  intro w. assert (D : forall o, {w = oper_text o} + {w <> oper_text o}) by (intro o; apply list_eq_dec, ascii_dec).
  destruct (D On); [left; eauto|]. destruct (D Oi); [left; eauto|]. destruct (D Ov); [left; eauto|]. destruct (D Ow); [left; eauto|].
  destruct (D Of); [left; eauto|]. destruct (D Ot); [left; eauto|]. destruct (D Oc); [left; eauto|]. destruct (D Oe); [left; eauto|]. right. intros []; assumption.
Qed.
Definition plain (ts : list token) : Prop := forall w, In (TOper w) ts -> ~ capital w.
Lemma plain_app : forall a b, plain (a ++ b) -> plain a /\ plain b.
Proof. intros a b H. split; intros w I; apply H, in_or_app; auto. Qed.
Lemma plain_cons : forall t b, plain (t :: b) -> plain b.
Proof. intros t b H w I. apply H. now right. Qed.
Lemma plain_oper : forall w ts, plain (TOper w :: ts) -> exists o, w = oper_text o.
Proof. intros w ts H. destruct (oper_dec w) as [X|X]; [exact X|]. elim (H w (or_introl eq_refl) X). Qed.
Lemma elem_back : forall ls l, Forall2 elem_of ls l -> exists es, Forall2 elem_reads ls es /\ (Forall elem_small es -> map node_elem es = l).
Proof.
  intros ls l F. induction F as [|t e ls l E F (es & R & M)]; [exists []; split; [constructor|reflexivity]|].
  assert (X : exists x, elem_reads t x /\ (elem_small x -> node_elem x = e)).
  { destruct E as [s|s u]; eexists; (split; [constructor|]); cbn [elem_small node_elem]; [intro S; now rewrite small_clipped|reflexivity]. }
  destruct X as (x & X1 & X2). exists (x :: es). split; [now constructor|]. intro S. inversion S; subst. cbn [map]. now rewrite X2, M.
Qed.
Lemma rel_back : forall ts n, rel_of ts n -> plain ts -> exists e neg l, l <> [] /\ cond_reads ts (Rel neg e l) /\ (cond_small (Rel neg e l) -> node_of (Rel neg e l) = n).
Proof.
  intros ts n [xs e neg ls l X N F] P. destruct (elem_back _ _ F) as (es & R & M). assert (NE : es <> []) by (destruct R; [contradiction|discriminate]). destruct X as [w|w s]; cbn [app] in *; destruct (plain_oper _ _ P) as (o & ->).
  - exists (Expr o None), neg, es. split; [exact NE|]. split; [apply (cr_rel [TOper (oper_text o)]); [constructor|exact N|exact R]|]. intros [_ S]. cbn [node_of x_op x_mod]. now rewrite M.
  - exists (Expr o (Some (dec_val s))), neg, es. split; [exact NE|]. split; [apply (cr_rel [TOper (oper_text o); TRem; TVal s]); [constructor|exact N|exact R]|].
    intros [S0 S]. cbn [node_of x_op x_mod] in *. now rewrite M, small_clipped.
Qed.
Lemma and_back : forall ts n, and_of ts n -> plain ts -> exists c, is_and c /\ cond_reads ts c /\ (cond_small c -> node_of c = n).
Proof.
  intros ts n A. induction A as [us n R|us n vs m R A IH]; intro P.
  - destruct (rel_back _ _ R P) as (e & neg & l & NL & C & E). exists (Rel neg e l). split; [exact NL|auto].
  - apply plain_app in P as [P1 P2]. apply plain_cons in P2. destruct (rel_back _ _ R P1) as (e & neg & l & NL & C & E). destruct (IH P2) as (c & I & C2 & E2).
    exists (And (Rel neg e l) c). split; [now split|]. split; [now constructor|]. intros [S1 S2]. cbn [node_of] in *. now rewrite E, E2.
Qed.
Lemma or_back : forall ts n, or_of ts n -> plain ts -> exists c, is_or c /\ cond_reads ts c /\ (cond_small c -> node_of c = n).
Proof.
  intros ts n A. induction A as [us n R|us n vs m R A IH]; intro P.
  - destruct (and_back _ _ R P) as (c & I & C & E). exists c. split; [|auto]. destruct c; (exact I || contradiction).
  - apply plain_app in P as [P1 P2]. apply plain_cons in P2. destruct (and_back _ _ R P1) as (a & IA & C & E). destruct (IH P2) as (c & I & C2 & E2).
    exists (Or a c). split; [now split|]. split; [now constructor|]. intros [S1 S2]. cbn [node_of] in *. now rewrite E, E2.
Qed.
Lemma plain_dec : forall ts, plain ts \/ exists w, In (TOper w) ts /\ capital w.
Proof.
  induction ts as [|t ts IH]; [left; intros w []|]. destruct IH as [P|(w & I & C)]; [|right; exists w; split; [now right|exact C]].
  destruct t as [w| | | | | | | | |]; try (left; intros w0 [X|X]; [discriminate|now apply P]). destruct (oper_dec w) as [(o & ->)|C]; [|right; exists w; split; [now left|exact C]].
  left. intros w0 [X|X]; [|now apply P]. injection X as <-. intro Y. now apply (Y o).
Qed.
