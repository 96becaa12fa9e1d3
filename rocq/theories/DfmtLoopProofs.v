(** The loop of format over tokens; concatenation. *)
From Coq Require Import String Ascii List ZArith QArith Bool Lia.
From Verif Require Import Base BaseProofs Utf8Model Utf8Proofs PopModel NumModel F64Model FltModel CalModel CalSpec
  HumModel DfmtModel DfmtSpec.
Import ListNotations.
Open Scope Z_scope.
Opaque abs_date.

Section Loop.
Variable get : bytes -> bytes.
Variable pget : bytes -> bytes -> bytes.
Variable upper : rune -> rune.
Variable local_name : bytes.
Notation letter := (letter get pget upper local_name).
Notation format := (format get pget upper local_name).
Notation format_loop := (format_loop get pget upper local_name).

Definition code (c : ascii) : Z := Z.of_N (N_of_ascii c).
Fixpoint lookup (l : list (ascii * res bytes)) (r : Z) : option (res bytes) :=
  match l with
  | [] => None
  | (c, x) :: l' => if r =? code c then Some x else lookup l' r
  end.
Definition table (t : gotime) : list (ascii * res bytes) :=
  [("a", Ok (f_a get t)); ("A", Ok (f_A get t)); ("e", Ok (f_e t)); ("f", Ok (f_f t)); ("g", Ok (f_g t));
   ("G", Ok (f_G t)); ("h", Ok (f_h t)); ("H", Ok (f_H t)); ("i", Ok (f_i t)); ("O", Ok (f_O t));
   ("P", Ok (f_P get t)); ("s", Ok (f_s t)); ("T", Ok (f_T local_name t)); ("u", Ok (f_u t)); ("Z", Ok (f_Z t));
   ("b", Ok (f_b get t)); ("c", Ok (f_c t)); ("d", Ok (f_d t)); ("D", Ok (f_D get t)); ("E", Ok (f_E pget t));
   ("F", Ok (f_F get t)); ("I", Ok (f_I t)); ("j", Ok (f_j t)); ("l", Ok (f_l get t)); ("L", Ok (f_L t));
   ("m", Ok (f_m t)); ("M", f_M get upper t); ("n", Ok (f_n t)); ("N", Ok (f_N pget t)); ("o", Ok (f_o t));
   ("r", Ok (f_r t)); ("S", Ok (f_S t)); ("t", Ok (f_t t)); ("U", Ok (f_U t)); ("w", Ok (f_w t));
   ("W", Ok (f_W t)); ("y", Ok (f_y t)); ("Y", Ok (f_Y t)); ("z", Ok (f_z t))]%char.
Lemma letter_table : forall r t, letter r t = lookup (table t) r.
Proof. reflexivity. Qed.
Lemma table_letters : forall t, map fst (table t) = letters.
Proof. reflexivity. Qed.
Lemma lookup_none : forall l r, lookup l r = None <-> ~ exists c, In c (map fst l) /\ r = code c.
Proof.
  induction l as [|[c x] l IH]; intro r; cbn [lookup map fst].
  - split; [intros _ (c & [] & _)|reflexivity].
  - destruct (r =? code c) eqn:E.
    + apply Z.eqb_eq in E. split; [discriminate|]. intro H. exfalso. apply H. exists c. split; [left; reflexivity|assumption].
    + apply Z.eqb_neq in E. rewrite IH. split; intros H (c' & I & R); apply H.
      * destruct I as [<-|I]; [contradiction|]. exists c'. split; assumption.
      * exists c'. split; [right; assumption|assumption].
Qed.
Lemma letter_none : forall r t, letter r t = None <-> ~ is_letter r.
Proof. intros r t. rewrite letter_table, lookup_none, (table_letters t). reflexivity. Qed.
Lemma letter_some : forall r t, (exists x, letter r t = Some x) <-> is_letter r.
Proof.
  intros r t. pose proof (letter_none r t) as N. destruct (letter r t) as [x|] eqn:E.
  - split; [|intros _; exists x; reflexivity]. intros _.
    destruct (existsb (fun c => r =? code c) letters) eqn:X.
    + apply existsb_exists in X. destruct X as (c & I & R). apply Z.eqb_eq in R. exists c. split; assumption.
    + exfalso. assert (H : Some x = None); [|discriminate]. apply N. intros (c & I & R).
      assert (T : existsb (fun c => r =? code c) letters = true); [|congruence].
      apply existsb_exists. exists c. split; [assumption|]. apply Z.eqb_eq. exact R.
  - split; [intros (x & D); discriminate|]. intro H. exfalso. apply N; [reflexivity|assumption].
Qed.
Lemma escape_no_letter : ~ is_letter 92.
Proof. rewrite <- (letter_none 92 (GT 0 0 (fun _ => (0, [])))). reflexivity. Qed.

(** ** The loop *)
Definition app_res (x y : res bytes) : res bytes := do a <- x ; do b <- y ; Ok (a ++ b).

Lemma list_two_ind : forall (P : list rune -> Prop), P [] -> (forall a, P [a]) ->
  (forall a b l, P l -> P (b :: l) -> P (a :: b :: l)) -> forall l, P l.
Proof.
  intros P P0 P1 P2 l. assert (H : P l /\ forall a, P (a :: l)); [|apply H].
  induction l as [|b l [IH1 IH2]]; [split; [assumption|assumption]|]. split; [apply IH2|]. intro a. apply P2; [assumption|apply IH2].
Qed.

Lemma loop_two : forall t a b rs acc, format_loop t (a :: b :: rs) acc =
  if a =? 92 then format_loop t rs (acc ++ encode_rune b)
  else match letter a t with
       | Some x => do s <- x ; format_loop t (b :: rs) (acc ++ s)
       | None => format_loop t (b :: rs) (acc ++ encode_rune a)
       end.
Proof. reflexivity. Qed.
Lemma loop_acc : forall t rs acc, format_loop t rs acc = app_res (Ok acc) (format_loop t rs []).
Proof.
  intros t rs. induction rs as [|a|a b rs IH1 IH2] using list_two_ind; intro acc.
  - cbn. rewrite app_nil_r. reflexivity.
  - cbn [DfmtModel.format_loop]. destruct (a =? 92); [reflexivity|]. destruct (letter a t) as [[x| | |]|]; cbn; rewrite ?app_nil_r; reflexivity.
  - rewrite !loop_two. destruct (a =? 92).
    + rewrite (IH1 (acc ++ encode_rune b)), (IH1 ([] ++ encode_rune b)). unfold app_res. destruct (format_loop t rs []); cbn [rbind app]; try reflexivity. rewrite app_assoc. reflexivity.
    + destruct (letter a t) as [[x| | |]|]; try reflexivity.
      * cbn [rbind]. rewrite (IH2 (acc ++ x)), (IH2 ([] ++ x)). unfold app_res. destruct (format_loop t (b :: rs) []); cbn [rbind app]; try reflexivity. rewrite app_assoc. reflexivity.
      * rewrite (IH2 (acc ++ encode_rune a)), (IH2 ([] ++ encode_rune a)). unfold app_res. destruct (format_loop t (b :: rs) []); cbn [rbind app]; try reflexivity. rewrite app_assoc. reflexivity.
Qed.

(** ** Tokens *)
Definition text_of (t : gotime) (k : token) : res bytes :=
  match k with
  | Field r => match letter r t with Some x => x | None => Panic end
  | Literal r => Ok (encode_rune r)
  end.
Fixpoint texts (t : gotime) (ks : list token) : res bytes :=
  match ks with [] => Ok [] | k :: ks' => app_res (text_of t k) (texts t ks') end.

Lemma app_res_nil : forall x, app_res (Ok []) x = x.
Proof. intros [x| | |]; reflexivity. Qed.

Lemma loop_cons : forall t r rs, r <> 92 ->
  format_loop t (r :: rs) [] =
  app_res (match letter r t with Some x => x | None => Ok (encode_rune r) end) (format_loop t rs []).
Proof.
  intros t r rs N. cbn [DfmtModel.format_loop]. replace (r =? 92) with false by lia.
  destruct (letter r t) as [[x| | |]|]; try reflexivity.
  - cbn [rbind]. rewrite loop_acc. reflexivity.
  - rewrite loop_acc. reflexivity.
Qed.
Lemma loop_escape : forall t c rs, format_loop t (92 :: c :: rs) [] = app_res (Ok (encode_rune c)) (format_loop t rs []).
Proof. intros t c rs. cbn [DfmtModel.format_loop]. cbn [Z.eqb]. rewrite Pos.eqb_refl. rewrite loop_acc. reflexivity. Qed.

Lemma loop_tokens : forall t rs, exists ts, tokens rs ts /\ format_loop t rs [] = texts t ts.
Proof.
  intros t rs. induction rs as [|a|a b rs (ts1 & T1 & E1) (ts2 & T2 & E2)] using list_two_ind.
  - exists []. split; [constructor|reflexivity].
  - destruct (Z.eq_dec a 92) as [->|N].
    + exists [Literal 92]. split; [constructor|reflexivity].
    + rewrite loop_cons by assumption. destruct (letter a t) as [x|] eqn:L.
      * exists [Field a]. split; [apply tk_letter; [apply (letter_some a t); exists x; assumption|constructor]|].
        cbn [texts text_of]. rewrite L. reflexivity.
      * exists [Literal a]. split; [apply tk_other; [assumption|apply (letter_none a t); assumption|constructor]|reflexivity].
  - destruct (Z.eq_dec a 92) as [->|N].
    + exists (Literal b :: ts1). split; [constructor; assumption|]. rewrite loop_escape, E1. reflexivity.
    + rewrite loop_cons by assumption. rewrite E2. destruct (letter a t) as [x|] eqn:L.
      * exists (Field a :: ts2). split; [apply tk_letter; [apply (letter_some a t); exists x; assumption|assumption]|].
        cbn [texts text_of]. rewrite L. reflexivity.
      * exists (Literal a :: ts2). split; [apply tk_other; [assumption|apply (letter_none a t); assumption|assumption]|reflexivity].
Qed.

Lemma tokens_det : forall rs ts ts', tokens rs ts -> tokens rs ts' -> ts = ts'.
Proof.
  intros rs ts ts' H. revert ts'. induction H; intros ts' H'; inversion H'; subst; try reflexivity; try contradiction;
    try (f_equal; apply IHtokens; assumption); exfalso; apply escape_no_letter; assumption.
Qed.

(** Only M can panic, and only if the translation is empty. *)
Lemma texts_ok : forall t ks, (forall r, In (Field r) ks -> exists s, letter r t = Some (Ok s)) ->
  texts t ks = Ok (concat (map (fun k => match text_of t k with Ok s => s | _ => [] end) ks)).
Proof.
  intros t ks. induction ks as [|k ks IH]; intro H; [reflexivity|].
  cbn [texts map concat]. rewrite IH by (intros r I; apply H; right; assumption).
  destruct k as [r|r]; cbn [text_of]; [|reflexivity].
  destruct (H r (or_introl eq_refl)) as (s & E). rewrite E. reflexivity.
Qed.
Lemma texts_panic : forall t ks r, In (Field r) ks -> letter r t = Some Panic ->
  (forall r' x, letter r' t = Some x -> x = Panic \/ exists s, x = Ok s) ->
  (forall r', In (Field r') ks -> is_letter r') -> texts t ks = Panic.
Proof.
  intros t ks r I P ALL LE. induction ks as [|k ks IH]; [contradiction|].
  cbn [texts]. destruct I as [->|I].
  - cbn [text_of]. rewrite P. reflexivity.
  - assert (E : texts t ks = Panic) by (apply IH; [assumption|intros r' I'; apply LE; right; assumption]).
    rewrite E. destruct k as [r'|r']; cbn [text_of]; [|reflexivity].
    destruct (proj2 (letter_some r' t) (LE r' (or_introl eq_refl))) as (x & X). rewrite X.
    destruct (ALL r' x X) as [->|(s & ->)]; reflexivity.
Qed.

(** ** Concatenation *)
Lemma loop_app : forall t a b, closed a -> format_loop t (a ++ b) [] = app_res (format_loop t a []) (format_loop t b []).
Proof.
  intros t a b C. induction C as [|r rs N C IH|c rs C IH].
  - cbn [app]. cbn [DfmtModel.format_loop]. rewrite app_res_nil. reflexivity.
  - cbn [app]. rewrite !loop_cons by assumption. rewrite IH.
    destruct (match letter r t with Some x => x | None => Ok (encode_rune r) end) as [x| | |]; try reflexivity.
    destruct (format_loop t rs []) as [y| | |]; try reflexivity. cbn. destruct (format_loop t b []) as [z| | |]; try reflexivity.
    cbn. rewrite app_assoc. reflexivity.
  - cbn [app]. rewrite !loop_escape. rewrite IH.
    destruct (format_loop t rs []) as [y| | |]; try reflexivity. cbn. destruct (format_loop t b []) as [z| | |]; try reflexivity.
    cbn. rewrite app_assoc. reflexivity.
Qed.
Lemma format_app : forall t a s, Forall (fun r => scalar r = true) a -> closed a ->
  format t (encode_all a ++ s) = app_res (format t (encode_all a)) (format t s).
Proof.
  intros t a s SC C. unfold DfmtModel.format. rewrite runes_encode by assumption.
  pose proof (runes_encode a [] SC) as R. change (runes []) with (@nil rune) in R. rewrite !app_nil_r in R. rewrite R. apply loop_app. assumption.
Qed.

Lemma format_letter : forall t c x, lookup (table t) (code c) = Some x -> (code c < 128) -> code c <> 92 -> format t [c] = x.
Proof.
  intros t c x L B N. unfold DfmtModel.format.
  assert (R : runes [c] = [code c]).
  { unfold runes. cbn [length runes_fuel]. unfold decode_rune. change (bval c) with (code c). replace (code c <? 128) with true by lia. reflexivity. }
  rewrite R, loop_cons by assumption. rewrite letter_table, L. cbn [DfmtModel.format_loop].
  destruct x as [x| | |]; try reflexivity. cbn. rewrite app_nil_r. reflexivity.
Qed.
End Loop.
