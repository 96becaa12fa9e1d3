(** Catalogs without messages; the rules that are recognised. *)
From Coq Require Import String Ascii List ZArith Bool Lia.
From Verif Require Import Base BaseProofs PoStrModel PoFileModel PoFileSpec GettextModel GettextSpec GettextProofs PopBuiltin PopBuiltinProofs GoSpec PopSource
  GoSourceProofs GenModel GenSpec GenFileProofs.
Import ListNotations.
Open Scope Z_scope.

(** ** Messages() of a catalog without messages *)
Lemma map_set_empty : forall (m : lookup_map) k, Forall (fun e => snd e = []) m -> Forall (fun e => snd e = []) (map_set m k []).
Proof.
  induction m as [|[j w] m IH]; intros k F; cbn [map_set]; [constructor; [reflexivity|constructor]|].
  destruct (beq j k); constructor; try reflexivity; [exact (Forall_inv_tail F)|exact (Forall_inv F)|exact (IH k (Forall_inv_tail F))].
Qed.
Lemma add_dead : forall lm m, ~ live m -> Forall (fun e => snd e = []) lm -> Forall (fun e => snd e = []) (add_entry lm m).
Proof.
  intros lm m D F. assert (F' : Forall (fun e => snd e = []) match map_get lm (m_ctx m) with None => map_set lm (m_ctx m) [] | Some _ => lm end).
  { destruct (map_get lm (m_ctx m)); [exact F|now apply map_set_empty]. }
  unfold add_entry. cbv zeta. destruct (is_nil (m_id m)) eqn:I; [exact F'|]. destruct (is_fuzzy m) eqn:Z; [exact F'|].
  exfalso. apply D. apply live_iff. unfold liveb. now rewrite I, Z.
Qed.
Lemma build_dead : forall ms, (forall ctx id, ~ has_message ms ctx id) -> Forall (fun e => snd e = []) (build_map ms).
Proof.
  intros ms H. assert (D : Forall (fun m => ~ live m) ms).
  { apply Forall_forall. intros m I L. apply (H (m_ctx m) (m_id m)). exists m. auto. }
  clear H. unfold build_map. assert (G : forall lm, Forall (fun e => snd e = []) lm -> Forall (fun e => snd e = []) (fold_left add_entry ms lm)); [|apply G; constructor].
  induction D as [|m ms D _ IH]; intros lm F; [exact F|]. cbn [fold_left]. apply IH. now apply add_dead.
Qed.
Lemma copy_dead : forall m cpy, Forall (fun e => snd e = []) m -> exists r, copy_contexts cpy m = Ok r /\
  forall ctx, map_get r ctx = match map_get m ctx with Some _ => Some [] | None => map_get cpy ctx end.
Proof.
  induction m as [|[c l] m IH]; intros cpy F; [exists cpy; split; reflexivity|]. pose proof (Forall_inv F) as E. cbn [snd] in E. subst l.
  cbn [copy_contexts copy_messages rbind]. destruct (IH (map_set cpy c []) (Forall_inv_tail F)) as (r & -> & R). exists r. split; [reflexivity|].
  intro ctx. rewrite R, map_get_set. cbn [map_get]. destruct (beq c ctx); [|reflexivity]. destruct (map_get m ctx); reflexivity.
Qed.
Lemma dead_get : forall (m : lookup_map) ctx l, Forall (fun e => snd e = []) m -> map_get m ctx = Some l -> l = [].
Proof.
  intros m ctx l F H. apply map_get_in in H. rewrite Forall_forall in F. exact (F _ H).
Qed.
Lemma messages_empty : forall tag (lang : tag) dom p ms, (forall ctx id, ~ has_message ms ctx id) ->
  exists r, messages tag (GCat lang dom p (build_map ms)) = Ok r /\
    forall ctx, (has_context ms ctx -> map_get r ctx = Some []) /\ (~ has_context ms ctx -> map_get r ctx = None).
Proof.
  intros tag lang dom p ms H. pose proof (build_dead ms H) as D. unfold messages. cbn [g_map]. destruct (copy_dead _ [] D) as (r & E & R). exists r. split; [exact E|].
  intro ctx. rewrite R. pose proof (build_map_get ms ctx) as G. destruct (map_get (build_map ms) ctx) as [l|].
  - split; [reflexivity|]. intro N. destruct (N (proj1 G)).
  - split; [intro C; destruct (G C)|reflexivity].
Qed.

(** ** The rules that are recognised *)
Definition recognised (t : bytes) : bool :=
  match gen_rule t with
  | Ok (_, k, np) => match call_string pop_file (bs "getBuiltInForRawRule") k with Some (RPop np' _) => np =? np' | _ => false end
  | _ => false
  end.
Lemma all_recognised : forallb recognised sources = true.
Proof. vm_compute. reflexivity. Qed.
Lemma source_recognised : forall t, In t (map (fun p => bs (fst p)) doc_table) \/ In t extra_rules ->
  exists body k np b, gen_rule t = Ok (body, k, np) /\ call_string pop_file (bs "getBuiltInForRawRule") k = Some (RPop np b).
Proof.
  intros t H. assert (R : recognised t = true) by (apply (proj1 (forallb_forall _ _) all_recognised); apply in_or_app; exact H).
  unfold recognised in R. destruct (gen_rule t) as [[[body k] np]| | |]; try discriminate R.
  destruct (call_string _ _ k) as [g|] eqn:C; [|discriminate R]. destruct g as [| |np0 b|]; try discriminate R. apply Z.eqb_eq in R. subst np0.
  exists body, k, np, b. auto.
Qed.
