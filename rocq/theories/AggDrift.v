(** * The error of an aggregate never changes.

    Whether or not a stored aggregate is right, and however foreign keys are checked: as
    long as its row is not deleted, every operation moves it by exactly as much as the
    true value moves. *)
From Verif Require Import Base BaseLemmas Schema TrigSet Gen Exec Orm Flush Machine Spec SpecAgg Engine GenLemmas Marking Conditions Invariant Settle Sessions Frame Hist Agg AggEngine AggOps AggDefer.

(** No statement of the step deletes row [k] of [m] or assigns to its column [f]. *)
Definition leaves_agg (m : model) (f : field) (k : Z) (h : hop) : Prop :=
  match h with
  | HOp (OUpdate t ks g) => t = m_table m → k ∈ ks → ∀ r, col (g r) (f_col f) = col r (f_col f)
  | HOp (ODelete t ks) => t = m_table m → k ∉ ks
  | _ => True
  end.

Section drift.
Context (b : backend) (S : schema) (rand : nat → Z) (imm : bool) (depth : nat) (E : env) (l : list trigger).
Context (Hwf : wf_schema S) (HE : mk_env b S rand imm depth = Ok E) (Hl : gen_all S = Ok l) (Hnames : names_ok b l).
Context (m : model) (f : field) (a : agg) (rel : model) (Haf : agg_field S m f a rel) (k : Z).
Notation T := (m_table m).
Notation R := (m_table rel).
Notation c := (f_col f).
Notation delta := (delta a rel).
Notation evsum := (evsum a rel).

Definition drift (d d' : db) : Prop := ∀ r v, getrow d T k = Some r → col r c = VInt v →
  ∃ r', getrow d' T k = Some r' ∧ col r' c = VInt (v + (recount a R d' k - recount a R d k)).
Lemma drift_refl d : drift d d.
Proof. intros r v Hr Hv. exists r. split; [done|]. rewrite Hv. f_equal. lia. Qed.
Lemma drift_trans x y z : drift x y → drift y z → drift x z.
Proof. intros H1 H2 r v Hr Hv. destruct (H1 _ _ Hr Hv) as (r1 & Hr1 & Hv1). destruct (H2 _ _ Hr1 Hv1) as (r2 & Hr2 & Hv2). exists r2. split; [done|]. rewrite Hv2. f_equal. lia. Qed.
Lemma drift_tabs d d' : d_tabs d' = d_tabs d → drift d d'.
Proof.
  intros Ht r v Hr Hv. exists r. split; [unfold getrow, tab in *; by rewrite Ht|]. rewrite (recount_tabs _ _ d) by done. rewrite Hv. f_equal. lia.
Qed.
Definition keeps (d : db) (t : string) (ch : change) : Prop := t = T →
  match ch with
  | CIns _ _ => True
  | CUpd j g => j = k → ∀ o p, getrow d T k = Some o → g d o = Ok p → col p.1 c = col o c
  | CDel j => j ≠ k
  end.

Lemma change_drift t d ch d' evs : ch_quiet ch → keeps d t ch → apply_change E t d ch = Ok (d', evs) →
  recount a R d' k = recount a R d k + evsum evs k ∧ ∀ r, getrow d T k = Some r → ∃ r', getrow d' T k = Some r' ∧ col r' c = col r c.
Proof.
  intros Hq Hk H. unfold AggOps.evsum. destruct ch as [j r|j g|j]; simpl in H.
  - destruct (getrow d t j) eqn:Hg; [done|]. destruct (_ || _); [|done]. injection H as <- <-. cbn [zsum foldr]. split.
    + rewrite recount_put. unfold AggEngine.delta. cbn [ev_tab]. destruct (decide (t = R)) as [->|]; [|lia]. rewrite Hg. simpl. lia.
    + intros r' Hr'. exists r'. split; [|done]. rewrite getrow_put, decide_False; [done|]. intros Hx. destruct Hx as [<- <-]. congruence.
  - destruct (getrow d t j) as [o|] eqn:Hg; [|injection H as <- <-; cbn [zsum foldr]; split; [lia|eauto]].
    inv_bind H. destruct (_ || _); [|done]. injection H as <- <-. destruct a0 as [r d1]. cbn [fst snd]. cbn [zsum foldr].
    pose proof (Hq _ _ _ H0) as [_ Hts]. simpl in Hts.
    assert (Heq : ∀ t' k', getrow d1 t' k' = getrow d t' k') by (intros; unfold getrow, tab; by rewrite Hts). split.
    + rewrite recount_put, (recount_tabs _ _ d) by done. unfold AggEngine.delta. cbn [ev_tab]. destruct (decide (t = R)) as [->|]; [|lia]. rewrite Heq, Hg. simpl. lia.
    + intros r' Hr'. rewrite getrow_put. case_decide as Hd.
      * destruct Hd as [Ht Hj]. exists r. split; [done|].
        assert (Hr2 : getrow d T j = Some r') by by rewrite <- Hj.
        assert (r' = o) as -> by (rewrite Ht in Hr2; congruence).
        apply (Hk (eq_sym Ht) (eq_sym Hj) o (r, d1)); [congruence|done].
      * exists r'. by rewrite Heq.
  - destruct (getrow d t j) as [o|] eqn:Hg; [|injection H as <- <-; cbn [zsum foldr]; split; [lia|eauto]].
    destruct (_ || _); [|done]. injection H as <- <-. cbn [zsum foldr]. split.
    + rewrite recount_del. unfold AggEngine.delta. cbn [ev_tab]. destruct (decide (t = R)) as [->|]; [|lia]. rewrite Hg. cbn. lia.
    + intros r' Hr'. exists r'. split; [|done]. rewrite getrow_del, decide_False; [done|]. intros [Ht Hj]. by apply (Hk (eq_sym Ht)).
Qed.
Lemma fires_drift n evs d d1 d' : recount a R d1 k = recount a R d k + evsum evs k →
  (∀ r, getrow d T k = Some r → ∃ r', getrow d1 T k = Some r' ∧ col r' c = col r c) → foldM (fire E n []) d1 evs = Ok d' → drift d d'.
Proof.
  intros Hrc Hrow H r v Hr Hv. destruct (fires_Rzd b S rand imm depth E l Hwf HE Hl Hnames m f a rel Haf _ _ _ _ H) as [Hz Hs].
  destruct (Hrow _ Hr) as (r1 & Hr1 & Hv1). destruct (Hz k r1 v Hr1 ltac:(congruence)) as (r2 & Hr2 & Hv2). exists r2. split; [done|].
  rewrite Hv2, (skel_recountd b S rand imm depth E l Hwf HE Hl m f a rel Haf _ _ _ Hs), Hrc. f_equal. lia.
Qed.
Lemma single_drift n t ch d d' : ch_quiet ch → keeps d t ch → run_batch E (fire E n []) t [ch] d = Ok d' → drift d d'.
Proof.
  intros Hq Hk H. unfold run_batch in H. inv_bind H. destruct a0 as [d1 evs]. simpl in H.
  rewrite apply_all_cons in H0. inv_bind H0. destruct a0 as [d2 e2]. simpl in H0. injection H0 as <- <-. rewrite app_nil_r in H.
  apply change_drift in H1 as [H1 H2]; [|done..]. by eapply fires_drift.
Qed.
Lemma changes_drift t cs : (∀ d ch, ch ∈ cs → keeps d t ch) → Forall ch_quiet cs →
  ∀ d d' evs, apply_all E t cs d = Ok (d', evs) →
  recount a R d' k = recount a R d k + evsum evs k ∧ ∀ r, getrow d T k = Some r → ∃ r', getrow d' T k = Some r' ∧ col r' c = col r c.
Proof.
  unfold AggOps.evsum. induction cs as [|ch cs IH]; intros Hk Hq d d' evs H.
  - injection H as <- <-. cbn [zsum foldr]. split; [lia|eauto].
  - rewrite apply_all_cons in H. inv_bind H. destruct a0 as [d1 e1]. simpl in H. inv_bind H. destruct a0 as [d2 e2]. simpl in H. injection H as <- <-.
    apply Forall_cons in Hq as [Hq1 Hq2].
    apply change_drift in H0 as [R1 C1]; [|done|apply Hk; left].
    destruct (IH ltac:(intros; apply Hk; by right) Hq2 _ _ _ H1) as [R2 C2]. unfold AggOps.evsum in R1. split.
    + rewrite zsum_app. lia.
    + intros r Hr. destruct (C1 _ Hr) as (r1 & Hr1 & Hv1). destruct (C2 _ Hr1) as (r2 & Hr2 & Hv2). exists r2. split; [done|congruence].
Qed.
Lemma exec_drift t cs d d' : (∀ d ch, ch ∈ cs → keeps d t ch) → Forall ch_quiet cs → exec E t cs d = Ok d' → drift d d'.
Proof.
  intros Hk Hq H. destruct (decide (e_be E = Postgres)) as [Hb|Hb].
  - unfold exec, run_stmt in H. rewrite Hb in H. unfold run_batch in H. inv_bind H. destruct a0 as [d1 evs]. simpl in H.
    apply (changes_drift t cs Hk Hq) in H0 as [H1 H2]. by eapply fires_drift.
  - unfold exec, run_stmt in H.
    assert (H' : foldM (λ d c, run_batch E (fire E (e_depth E) []) t [c] d) d cs = Ok d') by by destruct (e_be E).
    eapply (foldM_rel drift); [apply drift_refl|apply drift_trans| |exact H']. intros d1 ch d2 Hin Hr.
    eapply single_drift; [|by apply Hk|exact Hr]. by eapply Forall_forall in Hq.
Qed.
Lemma exec1_drift t ch d d' : ch_quiet ch → keeps d t ch → exec E t [ch] d = Ok d' → drift d d'.
Proof. intros Hq Hk H. apply run_stmt_single in H. by eapply single_drift. Qed.

(** ** Saving *)
Lemma link_drift t cs d d' : (∀ m', m' ∈ s_models S → t ≠ m_table m') → Forall ch_quiet cs → exec E t cs d = Ok d' → drift d d'.
Proof.
  intros Ht Hq. apply exec_drift; [|done]. intros d1 ch _ ->. exfalso. by eapply Ht; [apply Haf|].
Qed.
Lemma m2m_pre_save_drift m' pk r d d' : m' ∈ s_models S → m2m_pre_save E m' pk r d = Ok d' → drift d d'.
Proof.
  intros Hm'. unfold m2m_pre_save. destruct pk as [k'|]; [|intros [= <-]; apply drift_refl].
  case_decide; [intros [= <-]; apply drift_refl|].
  apply (foldM_rel drift); [apply drift_refl|apply drift_trans|].
  intros d1 mm d2 Hmm Ha. destruct (mm_denorm mm) as [[fn' ds']|]; [|injection Ha as <-; apply drift_refl].
  inv_bind Ha. assert (Ht : ∀ m'', m'' ∈ s_models S → mm_table mm ≠ m_table m'').
  { intros m'' Hm''. by apply (wf_m2mtab _ _ (wf_models _ Hwf _ Hm')). }
  unfold m2m_set in Ha. inv_bind Ha. eapply drift_trans; [eapply link_drift; [done| |eassumption]|eapply link_drift; [done|apply number_quiet|exact Ha]].
  apply Forall_forall. intros x Hx. by apply elem_of_list_fmap in Hx as (y & -> & _).
Qed.
Lemma save_existing_drift m' k' r d p : m' ∈ s_models S → save_existing E m' k' r d = Ok p → drift d p.1.
Proof.
  intros Hm'. unfold save_existing. intros H. inv_bind H. inv_bind H. inv_bind H. injection H as <-. simpl.
  apply m2m_pre_save_drift in H0; [|done]. pose proof H1 as Hps. apply presave_all_db in H1 as [Ht _].
  eapply drift_trans; [exact H0|]. eapply drift_trans; [by apply (drift_tabs a0 a1.1)|].
  eapply exec1_drift; [|intros HT|exact H2].
  - simpl. by intros ??? [= <-].
  - apply (model_T S Hwf m f a rel Haf) in HT as ->; [|done]. simpl. intros -> o p Ho [= <-]. simpl.
    apply (presave_agg S E Hwf m f a rel Haf) in Hps as (k0 & r0 & [= <-] & Hr0 & ->). unfold getrow, tab in *. rewrite Ht in Ho. rewrite Ho in Hr0. congruence.
Qed.
Lemma post_save_drift m' k' r d p : m' ∈ s_models S → post_save_created E m' k' r d = Ok p → drift d p.1.
Proof. intros Hm'. unfold post_save_created. case_match; [by apply save_existing_drift|]. intros [= <-]. apply drift_refl. Qed.
Lemma save_drift m' pk r d p : m' ∈ s_models S → save E m' pk r d = Ok p → drift d p.1.1.
Proof.
  intros Hm' H. unfold save in H.
  assert (Hins : ∀ k r d q d2 s, presave_all E m' true pk d r = Ok q →
    exec E (m_table m') [CIns k q.2] q.1 = Ok d2 → post_save_created E m' k q.2 d2 = Ok s → drift d s.1).
  { intros k0 r0 d3 q d2 s Hq Hx Hs. pose proof Hq as Hps. apply presave_all_db in Hq as [Ht _].
    eapply drift_trans; [by apply (drift_tabs d3 q.1)|]. eapply drift_trans; [|by eapply post_save_drift].
    by eapply exec1_drift; [| |exact Hx]. }
  destruct pk as [k'|].
  - destruct (getrow d (m_table m') k') eqn:Hg.
    + inv_bind H. injection H as <-. by eapply save_existing_drift.
    + inv_bind H. inv_bind H. inv_bind H. inv_bind H. inv_bind H. injection H as <-. simpl.
      apply m2m_pre_save_drift in H0; [|done]. apply presave_all_db in H1 as [Ht _].
      eapply drift_trans; [exact H0|]. eapply drift_trans; [by apply (drift_tabs _ a1.1)|]. by eapply Hins.
  - inv_bind H. inv_bind H. inv_bind H. injection H as <-. simpl. by eapply Hins.
Qed.

(** ** Histories *)
Lemma run_op_drift o d d' : leaves_agg m f k (HOp o) → run_op E S o d = Ok d' → drift d d'.
Proof.
  intros Hk H. destruct o as [mn pk r|t rows|t ks g|t ks]; simpl in H.
  - destruct (find_model S mn) as [m'|] eqn:Hm'; [|done]. inv_bind H. injection H as <-.
    apply find_model_in in Hm' as [Hin _]. by eapply save_drift.
  - eapply exec_drift; [..|exact H].
    + intros d1 ch Hch HT. by apply elem_of_list_fmap in Hch as ([k' r] & -> & Hin).
    + apply Forall_forall. intros x Hx. by apply elem_of_list_fmap in Hx as (y & -> & _).
  - eapply exec_drift; [..|exact H].
    + intros d1 ch Hch HT. apply elem_of_list_fmap in Hch as (k' & -> & Hin). simpl. intros -> o p _ [= <-]. simpl. apply Hk; [done|]. by rewrite <- elem_of_remove_dups.
    + apply Forall_forall. intros x Hx. apply elem_of_list_fmap in Hx as (y & -> & _). simpl. by intros ??? [= <-].
  - eapply exec_drift; [..|exact H].
    + intros d1 ch Hch HT. apply elem_of_list_fmap in Hch as (k' & -> & Hin). simpl. intros ->. apply (Hk HT). by rewrite <- elem_of_remove_dups.
    + apply Forall_forall. intros x Hx. by apply elem_of_list_fmap in Hx as (y & -> & _).
Qed.
Lemma process_drift mk d d' : process E S mk d = Ok d' → drift d d'.
Proof.
  unfold process. intros H. inv_bind H. injection H as <-. eapply (drift_trans _ a0); [|by apply drift_tabs].
  unfold process_save in H0. inv_bind H0. destruct a1 as [[[m' k'] r]|]; [|injection H0 as <-; apply drift_refl].
  destruct (content_object_some _ _ _ _ _ _ H1) as (Hm & Hr & _). destruct (m_truthy m' r); [|injection H0 as <-; apply drift_refl].
  inv_bind H0. injection H0 as <-. by eapply save_existing_drift.
Qed.
Lemma flush_drift ord n d : drift d (flush E S ord n d).1.
Proof.
  assert (Hpass : ∀ ml d, drift d (flush_pass E S ml d).1).
  { induction ml as [|mk ml IH]; intros d1; simpl; [apply drift_refl|].
    destruct (process E S mk d1) as [d2|] eqn:Hp; [|apply drift_refl]. eapply drift_trans; [by eapply process_drift|]. apply IH. }
  revert d. induction n as [|n IH]; intros d; simpl; [apply drift_refl|]. case_decide; [apply drift_refl|].
  pose proof (Hpass (snapshot E ord d) d) as Hp. destruct (flush_pass E S (snapshot E ord d) d) as [d1 []]; simpl in *; [|done|done].
  eapply drift_trans; [exact Hp|]. apply IH.
Qed.
Lemma hist_drift hs : ∀ d, Forall (leaves_agg m f k) hs → drift d (foldl (hstep E S) d hs).
Proof.
  induction hs as [|h hs IH]; intros d Hk; [apply drift_refl|]. apply Forall_cons in Hk as [H3 H4]. simpl.
  eapply drift_trans; [|by apply IH]. destruct h as [o|ord n|ord n mn fn]; simpl.
  - unfold step. destruct (run_op E S o d) eqn:Ho; [|apply drift_refl]. by eapply run_op_drift.
  - apply flush_drift.
  - unfold rebuildall. eapply drift_trans; [|apply flush_drift]. by apply drift_tabs.
Qed.
End drift.
