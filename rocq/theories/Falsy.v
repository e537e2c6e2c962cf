(** * Rows whose instances are falsy (denorms.py:629: [if dirty_instance.content_object:]). *)
From Verif Require Import Base BaseLemmas Schema TrigSet Gen Exec Orm Flush Spec Engine GenLemmas Marking Invariant Settle Sessions Frame.

Section falsy.
Context (b : backend) (S : schema) (rand : nat → Z) (imm : bool) (depth : nat) (E : env).
Context (Hwf : wf_schema S) (HE : mk_env b S rand imm depth = Ok E).
Context (m : model) (Hm : m ∈ s_models S) (k : Z) (r : row).
Context (Hfalse : ∀ r', (∀ c, plain_col m c → col r' c = col r c) → m_truthy m r' = false).

(** The row still has the stored values of [r] in all columns a save would write. *)
Definition stays (d : db) : Prop := ∃ r1, getrow d (m_table m) k = Some r1 ∧ ∀ c, column_of m c → col r1 c = col r c.

Lemma stays_same d d' : getrow d' (m_table m) k = getrow d (m_table m) k → stays d → stays d'.
Proof. intros Heq (r1 & H1 & H2). exists r1. by rewrite Heq. Qed.
Lemma stays_tabs d d' : d_tabs d' = d_tabs d → stays d → stays d'.
Proof. intros Heq. apply stays_same. unfold getrow, tab. by rewrite Heq. Qed.
Lemma stays_skel d d' : skel E d d' → stays d → stays d'.
Proof.
  destruct (mk_env_gen _ _ _ _ _ _ HE) as [l Hl]. intros Hs (r1 & H1 & H2). specialize (Hs (m_table m) k). rewrite H1 in Hs.
  destruct (getrow d' (m_table m) k) as [r2|] eqn:H3; [|done]. exists r2. split; [done|]. intros c Hc. rewrite <- H2 by done. symmetry. apply Hs.
  eapply column_not_tw with (l := l); eauto.
Qed.
Lemma exec_stays t cs d d' : Forall ch_quiet cs → t ≠ m_table m → exec E t cs d = Ok d' → stays d → stays d'.
Proof.
  intros Hq Ht. apply (run_stmt_rel E (λ x y, stays x → stays y)); [auto|auto| |].
  - intros d1 e d2 Hf. apply stays_skel. by eapply fire_skel.
  - intros d1 ch d2 evs Hch Hap. eapply Forall_forall in Hq; [|exact Hch].
    destruct (apply_change_applied _ _ _ _ _ _ Hq Hap) as [Ap _]. apply stays_same. apply (ap_other _ _ _ _ Ap). congruence.
Qed.
Lemma m2m_pre_save_stays m' pk r' d d' : m' ∈ s_models S → m2m_pre_save E m' pk r' d = Ok d' → stays d → stays d'.
Proof.
  intros Hm'. unfold m2m_pre_save. destruct pk as [k'|]; [|by intros [= <-]]. case_decide; [by intros [= <-]|].
  apply (foldM_rel (λ x y, stays x → stays y)); [auto|auto|]. intros a mm a' Hmm Ha.
  destruct (mm_denorm mm) as [[fn ds]|] eqn:Hd; [|injection Ha as <-; auto]. inv_bind Ha. unfold m2m_set in Ha. inv_bind Ha.
  assert (Ht : mm_table mm ≠ m_table m) by (by apply (wf_m2mtab _ _ (wf_models _ Hwf _ Hm'))).

  intros Hst. eapply exec_stays; [apply number_quiet|done|exact Ha|]. eapply exec_stays; [|done|eassumption|done].
  apply Forall_forall. intros x Hx. by apply elem_of_list_fmap in Hx as (y & -> & _).
Qed.
Lemma save_existing_stays m' k' r' d p : m' ∈ s_models S → ¬ (m' = m ∧ k' = k) → save_existing E m' k' r' d = Ok p → stays d → stays p.1.
Proof.
  intros Hm' Hne H Hst. unfold save_existing in H. inv_bind H. inv_bind H. inv_bind H. injection H as <-. simpl.
  rename a into d1, a0 into q, a1 into d2, H0 into Hpre, H1 into Hq, H2 into Hx.
  apply m2m_pre_save_stays in Hpre; [|done..]. pose proof (presave_all_db _ _ _ _ _ _ _ Hq) as [Tq _]. apply (stays_tabs _ q.1) in Hpre; [|done].
  unfold exec in Hx. apply run_stmt_single in Hx. unfold run_batch in Hx. inv_bind Hx. destruct a as [d3 evs]. simpl in Hx.
  assert (Hsk : skel E d3 d2).
  { eapply foldM_rel; [apply skel_refl|apply skel_trans| |exact Hx]. intros ? ? ? _. apply fire_skel. }
  eapply stays_skel; [exact Hsk|]. rewrite apply_all_cons in Hx0. inv_bind Hx0. destruct a as [d4 evs1]. simpl in Hx0. injection Hx0 as <- <-.
  unfold upd_all in Hx1. simpl in Hx1. destruct (getrow q.1 (m_table m') k') as [r1|]; [|by injection Hx1 as <- <-].
  simpl in Hx1. destruct (_ || _) in Hx1; [|done]. injection Hx1 as <- <-. revert Hpre. apply stays_same. apply getrow_put_ne. intros [Heq ->].
  apply Hne. split; [|done]. eapply NoDup_fmap_eq; [apply (wf_tables _ Hwf)|done..].
Qed.
Lemma process_stays mk d d' : process E S mk d = Ok d' → stays d → stays d'.
Proof.
  intros H Hst. unfold process in H. inv_bind H. injection H as <-. apply (stays_tabs a); [done|].
  unfold process_save in H0. inv_bind H0. destruct a0 as [[[m' k'] r']|]; [|by injection H0 as <-].
  destruct (content_object_some _ _ _ _ _ _ H1) as (Hm' & Hr & _). destruct (m_truthy m' r') eqn:Htr; [|by injection H0 as <-].
  inv_bind H0. injection H0 as <-. eapply save_existing_stays; [done| |done|done].
  intros [-> ->]. destruct Hst as (r1 & Hr1 & Hc). assert (r1 = r') as -> by congruence. rewrite Hfalse in Htr; [done|].
  intros c Hp. apply Hc. by apply plain_column.
Qed.
Lemma flush_pass_stays mks : ∀ d d' o, flush_pass E S mks d = (d', o) → stays d → stays d'.
Proof.
  induction mks as [|mk mks IH]; intros d d' o H Hst; simpl in H; [by injection H as <- <-|].
  destruct (process E S mk d) eqn:Hp; [|by injection H as <- <-]. eapply IH; [exact H|]. by eapply process_stays.
Qed.
Lemma flush_stays ord n : ∀ d d' o, flush E S ord n d = (d', o) → stays d → stays d'.
Proof.
  induction n as [|n IH]; intros d d' o H Hst; simpl in H; [by injection H as <- <-|]. case_decide; [by injection H as <- <-|].
  destruct (flush_pass E S (snapshot E ord d) d) as [d1 o1] eqn:Hp. apply flush_pass_stays in Hp; [|done].
  destruct o1; [|by injection H as <- <-|by injection H as <- <-]. by eapply IH.
Qed.
End falsy.
Lemma falsy_flush b S rand imm depth E m k r ord n d d' o : wf_schema S → mk_env b S rand imm depth = Ok E → m ∈ s_models S →
  getrow d (m_table m) k = Some r → (∀ r', (∀ c, plain_col m c → col r' c = col r c) → m_truthy m r' = false) →
  flush E S ord n d = (d', o) → ∃ r', getrow d' (m_table m) k = Some r' ∧ ∀ c, column_of m c → col r' c = col r c.
Proof. intros Hwf HE Hm Hr Hf H. eapply (flush_stays b S rand imm depth E Hwf HE m Hm k r Hf); [exact H|]. exists r. by split. Qed.
