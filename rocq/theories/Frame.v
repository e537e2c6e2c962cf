(** * flush changes only computed columns and denormalized links. *)
From Verif Require Import Base BaseLemmas Schema TrigSet Gen Exec Orm Flush Spec Engine GenLemmas Marking Invariant Settle Sessions.

Lemma same_rows_refl t P d : same_rows t P d d.
Proof. intros k. by destruct (getrow d t k). Qed.
Lemma same_rows_trans t P x y z : same_rows t P x y → same_rows t P y z → same_rows t P x z.
Proof.
  intros H1 H2 k. specialize (H1 k). specialize (H2 k).
  destruct (getrow x t k), (getrow y t k), (getrow z t k); try done. intros c Hc. rewrite H1 by done. by apply H2.
Qed.
Lemma same_rows_tabs t P d d' : d_tabs d' = d_tabs d → same_rows t P d d'.
Proof. intros Heq k. unfold getrow, tab. rewrite Heq. by destruct (_ !! k). Qed.

Section frame.
Context (b : backend) (S : schema) (rand : nat → Z) (imm : bool) (depth : nat) (E : env).
Context (Hwf : wf_schema S) (HE : mk_env b S rand imm depth = Ok E).

Lemma kept_refl d : user_data_kept S d d.
Proof. split; intros; apply same_rows_refl. Qed.
Lemma kept_trans x y z : user_data_kept S x y → user_data_kept S y z → user_data_kept S x z.
Proof. intros [A1 B1] [A2 B2]. split; intros; eapply same_rows_trans; eauto. Qed.
Lemma kept_tabs d d' : d_tabs d' = d_tabs d → user_data_kept S d d'.
Proof. intros. split; intros; by apply same_rows_tabs. Qed.

Lemma plain_column m c : plain_col m c → column_of m c.
Proof. intros (f & Hf & Hc & Hk). exists f. split_and!; [done|done|]. unfold plain_or_callback. by rewrite Hk. Qed.

Lemma skel_kept d d' : skel E d d' → user_data_kept S d d'.
Proof.
  destruct (mk_env_gen _ _ _ _ _ _ HE) as [l Hl]. intros Hs. split.
  - intros m Hm k. specialize (Hs (m_table m) k). destruct (getrow d (m_table m) k), (getrow d' (m_table m) k); try done.
    intros c Hc. apply Hs. eapply column_not_tw with (l := l); eauto using plain_column.
  - intros t Ht _ k. specialize (Hs t k). destruct (getrow d t k), (getrow d' t k); try done.
    intros c _. apply Hs. eapply link_not_tw with (l := l); eauto. intros m Hm Heq. by eapply Ht.
Qed.

(** A statement on a denormalized link table leaves user data alone. *)
Lemma exec_link_kept t cs d d' : Forall ch_quiet cs →
  (∀ m, m ∈ s_models S → m_table m ≠ t) → denorm_link_table S t → exec E t cs d = Ok d' → user_data_kept S d d'.
Proof.
  intros Hq Hnt Hdl. apply run_stmt_rel.
  - apply kept_refl.
  - apply kept_trans.
  - intros d1 e d2 Hf. apply skel_kept. by eapply fire_skel.
  - intros d1 ch d2 evs Hch Hap. eapply Forall_forall in Hq; [|exact Hch].
    destruct (apply_change_applied _ _ _ _ _ _ Hq Hap) as [Ap _]. split.
    + intros m Hm k. rewrite (ap_other _ _ _ _ Ap) by by apply Hnt. by destruct (getrow d1 _ k).
    + intros t' Ht' Hd' k. rewrite (ap_other _ _ _ _ Ap) by (intros ->; done). by destruct (getrow d1 _ k).
Qed.
Lemma m2m_set_kept m mm k vals d d' : m ∈ s_models S → mm ∈ m_m2m m → mm_denorm mm ≠ None →
  m2m_set E mm k vals d = Ok d' → user_data_kept S d d'.
Proof.
  intros Hm Hmm Hd. unfold m2m_set. intros H. inv_bind H.
  assert (Ht : ∀ m', m' ∈ s_models S → m_table m' ≠ mm_table mm).
  { intros m' Hm' Heq. eapply (wf_m2mtab _ _ (wf_models _ Hwf _ Hm)); eauto. }
  assert (Hl : denorm_link_table S (mm_table mm)) by (by exists m, mm).
  eapply kept_trans; (eapply exec_link_kept; [| |exact Hl|]; [|exact Ht|eassumption]).
  - apply Forall_forall. intros x Hx. by apply elem_of_list_fmap in Hx as (y & -> & _).
  - apply number_quiet.
Qed.
Lemma m2m_pre_save_kept m pk r d d' : m ∈ s_models S → m2m_pre_save E m pk r d = Ok d' → user_data_kept S d d'.
Proof.
  intros Hm. unfold m2m_pre_save. destruct pk as [k|]; [|intros [= <-]; apply kept_refl].
  case_decide; [intros [= <-]; apply kept_refl|]. apply foldM_rel; [apply kept_refl|apply kept_trans|].
  intros a mm a' Hmm Ha. destruct (mm_denorm mm) as [[fn ds]|] eqn:Hd; [|injection Ha as <-; apply kept_refl].
  inv_bind Ha. eapply m2m_set_kept; eauto. by rewrite Hd.
Qed.

(** Saving a row just read keeps user data. *)
Lemma save_existing_kept m k r d p : m ∈ s_models S → getrow d (m_table m) k = Some r →
  save_existing E m k r d = Ok p → user_data_kept S d p.1.
Proof.
  intros Hm Hr H. unfold save_existing in H. inv_bind H. inv_bind H. inv_bind H. injection H as <-. simpl.
  rename a into d1, a0 into q, a1 into d2, H0 into Hpre, H1 into Hq, H2 into Hx.
  apply m2m_pre_save_kept in Hpre; [|done]. destruct Hpre as [P1 P2].
  pose proof (P1 _ Hm k) as Hrow. rewrite Hr in Hrow. destruct (getrow d1 (m_table m) k) as [r1|] eqn:Hr1; [|done].
  pose proof (presave_all_db _ _ _ _ _ _ _ Hq) as [Tq _].
  assert (Hplain : ∀ c, plain_col m c → col q.2 c = col r c).
  { intros c (g & Hg & <- & Hk). change r with ((d1, r).2) at 1.
    eapply (presave_keep E m k r1 (m_fields m) (d1, r)); [exact Hq|done|].
    intros g' Hg' Heq. left. assert (g' = g) as ->; [|done].
    eapply NoDup_fmap_eq; [apply (wf_cols _ _ (wf_models _ Hwf _ Hm))|done..]. }
  eapply kept_trans; [split; [exact P1|exact P2]|].
  eapply kept_trans; [by apply kept_tabs|].
  assert (Hr2 : getrow q.1 (m_table m) k = Some r1) by (unfold getrow, tab; by rewrite Tq).
  unfold exec in Hx. apply run_stmt_single in Hx. unfold run_batch in Hx. inv_bind Hx. destruct a as [d3 evs]. simpl in Hx.
  assert (Hsk : skel E d3 d2).
  { eapply foldM_rel; [apply skel_refl|apply skel_trans| |exact Hx]. intros ? ? ? _. apply fire_skel. }
  eapply kept_trans; [|by apply skel_kept].
  rewrite apply_all_cons in Hx0. inv_bind Hx0. destruct a as [d4 evs1]. simpl in Hx0. injection Hx0 as <- <-.
  unfold upd_all in Hx1. simpl in Hx1. rewrite Hr2 in Hx1. simpl in Hx1.
  destruct (_ || _) in Hx1; [|done]. injection Hx1 as <- <-. split.
  - intros m' Hm' k'. rewrite getrow_put. case_decide as Hd.
    + destruct Hd as [Heq ->]. assert (m' = m) as -> by (eapply NoDup_fmap_eq; [apply (wf_tables _ Hwf)|done..]).
      rewrite Hr2. intros c Hc. rewrite Hplain by done. symmetry. by apply Hrow.
    + by destruct (getrow q.1 (m_table m') k').
  - intros t Ht _ k'. rewrite getrow_put_ne by (intros [-> _]; by eapply Ht). by destruct (getrow q.1 t k').
Qed.

Lemma process_kept mk d d' : process E S mk d = Ok d' → user_data_kept S d d'.
Proof.
  intros H. unfold process in H. inv_bind H. injection H as <-. apply (kept_trans _ a); [|by apply kept_tabs].
  unfold process_save in H0. inv_bind H0. destruct a0 as [[[m k] r]|]; [|injection H0 as <-; apply kept_refl].
  destruct (content_object_some _ _ _ _ _ _ H1) as (Hm & Hr & _). destruct (m_truthy m r); [|injection H0 as <-; apply kept_refl].
  inv_bind H0. injection H0 as <-. by eapply save_existing_kept.
Qed.
Lemma flush_pass_kept mks d d' o : flush_pass E S mks d = (d', o) → user_data_kept S d d'.
Proof.
  revert d. induction mks as [|mk mks IH]; intros d H; simpl in H; [injection H as <- <-; apply kept_refl|].
  destruct (process E S mk d) eqn:Hp; [|injection H as <- <-; apply kept_refl].
  eapply kept_trans; [by eapply process_kept|]. by eapply IH.
Qed.
Lemma flush_kept ord n d d' o : flush E S ord n d = (d', o) → user_data_kept S d d'.
Proof.
  revert d. induction n as [|n IH]; intros d H; simpl in H; [injection H as <- <-; apply kept_refl|].
  case_decide; [injection H as <- <-; apply kept_refl|].
  destruct (flush_pass E S (snapshot E ord d) d) as [d1 o1] eqn:Hp. apply flush_pass_kept in Hp.
  destruct o1; [|by injection H as <- <-|by injection H as <- <-]. eapply kept_trans; [done|]. by eapply IH.
Qed.
Lemma rebuildall_kept ord n mn fn d d' o : rebuildall E S ord n mn fn d = (d', o) → user_data_kept S d d'.
Proof. intros H. eapply kept_trans; [|by eapply flush_kept]. by apply kept_tabs. Qed.
End frame.
