(** * flush and rebuildall leave aggregates alone when these look at ordinary columns only. *)
From Verif Require Import Base BaseLemmas Schema TrigSet Gen Exec Orm Flush Machine Spec SpecAgg Engine GenLemmas Marking Conditions Invariant Settle Sessions Frame Hist Agg AggEngine AggOps.

Section keep.
Context (b : backend) (S : schema) (rand : nat → Z) (imm : bool) (depth : nat) (E : env) (l : list trigger).
Context (Hwf : wf_schema S) (HE : mk_env b S rand imm depth = Ok E) (Hl : gen_all S = Ok l) (Hnames : names_ok b l).
Context (m : model) (f : field) (a : agg) (rel : model) (Haf : agg_field S m f a rel).
Context (Hplain : ∀ c, c ∈ agg_cols a → plain_col rel c).
Notation T := (m_table m).
Notation R := (m_table rel).
Notation c := (f_col f).
Notation delta := (delta a rel).
Notation K := (Rz m f Z0).

Lemma exec_keep t cs d d' :
  (∀ ch d d' evs, ch ∈ cs → apply_change E t d ch = Ok (d', evs) → K d d' ∧ ∀ e, e ∈ evs → ∀ k, delta e k = 0) →
  exec E t cs d = Ok d' → K d d'.
Proof.
  intros Hc H. eapply Rz_ext; [|eapply (stmt_Rz E m f a rel _ t cs (λ _, Z0)); [exact Hc| |exact H]].
  - intros k r _. by apply zsum_zero.
  - intros d1 e d2 Hd Hf. eapply Rz_ext; [|eapply (fire_agg b S rand imm depth E l Hwf HE Hl Hnames m f a rel Haf (cols_not_tw b S rand imm depth E l Hwf HE Hl m f a rel Haf)); [by right|exact Hf]]. intros k r _. apply Hd.
Qed.
Lemma link_keep t cs d d' : (∀ m', m' ∈ s_models S → t ≠ m_table m') → Forall ch_quiet cs → exec E t cs d = Ok d' → K d d'.
Proof.
  intros Ht Hq. apply exec_keep. intros ch d1 d2 evs Hch Hap. eapply Forall_forall in Hq; [|exact Hch].
  pose proof Hap as Hap0. destruct (apply_change_applied _ _ _ _ _ _ Hq Hap) as [Ap _]. split.
  - intros k r v Hr Hv. exists r. rewrite (ap_other _ _ _ _ Ap) by (intros Hq'; by eapply Ht; [apply Haf|]). unfold Z0. by rewrite Z.add_0_r.
  - intros e He k. unfold AggEngine.delta. rewrite decide_False; [done|].
    assert (ev_tab e = t) as ->; [|apply Ht; exact (rel_in S m f a rel Haf)].
    destruct ch as [k1 r1|k1 g1|k1]; simpl in Hap0; destruct (getrow d1 t k1); try done.
    + case_match; [|done]. injection Hap0 as <- <-. by apply elem_of_list_singleton in He as ->.
    + inv_bind Hap0. case_match; [|done]. injection Hap0 as <- <-. by apply elem_of_list_singleton in He as ->.
    + injection Hap0 as <- <-. by apply elem_of_nil in He.
    + case_match; [|done]. injection Hap0 as <- <-. by apply elem_of_list_singleton in He as ->.
    + injection Hap0 as <- <-. by apply elem_of_nil in He.
Qed.
Lemma m2m_set_keep mm k' vals d d' : (∀ m', m' ∈ s_models S → mm_table mm ≠ m_table m') → m2m_set E mm k' vals d = Ok d' → K d d'.
Proof.
  intros Ht H. unfold m2m_set in H. inv_bind H. eapply Rz_trans0; eapply link_keep; try eassumption.
  - apply Forall_forall. intros x Hx. by apply elem_of_list_fmap in Hx as (y & -> & _).
  - apply number_quiet.
Qed.
Lemma m2m_pre_save_keep m' pk r d d' : m' ∈ s_models S → m2m_pre_save E m' pk r d = Ok d' → K d d'.
Proof.
  intros Hm'. unfold m2m_pre_save. destruct pk as [k'|]; [|intros [= <-]; apply Rz_refl].
  case_decide; [intros [= <-]; apply Rz_refl|].
  apply (foldM_rel K); [apply Rz_refl|apply Rz_trans0|].
  intros d1 mm d2 Hmm Ha. destruct (mm_denorm mm) as [[fn' ds']|]; [|injection Ha as <-; apply Rz_refl].
  inv_bind Ha. eapply m2m_set_keep; [|exact Ha]. intros m'' Hm''. by apply (wf_m2mtab _ _ (wf_models _ Hwf _ Hm')).
Qed.
Lemma save_existing_keep m' k r d p : m' ∈ s_models S → getrow d (m_table m') k = Some r → save_existing E m' k r d = Ok p → K d p.1.
Proof.
  intros Hm Hr H. unfold save_existing in H. inv_bind H. inv_bind H. inv_bind H. injection H as <-. simpl.
  rename a0 into d1, a1 into q, a2 into d2, H0 into Hpre, H1 into Hq, H2 into Hx.
  pose proof (m2m_pre_save_kept b S rand imm depth E Hwf HE _ _ _ _ _ Hm Hpre) as [P1 _]. apply m2m_pre_save_keep in Hpre; [|done].
  pose proof (P1 _ Hm k) as Hrow. rewrite Hr in Hrow. destruct (getrow d1 (m_table m') k) as [r1|] eqn:Hr1; [|done].
  pose proof (presave_all_db _ _ _ _ _ _ _ Hq) as [Tq _].
  assert (Hp : ∀ c, plain_col m' c → col q.2 c = col r c).
  { intros x (g & Hg & <- & Hk). change r with ((d1, r).2) at 1.
    eapply (presave_keep E m' k r1 (m_fields m') (d1, r)); [exact Hq|done|].
    intros g' Hg' Heq. left. assert (g' = g) as ->; [|done].
    eapply NoDup_fmap_eq; [apply (wf_cols _ _ (wf_models _ Hwf _ Hm))|done..]. }
  assert (Hr2 : getrow q.1 (m_table m') k = Some r1) by (unfold getrow, tab; by rewrite Tq).
  eapply Rz_trans0; [exact Hpre|]. eapply Rz_trans0; [by apply (Rz_tabs m f d1 q.1)|].
  assert (Hx' : run_batch E (fire E (e_depth E) []) (m_table m') [upd_all k q.2] q.1 = Ok d2) by (by apply run_stmt_single in Hx).
  clear Hx. unfold run_batch in Hx'. inv_bind Hx'. destruct a0 as [d3 evs]. simpl in Hx'.
  rewrite apply_all_cons in Hx'0. inv_bind Hx'0. destruct a0 as [d4 e1]. simpl in Hx'0. injection Hx'0 as <- <-. rewrite app_nil_r in Hx'.
  unfold upd_all in Hx'1. simpl in Hx'1. rewrite Hr2 in Hx'1. simpl in Hx'1. destruct (_ || _) in Hx'1; [|done]. injection Hx'1 as <- <-.
  eapply Rz_trans0.
  - intros k' r' v Hr' Hv. destruct (decide (m_table m' = T ∧ k' = k)) as [[HT ->]|Hne].
    + assert (m' = m) as -> by (by eapply (model_T S Hwf m f a rel Haf)). exists q.2. rewrite getrow_put, decide_True by done. split; [done|]. unfold Z0. rewrite Z.add_0_r.
      eapply (presave_agg S E Hwf m f a rel Haf) in Hq. destruct Hq as (k0 & r0 & [= <-] & Hr0 & ->). rewrite Hr2 in Hr'. injection Hr' as <-. congruence.
    + exists r'. rewrite getrow_put_ne by naive_solver. unfold Z0. by rewrite Z.add_0_r.
  - eapply (foldM_rel K); [apply Rz_refl|apply Rz_trans0| |exact Hx']. intros d5 e d6 He Hf.
    apply elem_of_list_singleton in He as ->. eapply Rz_ext; [|eapply (fire_agg b S rand imm depth E l Hwf HE Hl Hnames m f a rel Haf (cols_not_tw b S rand imm depth E l Hwf HE Hl m f a rel Haf)); [|exact Hf]]; cycle 1.
    + left. apply unblocked_nil.
    + intros k' r' _. unfold AggEngine.delta, Z0. cbn [ev_tab]. case_decide as HR; [|done].
      assert (m' = rel) as -> by (eapply table_inj; [exact Hwf|done|exact (rel_in S m f a rel Haf)|done]).
      unfold ev_new, ev_old. simpl. rewrite (contrib_cols a k' r1 q.2); [lia|]. intros x Hx. rewrite Hp by (by apply Hplain). apply Hrow. by apply Hplain.
Qed.
Lemma process_keep mk d d' : process E S mk d = Ok d' → K d d'.
Proof.
  intros H. unfold process in H. inv_bind H. injection H as <-. apply (Rz_trans0 m f _ a0); [|by apply Rz_tabs].
  unfold process_save in H0. inv_bind H0. destruct a1 as [[[m' k] r]|]; [|injection H0 as <-; apply Rz_refl].
  destruct (content_object_some _ _ _ _ _ _ H1) as (Hm & Hr & _). destruct (m_truthy m' r); [|injection H0 as <-; apply Rz_refl].
  inv_bind H0. injection H0 as <-. by eapply save_existing_keep.
Qed.
Lemma flush_pass_keep mks d : K d (flush_pass E S mks d).1.
Proof.
  revert d. induction mks as [|mk mks IH]; intros d; simpl; [apply Rz_refl|].
  destruct (process E S mk d) eqn:Hp; [|apply Rz_refl]. eapply Rz_trans0; [by eapply process_keep|]. apply IH.
Qed.
Lemma flush_keep ord n d : K d (flush E S ord n d).1.
Proof.
  revert d. induction n as [|n IH]; intros d; simpl; [apply Rz_refl|]. case_decide; [apply Rz_refl|].
  pose proof (flush_pass_keep (snapshot E ord d) d) as Hp. destruct (flush_pass E S (snapshot E ord d) d) as [d1 []]; simpl in *; [|done|done].
  eapply Rz_trans0; [exact Hp|]. apply IH.
Qed.
Lemma rebuild_keep ord n mn fn d : K d (rebuildall E S ord n mn fn d).1.
Proof. unfold rebuildall. eapply Rz_trans0; [|apply flush_keep]. by apply Rz_tabs. Qed.
End keep.
