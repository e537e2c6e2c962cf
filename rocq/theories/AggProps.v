(** * The results on aggregate fields under the conditions of Spec.v. *)
From Verif Require Import Base BaseLemmas Schema TrigSet Gen Exec Orm Flush Machine Spec SpecAgg Engine GenLemmas Marking Conditions Invariant Settle Sessions Frame Hist Merge Agg AggEngine AggOps AggDefer AggCheck AggSave AggKeep AggDrift.

Section props.
Context (b : backend) (S : schema) (rand : nat → Z) (depth : nat) (E : env).
Context (Hwf : wf_schema S) (Hna : names_apart S).

Lemma hist_agg m f a rel hs d : mk_env b S rand true depth = Ok E → agg_field S m f a rel → Forall (clean_hop m f) hs →
  fk_valid m a rel d ∧ agg_exact m f a rel d →
  fk_valid m a rel (foldl (hstep E S) d hs) ∧ agg_exact m f a rel (foldl (hstep E S) d hs).
Proof.
  intros HE Haf Hcl Hd. destruct (mk_env_gen _ _ _ _ _ _ HE) as [l Hl].
  apply (exact_spec m f a rel). apply (exact_spec m f a rel) in Hd.
  eapply (hist_exact b S rand depth E l); eauto using field_settling, names_apart_ok, agg_field_link.
Qed.
Lemma hist_count m f a rel hs d k r : mk_env b S rand true depth = Ok E → agg_field S m f a rel → ag_sum a = None → Forall (clean_hop m f) hs →
  fk_valid m a rel d → agg_exact m f a rel d → getrow (foldl (hstep E S) d hs) (m_table m) k = Some r →
  col r (f_col f) = VInt (Z.of_nat (size (related (foldl (hstep E S) d hs) rel a k))).
Proof.
  intros HE Haf Hs Hcl H1 H2 Hr. destruct (hist_agg m f a rel hs d HE Haf Hcl (conj H1 H2)) as [_ H]. rewrite (H _ _ Hr). unfold agg_value. by rewrite Hs.
Qed.
Lemma hist_sum m f a rel c hs d k r : mk_env b S rand true depth = Ok E → agg_field S m f a rel → ag_sum a = Some c → Forall (clean_hop m f) hs →
  fk_valid m a rel d → agg_exact m f a rel d → getrow (foldl (hstep E S) d hs) (m_table m) k = Some r →
  col r (f_col f) = VInt (map_fold (λ _ r s, summand (col r c) + s) 0 (related (foldl (hstep E S) d hs) rel a k)).
Proof.
  intros HE Haf Hs Hcl H1 H2 Hr. destruct (hist_agg m f a rel hs d HE Haf Hcl (conj H1 H2)) as [_ H]. rewrite (H _ _ Hr). unfold agg_value. by rewrite Hs.
Qed.
Lemma hist_nocheck hs d : mk_env b S rand true depth = Ok E → all_agg S → calm S → nonneg_fns S →
  (∀ m f a rel, agg_field S m f a rel → Forall (clean_hop m f) hs) → Forall (nonneg_hop S) hs → all_agg_exact S d → nonneg_db S d →
  (∀ pre h post, hs = pre ++ h :: post → raised E S h (foldl (hstep E S) d pre) ≠ Some ECheck) ∧
  all_agg_exact S (foldl (hstep E S) d hs) ∧ nonneg_db S (foldl (hstep E S) d hs).
Proof.
  intros HE Hall Hca Hfn Hcl Hnn Hex Hw. destruct (mk_env_gen _ _ _ _ _ _ HE) as [l Hl].
  assert (Hnames : names_ok b l) by (by eapply names_apart_ok).
  assert (Hcl' : Forall (λ h, ∀ o, h = HOp o → clean_all S o) hs).
  { apply Forall_forall. intros h Hh o -> m f a rel Haf. specialize (Hcl _ _ _ _ Haf). eapply Forall_forall in Hcl; [|exact Hh]. done. }
  assert (Hf : fine S d) by (by apply fine_spec). split.
  2: { apply fine_spec. by eapply (hist_fine b S rand depth E l). }
  intros pre h post ->. apply Forall_app in Hcl' as [Hc1 [Hc2 _]%Forall_cons]. apply Forall_app in Hnn as [Hn1 [Hn2 _]%Forall_cons].
  assert (Hp : fine S (foldl (hstep E S) d pre)) by (by eapply (hist_fine b S rand depth E l)).
  destruct h as [o|ord n|ord n mn fn]; simpl.
  - destruct (op_step b S rand depth E l Hwf HE Hl Hnames Hall Hca Hfn o _ (Hc2 _ eq_refl) Hn2 Hp) as [C _]. destruct (run_op E S o _); congruence.
  - destruct (flush_step b S rand depth E l Hwf HE Hl Hnames Hall Hca Hfn ord n _ Hp) as [C _]. destruct (flush E S ord n _) as [? []]; simpl in *; congruence.
  - destruct (flush_step b S rand depth E l Hwf HE Hl Hnames Hall Hca Hfn ord n (mark (foldl (hstep E S) d pre) (rebuild_marks S mn fn (foldl (hstep E S) d pre)))) as [C _]; [by eapply fine_tabs|].
    unfold rebuildall. destruct (flush E S ord n _) as [? []]; simpl in *; congruence.
Qed.
Context (imm : bool).
Lemma hist_deferred m f a rel hs d : mk_env b S rand imm depth = Ok E → agg_field S m f a rel → Forall (clean_hop m f) hs →
  parents_first E S m a rel d hs → agg_exact m f a rel d → agg_exact m f a rel (foldl (hstep E S) d hs).
Proof.
  intros HE Haf Hcl Hpf Hd. destruct (mk_env_gen _ _ _ _ _ _ HE) as [l Hl].
  apply (exactd_spec m f a rel). apply (exactd_spec m f a rel) in Hd.
  eapply (hist_exactd b S rand imm depth E l); eauto. by eapply names_apart_ok.
Qed.
Lemma flush_keeps_agg m f a rel ord n d k r v : mk_env b S rand imm depth = Ok E → agg_field S m f a rel → (∀ c, c ∈ agg_cols a → plain_col rel c) →
  getrow d (m_table m) k = Some r → col r (f_col f) = VInt v →
  ∃ r', getrow (flush E S ord n d).1 (m_table m) k = Some r' ∧ col r' (f_col f) = VInt v.
Proof.
  intros HE Haf Hp Hr Hv. destruct (mk_env_gen _ _ _ _ _ _ HE) as [l Hl].
  destruct (flush_keep b S rand imm depth E l Hwf HE Hl ltac:(by eapply names_apart_ok) m f a rel Haf Hp ord n d k r v Hr Hv) as (r' & Hr' & Hv').
  unfold Z0 in Hv'. rewrite Z.add_0_r in Hv'. eauto.
Qed.
Lemma rebuild_keeps_agg m f a rel ord n mn fn d k r v : mk_env b S rand imm depth = Ok E → agg_field S m f a rel → (∀ c, c ∈ agg_cols a → plain_col rel c) →
  getrow d (m_table m) k = Some r → col r (f_col f) = VInt v →
  ∃ r', getrow (rebuildall E S ord n mn fn d).1 (m_table m) k = Some r' ∧ col r' (f_col f) = VInt v.
Proof.
  intros HE Haf Hp Hr Hv. destruct (mk_env_gen _ _ _ _ _ _ HE) as [l Hl].
  destruct (rebuild_keep b S rand imm depth E l Hwf HE Hl ltac:(by eapply names_apart_ok) m f a rel Haf Hp ord n mn fn d k r v Hr Hv) as (r' & Hr' & Hv').
  unfold Z0 in Hv'. rewrite Z.add_0_r in Hv'. eauto.
Qed.
(** The stored value moves by as much as the true one. *)
Lemma hist_error m f a rel k hs d r v : mk_env b S rand imm depth = Ok E → agg_field S m f a rel → Forall (leaves_agg m f k) hs →
  getrow d (m_table m) k = Some r → col r (f_col f) = VInt v →
  ∃ r', getrow (foldl (hstep E S) d hs) (m_table m) k = Some r' ∧
    col r' (f_col f) = VInt (v + (agg_value (foldl (hstep E S) d hs) rel a k - agg_value d rel a k)).
Proof.
  intros HE Haf Hk Hr Hv. destruct (mk_env_gen _ _ _ _ _ _ HE) as [l Hl]. setoid_rewrite agg_value_recount.
  exact (hist_drift b S rand imm depth E l Hwf HE Hl ltac:(by eapply names_apart_ok) m f a rel Haf k hs d Hk r v Hr Hv).
Qed.
Lemma save_error m f a rel m' k pk r d p r0 v : mk_env b S rand imm depth = Ok E → agg_field S m f a rel → m' ∈ s_models S →
  getrow d (m_table m) k = Some r0 → col r0 (f_col f) = VInt v → save E m' pk r d = Ok p →
  ∃ r1, getrow p.1.1 (m_table m) k = Some r1 ∧ col r1 (f_col f) = VInt (v + (agg_value p.1.1 rel a k - agg_value d rel a k)).
Proof.
  intros HE Haf Hm' Hr Hv H. destruct (mk_env_gen _ _ _ _ _ _ HE) as [l Hl]. setoid_rewrite agg_value_recount.
  exact (save_drift b S rand imm depth E l Hwf HE Hl ltac:(by eapply names_apart_ok) m f a rel Haf k m' pk r d p Hm' H r0 v Hr Hv).
Qed.
(** Saving whatever instance [r] over row [k]. *)
Lemma stale_save m f a rel k r d p r0 v : mk_env b S rand imm depth = Ok E → agg_field S m f a rel → rel ≠ m →
  getrow d (m_table m) k = Some r0 → col r0 (f_col f) = VInt v → save E m (Some k) r d = Ok p →
  col p.2 (f_col f) = VInt v ∧ ∃ r1, getrow p.1.1 (m_table m) k = Some r1 ∧ col r1 (f_col f) = VInt v.
Proof.
  intros HE Haf Hne Hr Hv H. destruct (mk_env_gen _ _ _ _ _ _ HE) as [l Hl]. assert (Hn : names_ok b l) by (by eapply names_apart_ok).
  unfold save in H. rewrite Hr in H. inv_bind H. injection H as <-. simpl. destruct a0 as [d' r']. simpl.
  unfold save_existing in H0. inv_bind H0. inv_bind H0. inv_bind H0. injection H0 as <- <-.
  rename a0 into d1, a1 into q, a2 into d2, H1 into Hpre, H2 into Hq, H3 into Hx.
  pose proof (m2m_pre_save_keep b S rand imm depth E l Hwf HE Hl Hn m f a rel Haf _ _ _ _ _ (af_model _ _ _ _ _ Haf) Hpre k r0 v Hr Hv) as (r1 & Hr1 & Hv1).
  unfold Z0 in Hv1. rewrite Z.add_0_r in Hv1.
  pose proof (presave_all_db _ _ _ _ _ _ _ Hq) as [Tq _].
  assert (Hr2 : getrow q.1 (m_table m) k = Some r1) by (unfold getrow, tab; by rewrite Tq).
  apply (presave_agg S E Hwf m f a rel Haf) in Hq as (k0 & r3 & [= <-] & Hr3 & Hc). assert (r3 = r1) as -> by congruence.
  split; [congruence|].
  apply run_stmt_single in Hx. unfold run_batch in Hx. inv_bind Hx. destruct a0 as [d3 evs]. simpl in Hx.
  rewrite apply_all_cons in Hx0. inv_bind Hx0. destruct a0 as [d4 e1]. simpl in Hx0. injection Hx0 as <- <-. rewrite app_nil_r in Hx.
  unfold upd_all in Hx1. simpl in Hx1. rewrite Hr2 in Hx1. simpl in Hx1. destruct (_ || _) in Hx1; [|done]. injection Hx1 as <- <-.
  assert (HK : Rz m f Z0 (put_row q.1 (m_table m) k q.2) d2).
  { eapply (foldM_rel (Rz m f Z0)); [apply Rz_refl|apply Rz_trans0| |exact Hx]. intros d5 e d6 He Hf.
    apply elem_of_list_singleton in He as ->. eapply Rz_ext; [|eapply (fire_agg b S rand imm depth E l Hwf HE Hl Hn m f a rel Haf (cols_not_tw b S rand imm depth E l Hwf HE Hl m f a rel Haf)); [left; apply unblocked_nil|exact Hf]].
    intros k' r' _. unfold AggEngine.delta, Z0. cbn [ev_tab]. rewrite decide_False; [done|]. intros HT. apply Hne.
    eapply table_inj; [exact Hwf|exact (rel_in S m f a rel Haf)|apply Haf|done]. }
  destruct (HK k q.2 v) as (r4 & Hr4 & Hv4); [by rewrite getrow_put, decide_True|congruence|]. exists r4. split; [done|]. unfold Z0 in Hv4. by rewrite Z.add_0_r in Hv4.
Qed.
(** A key that is set but not stored: pre_save(add=False) fails for every instance. *)
Lemma preset_pk_fails m f a rel k r d p : agg_field S m f a rel → getrow d (m_table m) k = None → (∀ mm, mm ∈ m_m2m m → mm_denorm mm = None) →
  save E m (Some k) r d ≠ Ok p.
Proof.
  intros Haf Hn Hm H. unfold save in H. rewrite Hn in H. inv_bind H. inv_bind H.
  apply (presave_agg S E Hwf m f a rel Haf) in H1 as (k0 & r0 & [= <-] & Hr0 & _).
  assert (a0 = d) as ->; [|congruence]. unfold m2m_pre_save in H0. case_decide; [by injection H0|].
  clear -H0 Hm. revert H0. generalize d at 1 2 as x. intros x. revert x. induction (m_m2m m) as [|mm ms IH]; intros x H; [by injection H|].
  rewrite foldM_cons in H. rewrite (Hm mm) in H by left. simpl in H. apply IH in H; [done|]. intros; apply Hm. by right.
Qed.
(** Without a key the row is stored with aggregate 0 (before its own triggers run). *)
Lemma new_row_zero m f a rel pk d r q : agg_field S m f a rel → presave_all E m true pk d r = Ok q → col q.2 (f_col f) = VInt 0.
Proof. intros Haf H. by apply (presave_agg S E Hwf m f a rel Haf) in H. Qed.
End props.
