(** * The result of flush() is determined by the user data. *)
From Verif Require Import Base BaseLemmas Schema TrigSet Gen Exec Orm Flush Spec SpecAgg SpecOrder GenLemmas Settle Sessions Frame Hist AggProps Unique.

Lemma steady_kept_trans S d0 d1 d2 : user_data_kept S d0 d1 → steady_kept S d0 d1 → steady_kept S d1 d2 → steady_kept S d0 d2.
Proof.
  intros K A1 A2 o j c Ho Hs r r' Hr Hr'. pose proof (proj1 K o Ho j) as Hrow. rewrite Hr in Hrow.
  destruct (getrow d1 (m_table o) j) as [x|] eqn:Hx; [|done]. rewrite (A1 o j c Ho Hs r x Hr Hx).
  apply (A2 o j c Ho); [|done|done]. destruct Hs as [Hp|(g & a & rel & Haf & Hg & Hpl & Hv)]; [by left|right].
  exists g, a, rel. split_and!; [done..|]. intros y Hy. destruct (Hv _ Hr) as [v Hvv]. exists v. rewrite <- Hvv. symmetry.
  eapply (A1 o j c Ho); [|done|done]. right. exists g, a, rel. done.
Qed.

Section flushed.
Context (b : backend) (S : schema) (rand : nat → Z) (imm : bool) (depth : nat) (E : env).
Context (HE : mk_env b S rand imm depth = Ok E) (Hwf : wf_schema S) (Hna : names_apart S).
Lemma flush_steady_kept ord n d d' o : flush E S ord n d = (d', o) → steady_kept S d d'.
Proof using HE Hwf Hna.
  intros Hf m j c Hm Hs r r' Hr Hr'. destruct Hs as [Hp|(g & a & rel & Haf & Hg & Hpl & Hv)].
  - pose proof (proj1 (flush_kept b S rand imm depth E Hwf HE _ _ _ _ _ Hf) m Hm j) as Hrow. rewrite Hr, Hr' in Hrow. by apply Hrow.
  - destruct (Hv _ Hr) as [v Hvv]. rewrite <- Hg in Hvv.
    destruct (flush_keeps_agg b S rand depth E Hwf Hna imm m g a rel ord n d j r v HE Haf Hpl Hr Hvv) as (y & Hy & Hyv).
    rewrite Hf in Hy. simpl in Hy. congruence.
Qed.
Lemma rebuild_steady_kept ord n mn fn d d' o : rebuildall E S ord n mn fn d = (d', o) → steady_kept S d d'.
Proof using HE Hwf Hna.
  intros Hf m j c Hm Hs r r' Hr Hr'. destruct Hs as [Hp|(g & a & rel & Haf & Hg & Hpl & Hv)].
  - pose proof (proj1 (rebuildall_kept b S rand imm depth E Hwf HE _ _ _ _ _ _ _ Hf) m Hm j) as Hrow. rewrite Hr, Hr' in Hrow. by apply Hrow.
  - destruct (Hv _ Hr) as [v Hvv]. rewrite <- Hg in Hvv.
    destruct (rebuild_keeps_agg b S rand depth E Hwf Hna imm m g a rel ord n mn fn d j r v HE Haf Hpl Hr Hvv) as (y & Hy & Hyv).
    rewrite Hf in Hy. simpl in Hy. congruence.
Qed.
End flushed.

Lemma same_result S ρ d0 d1 d2 : wf_schema S → no_m2m_denorm S → value_acyclic S ρ d0 →
  user_data_kept S d0 d1 → user_data_kept S d0 d2 → steady_kept S d0 d1 → steady_kept S d0 d2 → consistent S d1 → consistent S d2 →
  ∀ m, m ∈ s_models S → same_rows (m_table m) (λ c, plain_col m c ∨ callback_col m c) d1 d2.
Proof.
  intros Hwf Hnd Hac K1 K2 A1 A2 C1 C2 m Hm k. pose proof (proj1 K1 m Hm k) as R1. pose proof (proj1 K2 m Hm k) as R2.
  destruct (getrow d0 (m_table m) k) as [r0|] eqn:H0, (getrow d1 (m_table m) k) as [r1|] eqn:H1, (getrow d2 (m_table m) k) as [r2|] eqn:H2; try done.
  intros c [Hc|Hc]; [by rewrite <- R1, <- R2|].
  by eapply (consistent_unique S Hwf Hnd ρ d0 d1 d2).
Qed.

Lemma order_irrelevant S ρ
  b1 rand1 imm1 depth1 E1 rank1 ord1 n1 s1 d1 b2 rand2 imm2 depth2 E2 rank2 ord2 n2 s2 d2 :
  mk_env b1 S rand1 imm1 depth1 = Ok E1 → flushable S rank1 imm1 →
  mk_env b2 S rand2 imm2 depth2 = Ok E2 → flushable S rank2 imm2 →
  value_acyclic S ρ s1 → user_data_kept S s1 s2 → steady_kept S s1 s2 →
  finv S s1 → finv S s2 →
  flush E1 S ord1 n1 s1 = (d1, Done) → flush E2 S ord2 n2 s2 = (d2, Done) →
  ∀ m, m ∈ s_models S → same_rows (m_table m) (λ c, plain_col m c ∨ callback_col m c) d1 d2.
Proof.
  intros HE1 F1 HE2 F2 Hac K A I1 I2 H1 H2.
  pose proof (fl_wf _ _ _ F1) as Hwf. pose proof (fl_names _ _ _ F1) as Hna. pose proof (fl_nodm _ _ _ F1) as Hnd.
  eapply (same_result S ρ s1); [done..| | | | | |].
  - exact (flush_kept b1 S rand1 imm1 depth1 E1 Hwf HE1 _ _ _ _ _ H1).
  - eapply kept_trans; [exact K|]. exact (flush_kept b2 S rand2 imm2 depth2 E2 Hwf HE2 _ _ _ _ _ H2).
  - exact (flush_steady_kept b1 S rand1 imm1 depth1 E1 HE1 Hwf Hna _ _ _ _ _ H1).
  - eapply steady_kept_trans; [exact K|exact A|]. exact (flush_steady_kept b2 S rand2 imm2 depth2 E2 HE2 Hwf Hna _ _ _ _ _ H2).
  - by eapply (fflush_consistent b1 S rand1 imm1 depth1 E1 rank1).
  - by eapply (fflush_consistent b2 S rand2 imm2 depth2 E2 rank2).
Qed.

(** A complete rebuild from the same user data ends in the same place. *)
Lemma rebuild_same S ρ
  b1 rand1 imm1 depth1 E1 rank1 ord1 n1 s1 d1 b2 rand2 imm2 depth2 E2 rank2 ord2 n2 s2 d2 :
  mk_env b1 S rand1 imm1 depth1 = Ok E1 → flushable S rank1 imm1 →
  mk_env b2 S rand2 imm2 depth2 = Ok E2 → flushable S rank2 imm2 →
  value_acyclic S ρ s1 → user_data_kept S s1 s2 → steady_kept S s1 s2 →
  finv S s1 → links_ok S s2 → no_self_relation S s2 →
  (∀ m k r, m ∈ s_models S → getrow s2 (m_table m) k = Some r → m_visible m r = true) →
  flush E1 S ord1 n1 s1 = (d1, Done) → rebuildall E2 S ord2 n2 None None s2 = (d2, Done) →
  ∀ m, m ∈ s_models S → same_rows (m_table m) (λ c, plain_col m c ∨ callback_col m c) d1 d2.
Proof.
  intros HE1 F1 HE2 F2 Hac K A I1 L2 N2 V2 H1 H2.
  pose proof (fl_wf _ _ _ F1) as Hwf. pose proof (fl_names _ _ _ F1) as Hna. pose proof (fl_nodm _ _ _ F1) as Hnd.
  eapply (same_result S ρ s1); [done..| | | | | |].
  - exact (flush_kept b1 S rand1 imm1 depth1 E1 Hwf HE1 _ _ _ _ _ H1).
  - eapply kept_trans; [exact K|]. exact (rebuildall_kept b2 S rand2 imm2 depth2 E2 Hwf HE2 _ _ _ _ _ _ _ H2).
  - exact (flush_steady_kept b1 S rand1 imm1 depth1 E1 HE1 Hwf Hna _ _ _ _ _ H1).
  - eapply steady_kept_trans; [exact K|exact A|]. exact (rebuild_steady_kept b2 S rand2 imm2 depth2 E2 HE2 Hwf Hna _ _ _ _ _ _ _ H2).
  - by eapply (fflush_consistent b1 S rand1 imm1 depth1 E1 rank1).
  - by eapply (rebuild_repairs_all b2 S rand2 imm2 depth2 E2 rank2).
Qed.

Lemma steady_kept_refl S d : steady_kept S d d.
Proof. intros o j c _ _ r r' Hr Hr'. congruence. Qed.
Lemma flush_fuel_enough E S ord n n' d : (flush E S ord n d).2 ≠ Running → (n ≤ n')%nat → flush E S ord n' d = flush E S ord n d.
Proof.
  revert n' d. induction n as [|n IH]; intros n' d H Hle; [done|]. destruct n' as [|n']; [lia|]. simpl in *.
  destruct (decide (d_dirty d = [])); [done|]. destruct (flush_pass E S (snapshot E ord d) d) as [d' [| |]]; try done. apply IH; [done|lia].
Qed.
