(** * Runs of the session machine keep the invariant. *)
From stdpp Require Import relations.
From Verif Require Import Base BaseLemmas Schema TrigSet Gen Exec Orm Flush Machine Spec Engine GenLemmas Marking Conditions Invariant Settle.

(** Unpack the static conditions. *)
Lemma mk_env_gen b S rand imm depth E : mk_env b S rand imm depth = Ok E → ∃ l, gen_all S = Ok l.
Proof.
  unfold mk_env. destruct (installed b S) as [its|] eqn:Hi; [|done]. intros _.
  destruct (installed_ok _ _ _ Hi) as (l & Hl & _). by exists l.
Qed.

Section sessions.
Context (b : backend) (S : schema) (rand : nat → Z) (imm : bool) (depth : nat) (E : env) (rank : string → nat).
Context (HE : mk_env b S rand imm depth = Ok E) (Hfl : flushable S rank imm).

Lemma fl_names_ok l : gen_all S = Ok l → names_ok b l.
Proof. intros Hl. eapply names_apart_ok; [apply (fl_wf _ _ _ Hfl)|done|done|apply (fl_names _ _ _ Hfl)]. Qed.
Lemma fl_ac : acyclic E rank.
Proof.
  destruct (mk_env_gen _ _ _ _ _ _ HE) as [l Hl].
  eapply upd_acyclic_ok; [apply (fl_wf _ _ _ Hfl)|done|done|by apply fl_names_ok|apply (fl_acyclic _ _ _ Hfl)].
Qed.
Lemma flushable_covered : all_covered S.
Proof. eapply settled_covered. apply (fl_settled _ _ _ Hfl). Qed.

Lemma fop_inv o d d' : run_op E S o d = Ok d' → links_ok S d → consistent_or_marked S d → links_ok S d' ∧ consistent_or_marked S d'.
Proof.
  destruct (mk_env_gen _ _ _ _ _ _ HE) as [l Hl]. destruct Hfl.
  eapply run_op_inv with (l := l) (rank := rank); eauto using fl_names_ok, flushable_covered, fl_ac.
Qed.
Lemma fsteps_inv ops d : links_ok S d → consistent_or_marked S d →
  links_ok S (foldl (step E S) d ops) ∧ consistent_or_marked S (foldl (step E S) d ops).
Proof.
  destruct (mk_env_gen _ _ _ _ _ _ HE) as [l Hl]. destruct Hfl.
  eapply steps_inv with (l := l) (rank := rank); eauto using fl_names_ok, flushable_covered, fl_ac.
Qed.
Lemma fsave_inv mk m k r d p : content_object S d mk = Ok (Some (m, k, r)) → save_existing E m k r d = Ok p →
  finv S d → finv S p.1 ∧ mk_settled S mk p.1.
Proof.
  destruct (mk_env_gen _ _ _ _ _ _ HE) as [l Hl]. destruct Hfl.
  eapply save_inv with (l := l) (rank := rank); eauto using fl_names_ok, fl_ac.
Qed.
Lemma fflush_inv ord n d d' o : flush E S ord n d = (d', o) → finv S d → finv S d'.
Proof.
  pose proof (λ mk m k r d p, fsave_inv mk m k r d p) as Hs. destruct Hfl. eapply flush_inv with (rank := rank); eauto.
Qed.
Lemma fflush_consistent ord n d d' : flush E S ord n d = (d', Done) → finv S d → consistent S d'.
Proof.
  pose proof (λ mk m k r d p, fsave_inv mk m k r d p) as Hs. destruct Hfl. eapply flush_consistent with (rank := rank); eauto.
Qed.

(** The invariant of one flushing session. *)
Definition phase_inv (d : db) (ph : fphase) : Prop :=
  match ph with
  | PFetched mk o => content_object S d mk = Ok o
  | PSaved mk => mk_settled S mk d
  | _ => True
  end.
Lemma fstep_inv d ph d' ph' : fstep E S (d, ph) (d', ph') → finv S d → phase_inv d ph → finv S d' ∧ phase_inv d' ph'.
Proof.
  destruct (mk_env_gen _ _ _ _ _ _ HE) as [l Hl].
  inversion 1; subst; intros Hi Hp; simpl in Hp |- *; try done.
  - match goal with Hx : save _ _ _ _ _ = Ok _ |- _ => rewrite (save_stored _ _ _ _ _ _ (content_object_row _ _ _ _ _ _ Hp)) in Hx; inv_bind Hx; injection Hx as <- end.
    by eapply fsave_inv.
  - split; [done|]. destruct o as [[[m k] r]|].
    + destruct (content_object_some _ _ _ _ _ _ Hp) as (Hm & _). pose proof (fl_truthy _ _ _ Hfl m r Hm) as Ht.
      match goal with Hx : ∀ m k r, _ → _ = false |- _ => by rewrite (Hx _ _ _ eq_refl) in Ht end.
    + eapply gone_settled; [|done]. apply (fl_wf _ _ _ Hfl).
  - split; [|done]. eapply unmark_inv; [apply (fl_settled _ _ _ Hfl)|done|done].
Qed.
Lemma fsteps_crash d ph d' ph' : rtc (fstep E S) (d, ph) (d', ph') → finv S d → phase_inv d ph → finv S d' ∧ phase_inv d' ph'.
Proof.
  intros H. remember (d, ph) as x eqn:Hx. remember (d', ph') as y eqn:Hy. revert d ph Hx d' ph' Hy.
  induction H as [x|x [d1 ph1] y Hs Hr IH]; intros d ph -> d' ph' Hy Hi Hp; [by injection Hy as -> ->|].
  subst y. destruct (fstep_inv _ _ _ _ Hs Hi Hp). by eapply IH.
Qed.

(** A writer between two loop bodies does no harm. *)
Definition between (ph : fphase) : Prop := match ph with PFetched _ _ | PSaved _ => False | _ => True end.
Inductive wstep : db * fphase → db * fphase → Prop :=
  | ws_op d ph o d' : between ph → run_op E S o d = Ok d' → wstep (d, ph) (d', ph)
  | ws_flush x y : fstep E S x y → wstep x y.
Lemma no_self_dep_rel d : no_self_dep S → no_self_relation S d.
Proof. intros Hn m f fn ds sk dp k r Hm Hf Hk Hdp _ [Hs _]. by eapply Hn. Qed.
Lemma wsteps_inv (Hns : no_self_dep S) x y : rtc wstep x y → finv S x.1 → phase_inv x.1 x.2 → finv S y.1 ∧ phase_inv y.1 y.2.
Proof.
  induction 1 as [x|x z y Hs Hr IH]; intros Hi Hp; [done|].
  assert (finv S z.1 ∧ phase_inv z.1 z.2) as []; [|by apply IH].
  destruct Hs as [d ph o d' Hb Ho|[d ph] [d' ph'] Hs]; [|by eapply fstep_inv].
  destruct Hi as (L & C & N). destruct (fop_inv _ _ _ Ho L C). simpl in *. split; [|by destruct ph].
  split_and!; [done|done|]. by apply no_self_dep_rel.
Qed.

End sessions.

(** ** rebuildall *)
Section rebuild.
Context (S : schema) (Hwf : wf_schema S).

Lemma dedup_models_elem seen ms m : m ∈ ms → m_name m ∉ seen → (∀ m1 m2, m1 ∈ ms → m2 ∈ ms → m_name m1 = m_name m2 → m1 = m2) →
  m ∈ dedup_models seen ms.
Proof.
  revert seen. induction ms as [|m0 ms IH]; intros seen Hm Hs Hu; [by apply elem_of_nil in Hm|]. simpl.
  destruct (decide (m_name m0 = m_name m)) as [Heq|Hne].
  - assert (m0 = m) as -> by (apply Hu; [left|done|done]). rewrite decide_False by done. left.
  - apply elem_of_cons in Hm as [->|Hm]; [done|].
    assert (Hu' : ∀ m1 m2, m1 ∈ ms → m2 ∈ ms → m_name m1 = m_name m2 → m1 = m2) by (intros; apply Hu; [by right..|done]).
    case_decide; [by apply IH|]. right. apply IH; [done| |done]. set_solver.
Qed.
Lemma alldenorms_in m f : m ∈ s_models S → f ∈ m_fields m → is_denorm f = true → (m, f) ∈ alldenorms S.
Proof.
  intros Hm Hf Hd. pose proof (wf_models _ Hwf _ Hm) as W.
  unfold alldenorms. apply elem_of_list_bind. exists m. split; [|done]. rewrite (wf_noproxy _ _ W).
  apply elem_of_list_bind. exists f. split; [|done]. rewrite Hd, (wf_owner _ _ W _ Hf).
  rewrite (find_model_self S m (wf_names _ Hwf) Hm), (wf_noswap _ _ W). by left.
Qed.
Lemma alldenorms_model m f : (m, f) ∈ alldenorms S → m ∈ s_models S.
Proof.
  unfold alldenorms. intros H. apply elem_of_list_bind in H as (m' & H & Hm'). destruct (m_proxy m'); [by apply elem_of_nil in H|].
  apply elem_of_list_bind in H as (f' & H & _). destruct (is_denorm f'); [|by apply elem_of_nil in H].
  destruct (find_model S (f_owner f')) as [o|] eqn:Ho; [|by apply elem_of_nil in H].
  destruct (m_swapped o); [by apply elem_of_nil in H|]. apply elem_of_list_singleton in H. injection H as -> ->.
  by apply find_model_in in Ho as [].
Qed.
Lemma rebuild_marks_all d m k r f fn ds sk : m ∈ s_models S → f ∈ m_fields m → f_kind f = KCallback fn ds sk →
  getrow d (m_table m) k = Some r → m_visible m r = true → marker_of m k ∈ rebuild_marks S None None d.
Proof.
  intros Hm Hf Hk Hr Hv. unfold rebuild_marks. apply elem_of_list_bind. exists m. split.
  - apply elem_of_list_fmap. exists (k, r). split; [done|]. apply elem_of_list_filter. split; [done|].
    by apply elem_of_map_to_list.
  - unfold rebuild_models.
    assert (Hin : ∀ p, p ∈ rebuild_denorms S None None ↔ p ∈ alldenorms S).
    { intros p. unfold rebuild_denorms. rewrite elem_of_list_filter. naive_solver. }
    apply dedup_models_elem; [|set_solver|].
    + apply elem_of_list_fmap. exists (m, f). split; [done|]. apply Hin. apply alldenorms_in; [done|done|]. unfold is_denorm. by rewrite Hk.
    + intros m1 m2 H1 H2 Hn. apply elem_of_list_fmap in H1 as ([? f1] & -> & H1). apply elem_of_list_fmap in H2 as ([? f2] & -> & H2).
      apply Hin in H1, H2. eapply NoDup_fmap_eq; [apply (wf_names _ Hwf)|by eapply alldenorms_model..|done].
Qed.
Lemma rebuild_inv d : links_ok S d → no_self_relation S d →
  (∀ m k r, m ∈ s_models S → getrow d (m_table m) k = Some r → m_visible m r = true) →
  finv S (mark d (rebuild_marks S None None d)).
Proof.
  intros L N Hv. split_and!; [done| |done]. intros m k r Hm Hr. rewrite getrow_mark in Hr.
  destruct (decide (marker_of m k ∈ rebuild_marks S None None d)) as [Hin|Hn]; [left; apply elem_of_app; by right|right].
  intros f Hf. destruct (f_kind f) as [| |fn ds sk|a|ds] eqn:Hk; try by (unfold row_consistent; rewrite Hk).
  exfalso. apply Hn. eapply rebuild_marks_all; eauto.
Qed.
End rebuild.
