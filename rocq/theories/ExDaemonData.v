(** * Cases for the claims on the daemon's data, on the schemas [RA] and [QS] of ExSave.v. *)
From stdpp Require Import relations.
From Verif Require Import Base BaseLemmas Schema TrigSet Gen Exec Orm Flush Machine Spec SpecAgg SpecOrder SpecSave GenLemmas Conditions Settle Hist Sessions Check ExForum ExBad ExAgg CheckOrder ExTree CheckSave ExSave ExModes DaemonData.
From Verif Require Daemon.

Definition rev_ord : db → list marker → list marker := λ _ l, rev l.
Definition RE (b : backend) : env := env_of b RA true.
Lemma RE_ok b : mk_env b RA rand0 true 10 = Ok (RE b).
Proof. destruct b; vm_compute; reflexivity. Qed.
(** Row 1 of [ra_d] has x NULL, on which the function raises; row 2 is outdated. *)
Definition ra_row (b : backend) : row := default ∅ (getrow (ra_d b) "a" 1).
Lemma ra_row_ok b : getrow (ra_d b) "a" 1 = Some (ra_row b).
Proof.
  assert (H : match getrow (ra_d b) "a" 1 with Some _ => true | None => false end = true) by (destruct b; vm_compute; reflexivity).
  unfold ra_row. by destruct (getrow (ra_d b) "a" 1).
Qed.
Lemma ra_x b : col (ra_row b) "x" = VNull.
Proof. destruct b; vm_compute; reflexivity. Qed.
Lemma ra_poison b : poison RaA 1 (ra_row b).
Proof.
  exists (cbf "f" "A" cb_raise [] []), cb_raise, [], [], (EUser 7). split; [right; by left|]. split; [done|].
  intros d r H. unfold cb_raise. rewrite (H "x"), ra_x; [done|]. exists (plain "x" "A"). split; [by left|done].
Qed.
Lemma ra_marked b : marker_of RaA 1 ∈ d_dirty (ra_d b).
Proof. apply (bool_decide_eq_true_1 _). destruct b; vm_compute; reflexivity. Qed.
Lemma ra_truthy r : m_truthy RaA r = true. Proof. done. Qed.
Lemma ra_poisoned b : poisoned RaA 1 (ra_row b) (ra_d b).
Proof. split; [apply ra_marked|]. exists (ra_row b). split; [exact (ra_row_ok b)|done]. Qed.
Definition ra_f : field := cbf "f" "A" cb_raise [] [].
Definition ra_row2 (b : backend) : row := default ∅ (getrow (ra_d b) "a" 2).
Lemma ra_row2_ok b : getrow (ra_d b) (m_table RaA) 2 = Some (ra_row2 b).
Proof.
  assert (H : match getrow (ra_d b) "a" 2 with Some _ => true | None => false end = true) by (destruct b; vm_compute; reflexivity).
  change (m_table RaA) with "a". unfold ra_row2. by destruct (getrow (ra_d b) "a" 2).
Qed.
Lemma ra_stale b : ¬ row_consistent RaA (ra_d b) 2 (ra_row2 b) ra_f.
Proof. apply staleb3_spec. destruct b; vm_compute; reflexivity. Qed.

(** ** REPEATABLE READ *)
Definition QY (b : backend) : env := env_of b (QS false) true.
(** Forum 3 was renamed in bulk and is marked: the snapshot of the daemon. *)
Definition dq_view (b : backend) : db := step (QY b) (QS false) (qd b false) (OUpdate "forum" [3] (λ r, <["title" := VText "n"]> r)).
(** Meanwhile forum 2, its parent, is renamed by a save. *)
Definition dq_save (b : backend) : op := OSave "Forum" (Some 2) (<["title" := VText "w"]> (default ∅ (getrow (dq_view b) "forum" 2))).
Definition dq_now (b : backend) : db := step (QY b) (QS false) (dq_view b) (dq_save b).
(** The body of flush for forum 3. *)
Definition dq_end (b : backend) : db := ok_db (process_view (QY b) (QS false) (dq_view b) (marker_of QForum 3) (dq_now b)).
Lemma dq_now_ok b : run_op (QY b) (QS false) (dq_save b) (dq_view b) = Ok (dq_now b).
Proof.
  unfold dq_now, step. assert (H : okb (run_op (QY b) (QS false) (dq_save b) (dq_view b)) = true) by (destruct b; vm_compute; reflexivity).
  by destruct (run_op (QY b) (QS false) (dq_save b) (dq_view b)).
Qed.
Lemma dq_end_ok b : process_view (QY b) (QS false) (dq_view b) (marker_of QForum 3) (dq_now b) = Ok (dq_end b).
Proof. apply ok_db_ok. destruct b; vm_compute; reflexivity. Qed.
Definition dq_row (b : backend) : row := default ∅ (getrow (dq_end b) "forum" 3).
Lemma dq_row_ok b : getrow (dq_end b) (m_table QForum) 3 = Some (dq_row b).
Proof.
  assert (H : match getrow (dq_end b) "forum" 3 with Some _ => true | None => false end = true) by (destruct b; vm_compute; reflexivity).
  change (m_table QForum) with "forum". unfold dq_row. by destruct (getrow (dq_end b) "forum" 3).
Qed.
Lemma dq_unmarked b : marker_of QForum 3 ∉ d_dirty (dq_end b).
Proof. apply (bool_decide_eq_true_1 _). destruct b; vm_compute; reflexivity. Qed.
Lemma dq_stale b : ¬ row_consistent QForum (dq_end b) 3 (dq_row b) (cbf "path" "Forum" cb_path [t_parent] []).
Proof. apply staleb3_spec. destruct b; vm_compute; reflexivity. Qed.
Lemma dq_lost b : ¬ consistent_or_marked (QS false) (dq_end b).
Proof.
  intros H. destruct (H QForum 3 (dq_row b)) as [Hm|Hc]; [by left|exact (dq_row_ok b)|by apply dq_unmarked in Hm|].
  apply (dq_stale b). apply Hc. do 3 right. by left.
Qed.

(** ** A round that completes *)
Definition dq_flushed (b : backend) : db := (flush (QY b) (QS false) id_ord 10 (dq_view b)).1.
Lemma dq_flushed_ok b : flush (QY b) (QS false) id_ord 10 (dq_view b) = (dq_flushed b, Done).
Proof.
  unfold dq_flushed. assert (H : (flush (QY b) (QS false) id_ord 10 (dq_view b)).2 = Done) by (destruct b; vm_compute; reflexivity).
  destruct (flush (QY b) (QS false) id_ord 10 (dq_view b)) as [d o]. simpl in *. by rewrite H.
Qed.
Lemma dq_view_ok b : run_op (QY b) (QS false) (OUpdate "forum" [3] (λ r, <["title" := VText "n"]> r)) (qd b false) = Ok (dq_view b).
Proof.
  unfold dq_view, step. set (x := run_op _ _ _ _). assert (H : okb x = true) by (destruct b; vm_compute; reflexivity). by destruct x.
Qed.
Lemma dq_run b : rtc (λ x y, daemon_step (QY b) (QS false) x y ∧ no_self_relation (QS false) y) (qd b false) (dq_flushed b).
Proof.
  eapply rtc_l with (dq_view b); [split|].
  - right. eexists. exact (dq_view_ok b).
  - apply no_self_relationb_spec. destruct b; vm_compute; reflexivity.
  - eapply rtc_once. split; [|apply no_self_relationb_spec; destruct b; vm_compute; reflexivity].
    left. exists Daemon.RFine. eapply rd_fine. exact (dq_flushed_ok b).
Qed.
Lemma qd_inv b : finv (QS false) (qd b false).
Proof.
  split; [apply QS_nolinks|]. split; [|apply qd_noself]. intros m k r Hm Hr. right. intros f Hf. exact (qd_consistent b false m k r f Hm Hf Hr).
Qed.

(** ** The witnesses *)
Lemma ra_raises b : (flush (RE b) RA rev_ord 5 (ra_d b)).2 = Raised (EUser 7).
Proof. destruct b; vm_compute; reflexivity. Qed.
Lemma ra_err_round b : round_data (RE b) RA Daemon.RErrFlush (ra_d b) (ra_d b).
Proof.
  pose proof (ra_raises b) as H. destruct (flush (RE b) RA rev_ord 5 (ra_d b)) as [d o] eqn:Hf.
  simpl in H. subst o. by eapply rd_err_flush.
Qed.
Lemma ra_round b : whole_round (RE b) RA (ra_d b) (ra_d b).
Proof. exists Daemon.RErrFlush. split; [done|apply ra_err_round]. Qed.
Definition ra_part (b : backend) : db := (flush (RE b) RA rev_ord 5 (ra_d b)).1.
Lemma ra_part_fresh b : ∃ r', getrow (ra_part b) (m_table RaA) 2 = Some r' ∧ row_consistent RaA (ra_part b) 2 r' ra_f.
Proof.
  assert (H : match getrow (ra_part b) "a" 2 with
    | Some r => match cb_raise (ra_part b) (Some 2) r with Ok pv => bool_decide (stores ra_f pv (col r "f")) | Err _ => false end
    | None => false end = true) by (destruct b; vm_compute; reflexivity).
  change (m_table RaA) with "a". destruct (getrow (ra_part b) "a" 2) as [r|]; [|done]. exists r. split; [done|].
  unfold row_consistent. simpl f_kind. cbv iota. destruct (cb_raise (ra_part b) (Some 2) r) as [pv|]; [|done]. exists pv. split; [done|].
  exact (bool_decide_eq_true_1 _ H).
Qed.
Lemma daemon_stuck : ∀ b, ∃ S rank d m k r f ord,
  mk_env b S rand0 true 10 = Ok (env_of b S true) ∧ flushable S rank true ∧ (∃ ops1 ops2, d = hist2 b S ops1 ops2) ∧
  m ∈ s_models S ∧ f ∈ m_fields m ∧ getrow d (m_table m) k = Some r ∧ ¬ row_consistent m d k r f ∧
  (∃ r', getrow (flush (env_of b S true) S ord 5 d).1 (m_table m) k = Some r' ∧ row_consistent m (flush (env_of b S true) S ord 5 d).1 k r' f) ∧
  (∃ d', whole_round (env_of b S true) S d d') ∧ ∀ d', rtc (whole_round (env_of b S true) S) d d' → d' = d.
Proof.
  intros b. exists RA, (λ _, 0%nat), (ra_d b), RaA, 2, (ra_row2 b), ra_f, rev_ord.
  split; [exact (RE_ok b)|]. split; [exact RA_flushable|]. split; [by exists ra_ops, ra_ops2|]. split; [by left|]. split; [right; by left|].
  split; [exact (ra_row2_ok b)|]. split; [exact (ra_stale b)|]. split; [exact (ra_part_fresh b)|]. split; [exists (ra_d b); exact (ra_round b)|].
  intros d' H. destruct RA_flushable.
  exact (poison_rounds b RA rand0 true 10 (RE b) fl_wf (RE_ok b) RaA 1 (ra_row b) (elem_of_list_here _ _) ra_truthy (ra_poison b) (ra_d b) d' H (ra_poisoned b)).
Qed.
Lemma dq_view_inv b : finv (QS false) (dq_view b).
Proof.
  destruct (qd_inv b) as (L & C & _). destruct (fop_inv b (QS false) rand0 true 10 (QY b) q_rank (QE_ok b false) QS_flushable _ _ _ (dq_view_ok b) L C).
  split; [done|]. split; [done|]. apply no_self_relationb_spec. destruct b; vm_compute; reflexivity.
Qed.
Lemma snapshot_lost : ∀ b, ∃ S rank view o d mk d',
  mk_env b S rand0 true 10 = Ok (env_of b S true) ∧ flushable S rank true ∧
  links_ok S view ∧ consistent_or_marked S view ∧ no_self_relation S view ∧
  run_op (env_of b S true) S o view = Ok d ∧ mk ∈ d_dirty view ∧
  process_view (env_of b S true) S view mk d = Ok d' ∧ consistent_or_marked S d ∧ ¬ consistent_or_marked S d'.
Proof.
  intros b. exists (QS false), q_rank, (dq_view b), (dq_save b), (dq_now b), (marker_of QForum 3), (dq_end b).
  destruct (dq_view_inv b) as (L & C & N). split; [exact (QE_ok b false)|]. split; [exact QS_flushable|]. split; [done|]. split; [done|]. split; [done|].
  split; [exact (dq_now_ok b)|]. split; [apply (bool_decide_eq_true_1 _); destruct b; vm_compute; reflexivity|]. split; [exact (dq_end_ok b)|].
  split; [exact (proj2 (fop_inv b (QS false) rand0 true 10 (QY b) q_rank (QE_ok b false) QS_flushable _ _ _ (dq_now_ok b) L C))|exact (dq_lost b)].
Qed.
