(** * Claims on what the daemon does to the data (C87). *)
From stdpp Require Import relations.
From Verif Require Import Base BaseLemmas Schema TrigSet Gen Exec Orm Flush Machine Spec SpecAgg SpecOrder SpecSave GenLemmas Conditions Settle Hist Check ExForum ExBad ExAgg CheckOrder ExTree CheckSave ExSave ExModes DaemonData ExDaemonData.
From Verif Require Daemon.

(** However the rounds of the daemon end - completed, interrupted anywhere, failed and rolled
    back - and whatever others do between the rounds, every row is right or marked; and a
    round whose flush came to its end leaves everything right. *)
Theorem daemon_loses_nothing b S rand imm depth E rank d d' :
  mk_env b S rand imm depth = Ok E → flushable S rank imm →
  links_ok S d → consistent_or_marked S d → no_self_relation S d →
  rtc (λ x y, daemon_step E S x y ∧ no_self_relation S y) d d' →
  consistent_or_marked S d' ∧
  ∀ x d'', round_data E S x d' d'' → x ∈ [Daemon.RFine; Daemon.RIntSleep; Daemon.RIntCommit] → consistent S d'' ∧ d_dirty d'' = [].
Proof.
  exact (λ HE Hfl L C N Hs, let I := daemon_steps_inv b S rand imm depth E rank HE Hfl d d' Hs (conj L (conj C N)) in
    conj (proj1 (proj2 I)) (λ x d'' Hr, round_done b S rand imm depth E rank HE Hfl x d' d'' Hr I)).
Qed.
Print Assumptions daemon_loses_nothing.
Example daemon_loses_nothing_ex b : mk_env b (QS false) rand0 true 10 = Ok (QY b) ∧ flushable (QS false) q_rank true ∧
  finv (QS false) (qd b false) ∧ rtc (λ x y, daemon_step (QY b) (QS false) x y ∧ no_self_relation (QS false) y) (qd b false) (dq_flushed b) ∧
  round_data (QY b) (QS false) Daemon.RFine (dq_view b) (dq_flushed b) ∧
  cellv (dq_view b) "forum" 3 "path" = Some (VText "/a/b/c/") ∧ cellv (dq_flushed b) "forum" 3 "path" = Some (VText "/a/b/n/").
Proof.
  split; [apply QE_ok|]. split; [apply QS_flushable|]. split; [apply qd_inv|]. split; [apply dq_run|].
  split; [eapply rd_fine; exact (dq_flushed_ok b)|]. destruct b; vm_compute; split; reflexivity.
Qed.

(** A round that fails changes nothing at all: the flush is rolled back. *)
Theorem failed_round_changes_nothing E S x d d' : round_data E S x d d' → x ∈ [Daemon.RErrFlush; Daemon.RErrCommit] → d' = d.
Proof. exact (failed_round E S x d d'). Qed.
Print Assumptions failed_round_changes_nothing.
Example failed_round_changes_nothing_ex b : round_data (RE b) RA Daemon.RErrFlush (ra_d b) (ra_d b) ∧
  cellv (ra_part b) "a" 2 "f" = Some (VInt 3) ∧ cellv (ra_d b) "a" 2 "f" = Some (VInt 2).
Proof. split; [apply ra_err_round|]. destruct b; vm_compute; split; reflexivity. Qed.

(** So one marked row whose function raises stops the daemon altogether: whatever the order
    in which the markers come, no round completes, every round that is not interrupted fails
    and nothing is refreshed, however often the daemon is started again. *)
Theorem raising_row_stops_daemon b S rand imm depth E m k r0 d d' :
  wf_schema S → mk_env b S rand imm depth = Ok E → m ∈ s_models S → (∀ r, m_truthy m r = true) →
  poison m k r0 → poisoned m k r0 d → rtc (whole_round E S) d d' →
  d' = d ∧ (∀ ord n, (flush E S ord n d').2 ≠ Done) ∧ ∀ x d'', round_data E S x d' d'' → x ≠ Daemon.RIntFlush → x = Daemon.RErrFlush.
Proof. exact (λ Hwf HE Hm Ht Hp Hd Hs, poison_stops b S rand imm depth E Hwf HE m k r0 Hm Ht Hp d d' Hd Hs). Qed.
Print Assumptions raising_row_stops_daemon.
Example raising_row_stops_daemon_ex b : wf_schema RA ∧ mk_env b RA rand0 true 10 = Ok (RE b) ∧ RaA ∈ s_models RA ∧
  poison RaA 1 (ra_row b) ∧ poisoned RaA 1 (ra_row b) (ra_d b) ∧ whole_round (RE b) RA (ra_d b) (ra_d b).
Proof.
  split; [apply RA_flushable|]. split; [apply RE_ok|]. split; [by left|]. split; [apply ra_poison|]. split; [apply ra_poisoned|apply ra_round].
Qed.

(** "The daemon updates the dirty rows in regular intervals": refuted.  flush() alone, in
    autocommit mode, refreshes row 2 before it gets to row 1, whose function raises; the
    daemon does so too, and rolls it back every time. *)
Theorem daemon_updates_rows_refuted : ∀ b, ∃ S rank d m k r f ord,
  mk_env b S rand0 true 10 = Ok (env_of b S true) ∧ flushable S rank true ∧ (∃ ops1 ops2, d = hist2 b S ops1 ops2) ∧
  m ∈ s_models S ∧ f ∈ m_fields m ∧ getrow d (m_table m) k = Some r ∧ ¬ row_consistent m d k r f ∧
  (∃ r', getrow (flush (env_of b S true) S ord 5 d).1 (m_table m) k = Some r' ∧ row_consistent m (flush (env_of b S true) S ord 5 d).1 k r' f) ∧
  (∃ d', whole_round (env_of b S true) S d d') ∧ ∀ d', rtc (whole_round (env_of b S true) S) d d' → d' = d.
Proof. exact daemon_stuck. Qed.
Print Assumptions daemon_updates_rows_refuted.

(** ** Other sessions *)
(** With nothing committed by others since the transaction began, the body of flush is the
    ordinary one. *)
Theorem snapshot_body_same E S mk d : no_m2m_denorm S → wf_schema S → process_view E S d mk d = process E S mk d.
Proof. exact (process_view_same E S mk d). Qed.
Print Assumptions snapshot_body_same.
Example snapshot_body_same_ex b : no_m2m_denorm (QS false) ∧ wf_schema (QS false) ∧
  okb (process_view (QY b) (QS false) (dq_view b) (marker_of QForum 3) (dq_view b)) = true.
Proof. split; [apply no_m2m_denormb_spec; by vm_compute|]. split; [apply QS_flushable|]. destruct b; vm_compute; reflexivity. Qed.
(** Otherwise a change that is committed after the snapshot was taken can be lost for good: the
    value is computed from the snapshot, and the marker for the later change is deleted with
    the earlier one. *)
Theorem snapshot_flush_loses_nothing_refuted : ∀ b, ∃ S rank view o d mk d',
  mk_env b S rand0 true 10 = Ok (env_of b S true) ∧ flushable S rank true ∧
  links_ok S view ∧ consistent_or_marked S view ∧ no_self_relation S view ∧
  run_op (env_of b S true) S o view = Ok d ∧ mk ∈ d_dirty view ∧
  process_view (env_of b S true) S view mk d = Ok d' ∧ consistent_or_marked S d ∧ ¬ consistent_or_marked S d'.
Proof. exact snapshot_lost. Qed.
Print Assumptions snapshot_flush_loses_nothing_refuted.
