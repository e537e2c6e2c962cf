(** * What flush and rebuildall achieve (C01, C02, C03, C17, C20, C24, C25). *)
From stdpp Require Import relations.
From Verif Require Import Base BaseLemmas Schema TrigSet Gen Exec Orm Flush Machine Spec Settle Sessions Frame Hist Check ExForum ExRich ExBad.

(** ** C01 *)
Theorem flush_leaves_no_marker E S ord n d d' :
  flush E S ord n d = (d', Done) → d_dirty d' = [].
Proof. exact (flush_done_clean E S ord n d d'). Qed.
Print Assumptions flush_leaves_no_marker.
(** The same of every run of its single steps, whatever the cursor yields. *)
Theorem flush_run_leaves_no_marker E S d d' :
  rtc (fstep E S) (d, PTop) (d', PEnd) → d_dirty d' = [].
Proof. intros H. by apply (run_end_dirty E S _ _ H). Qed.
Print Assumptions flush_run_leaves_no_marker.
(** Markers with a NULL object id, of a missing row and of a present row all vanish. *)
Definition c01_db : db := mark (rd1 SQLite) [(10, None); (11, Some "999"); (10, Some "1")].
Example flush_leaves_no_marker_ex : d_dirty c01_db ≠ [] ∧ (flush (RE SQLite) RS id_ord 10 c01_db).2 = Done.
Proof. split; [by vm_compute|vm_compute; reflexivity]. Qed.

(** ** C02 *)
(** Any history of operations, flushes and rebuilds (complete or not), starting from a
    database in which every row is consistent or marked, then a flush that returns. *)
Theorem flush_makes_consistent b S rand imm depth E rank hs d ord n d' :
  mk_env b S rand imm depth = Ok E → flushable S rank imm → no_self_dep S →
  links_ok S d → consistent_or_marked S d →
  flush E S ord n (foldl (hstep E S) d hs) = (d', Done) →
  consistent S d' ∧ d_dirty d' = [].
Proof.
  exact (λ HE Hfl Hns HL HC, hist_flush b S rand imm depth E rank HE Hfl Hns hs d ord n d'
    (conj HL (conj HC (no_self_dep_rel S d Hns)))).
Qed.
Print Assumptions flush_makes_consistent.
(** The same with dependencies inside one table, as long as no row is related to itself
    when flush is called. *)
Theorem flush_makes_consistent_self b S rand imm depth E rank ops d ord n d' :
  mk_env b S rand imm depth = Ok E → flushable S rank imm →
  links_ok S d → consistent_or_marked S d → no_self_relation S (foldl (step E S) d ops) →
  flush E S ord n (foldl (step E S) d ops) = (d', Done) →
  consistent S d' ∧ d_dirty d' = [].
Proof. exact (λ HE Hfl, ops_flush b S rand imm depth E rank HE Hfl ops d ord n d'). Qed.
Print Assumptions flush_makes_consistent_self.
(** The same for any cursor: the markers may be fetched in any order, again and again, and
    while rows are saved and markers deleted. *)
Theorem flush_run_makes_consistent b S rand imm depth E rank d d' :
  mk_env b S rand imm depth = Ok E → flushable S rank imm →
  links_ok S d → consistent_or_marked S d → no_self_relation S d →
  rtc (fstep E S) (d, PTop) (d', PEnd) → consistent S d' ∧ d_dirty d' = [].
Proof. exact (run_end_consistent b S rand imm depth E rank d d'). Qed.
Print Assumptions flush_run_makes_consistent.
Example flush_run_ex b : ∃ d', rtc (fstep (RE b) RS) (rd1 b, PTop) (d', PEnd) ∧
  cellv d' "forum" 1 "total" ≠ cellv (rd1 b) "forum" 1 "total".
Proof.
  destruct (flush_steps (RE b) RS id_ord 10 (rd1 b) _ _ (surjective_pairing _)) as (ph & Hr & He).
  rewrite He in Hr by (destruct b; vm_compute; reflexivity).
  eexists. split; [exact Hr|]. destruct b; by vm_compute.
Qed.
(** The rich schema with its history, on every backend, starting from an empty database;
    the flushed values depend on every kind of dependency. *)
Definition rhist : list hop := (HOp <$> rops) ++ [HFlush id_ord 1; HOp (OUpdate "post" [7] (λ r, <["score" := VInt 8]> r))].
Example flush_makes_consistent_ex b :
  mk_env b RS rand0 true 10 = Ok (RE b) ∧ flushable RS rrank true ∧ no_self_dep RS ∧
  links_ok RS d0 ∧ consistent_or_marked RS d0 ∧
  ∃ d', flush (RE b) RS id_ord 10 (foldl (hstep (RE b) RS) d0 rhist) = (d', Done) ∧
        cellv d' "forum" 1 "total" = Some (VInt 117) ∧ cellv d' "member" 1 "bookmark_score" = Some (VInt 17).
Proof.
  split; [apply RE_ok|]. split; [apply RS_flushable|]. split; [apply RS_no_self|].
  destruct (finv_empty RS d0 eq_refl) as (L & C & _). split; [done|]. split; [done|].
  eexists. split; [apply flush_pair; destruct b; vm_compute; reflexivity|].
  split; destruct b; vm_compute; reflexivity.
Qed.

(** ** C03 (refuted) *)
(** Without the declaration order condition: every dependency declared, every column
    tracked, nothing else unusual, and yet flush returns with a stale column. *)
Theorem flush_out_of_order_refuted : ∀ b, ∃ S rank d d',
  mk_env b S rand0 true 10 = Ok (env_of b S true) ∧
  trackable S rank true b ∧ all_covered S ∧ no_self_dep S ∧ no_m2m_denorm S ∧ all_truthy S ∧
  (∃ ops1 ops2, d = hist2 b S ops1 ops2) ∧
  flush (env_of b S true) S id_ord 5 d = (d', Done) ∧ ¬ consistent S d'.
Proof.
  intros b. exists OO, (λ _, 0%nat), (oo_d b). eexists. split; [by destruct b; vm_compute; reflexivity|].
  split; [apply OO_trackable|]. split; [exact OO_covered|].
  split; [apply no_self_depb_spec; by vm_compute|]. split; [apply no_m2m_denormb_spec; by vm_compute|].
  split; [intros m r Hm; by apply elem_of_list_singleton in Hm as ->|].
  split; [exists oo_ops, upd_x2; reflexivity|].
  split; [apply flush_pair; destruct b; vm_compute; reflexivity|].
  apply (staleb_spec _ _ OoA 1 1); [by left|]. destruct b; vm_compute; reflexivity.
Qed.
Print Assumptions flush_out_of_order_refuted.
(** Without [no_self_relation]: all static conditions hold. *)
Theorem flush_self_related_refuted : ∃ b S rank d d',
  mk_env b S rand0 true 10 = Ok (env_of b S true) ∧ flushable S rank true ∧
  (∃ ops1 ops2, d = hist2 b S ops1 ops2) ∧
  flush (env_of b S true) S id_ord 5 d = (d', Done) ∧ ¬ consistent S d'.
Proof.
  exists Postgres, SR, (λ _, 0%nat), (sr_d Postgres). eexists. split; [vm_compute; reflexivity|]. split; [exact SR_flushable|].
  split; [exists sr_ops, upd_x2; reflexivity|].
  split; [apply flush_pair; vm_compute; reflexivity|].
  apply (staleb_spec _ _ SrA 3 1); [by left|]. vm_compute; reflexivity.
Qed.
Print Assumptions flush_self_related_refuted.

(** ** C17 *)
(** From any database, reachable or not. *)
Theorem rebuild_repairs b S rand imm depth E rank d ord n d' :
  mk_env b S rand imm depth = Ok E → flushable S rank imm →
  links_ok S d → no_self_relation S d →
  (∀ m k r, m ∈ s_models S → getrow d (m_table m) k = Some r → m_visible m r = true) →
  rebuildall E S ord n None None d = (d', Done) → consistent S d' ∧ d_dirty d' = [].
Proof. exact (λ HE Hfl, rebuild_repairs_all b S rand imm depth E rank HE Hfl d ord n d'). Qed.
Print Assumptions rebuild_repairs.
(** A database whose markers were lost and whose columns are wrong. *)
Definition c17_db (b : backend) : db :=
  let d := set_dirty (rd1 b) [] in put_row d "post" 7 (<["rating" := VInt 999]> (default ∅ (getrow d "post" 7))).
Example rebuild_repairs_ex b :
  cellv (c17_db b) "post" 7 "rating" = Some (VInt 999) ∧
  ∃ d', rebuildall (RE b) RS id_ord 10 None None (c17_db b) = (d', Done) ∧ cellv d' "post" 7 "rating" = Some (VInt 107).
Proof. split; [destruct b; vm_compute; reflexivity|]. eexists. split; [apply rebuild_pair; destruct b; vm_compute; reflexivity|]. destruct b; vm_compute; reflexivity. Qed.

(** ** C20 *)
(** Whatever the outcome. *)
Theorem flush_keeps_user_data b S rand imm depth E ord n d d' o :
  mk_env b S rand imm depth = Ok E → wf_schema S → flush E S ord n d = (d', o) → user_data_kept S d d'.
Proof. exact (λ HE Hwf, flush_kept b S rand imm depth E Hwf HE ord n d d' o). Qed.
Print Assumptions flush_keeps_user_data.
Theorem rebuild_keeps_user_data b S rand imm depth E ord n mn fn d d' o :
  mk_env b S rand imm depth = Ok E → wf_schema S → rebuildall E S ord n mn fn d = (d', o) → user_data_kept S d d'.
Proof. exact (λ HE Hwf, rebuildall_kept b S rand imm depth E Hwf HE ord n mn fn d d' o). Qed.
Print Assumptions rebuild_keeps_user_data.
(** Flush does change something here. *)
Example flush_keeps_user_data_ex b : wf_schema RS ∧
  cellv (rd1 b) "forum" 1 "total" ≠ cellv (flush (RE b) RS id_ord 10 (rd1 b)).1 "forum" 1 "total".
Proof. split; [exact RS_wf|]. destruct b; by vm_compute. Qed.

(** ** C24 *)
(** [rtc fstep] reaches every point at which flush can be interrupted. *)
Theorem flush_crash_safe b S rand imm depth E rank d d' ph :
  mk_env b S rand imm depth = Ok E → flushable S rank imm →
  links_ok S d → consistent_or_marked S d → no_self_relation S d →
  rtc (fstep E S) (d, PTop) (d', ph) →
  consistent_or_marked S d' ∧
  ∀ ord n d'', flush E S ord n d' = (d'', Done) → consistent S d'' ∧ d_dirty d'' = [].
Proof. exact (λ HE Hfl HL HC HN, crash_safe b S rand imm depth E rank HE Hfl d d' ph (conj HL (conj HC HN))). Qed.
Print Assumptions flush_crash_safe.
(** The function flush only passes through states of the machine, also when it raises. *)
Theorem flush_is_run E S ord n d d' o : flush E S ord n d = (d', o) →
  ∃ ph, rtc (fstep E S) (d, PTop) (d', ph) ∧ (o = Done → ph = PEnd).
Proof. exact (flush_steps E S ord n d d' o). Qed.
Print Assumptions flush_is_run.
(** A crash after saving the first row and before deleting its markers. *)
Example flush_crash_safe_ex :
  ∃ d' mk, rtc (fstep (RE SQLite) RS) (rd1 SQLite, PTop) (d', PSaved mk) ∧ mk = (10, Some "1") ∧ d_dirty d' ≠ [].
Proof.
  exists (saved (RE SQLite) RS (10, Some "1") (rd1 SQLite)), (10, Some "1"). split; [|split; [done|by vm_compute]].
  eapply rtc_l; [apply fs_start|]. apply process_save_steps, saved_ok. vm_compute; reflexivity.
Qed.

(** ** C25, positive part *)
(** A writer whose statements fall between two loop bodies of flush. *)
Theorem flush_writer_between_safe b S rand imm depth E rank d d' ph :
  mk_env b S rand imm depth = Ok E → flushable S rank imm → no_self_dep S →
  links_ok S d → consistent_or_marked S d →
  rtc (wstep S E) (d, PTop) (d', ph) →
  consistent_or_marked S d' ∧
  ∀ ord n d'', flush E S ord n d' = (d'', Done) → consistent S d'' ∧ d_dirty d'' = [].
Proof. exact (λ HE Hfl Hns HL HC, writer_safe b S rand imm depth E rank HE Hfl Hns d d' ph (conj HL (conj HC (no_self_dep_rel S d Hns)))). Qed.
Print Assumptions flush_writer_between_safe.
(** A statement of the writer after the query of a pass and before its first loop body. *)
Example flush_writer_between_ex :
  ∃ d', rtc (wstep RS (RE SQLite)) (rd1 SQLite, PTop) (d', PLoop) ∧
  cellv d' "post" 7 "score" ≠ cellv (rd1 SQLite) "post" 7 "score" ∧
  length (d_dirty d') ≠ length (d_dirty (rd1 SQLite)).
Proof.
  exists (step (RE SQLite) RS (rd1 SQLite) (OUpdate "post" [7] (λ r, <["score" := VInt 8]> r))). split; [|split].
  - eapply rtc_l; [apply ws_flush, fs_start|]. apply rtc_once. apply ws_op with (OUpdate "post" [7] (λ r, <["score" := VInt 8]> r)); [done|].
    apply step_ok. vm_compute; reflexivity.
  - by vm_compute.
  - by vm_compute.
Qed.
