(** * Saving, raising, flushing unchanged data, DENORM_BULK_UNSAFE_TRIGGERS (C57, C58, C59, C60). *)
From stdpp Require Import relations.
From Verif Require Import Base BaseLemmas Schema TrigSet Gen Exec Orm Flush Machine Spec SpecAgg SpecOrder SpecSave Settle Sessions Hist Bulk Quiet Check ExForum ExBad ExTree CheckOrder CheckSave ExSave.

(** ** C57 *)
(** Saving an instance of a stored row: whatever ordinary columns the caller assigned,
    the stored callback columns are right when save() returns, without flush. *)
Theorem saved_row_is_fresh b S rand imm depth E rank m k r0 r d d' k' r' :
  mk_env b S rand imm depth = Ok E → savable S rank imm →
  m ∈ s_models S → getrow d (m_table m) k = Some r0 → no_self_relation S d →
  not_self_related m d k r → counts_current m r r0 →
  save E m (Some k) r d = Ok (d', k', r') →
  k' = k ∧ getrow d' (m_table m) k = Some r' ∧ (∀ c, plain_col m c → col r' c = col r c) ∧
  ∀ f, f ∈ m_fields m → row_consistent m d' k r' f.
Proof. exact (λ HE Hsa, sa_fresh b S rand imm depth E HE rank Hsa m k r0 r d d' k' r'). Qed.
Print Assumptions saved_row_is_fresh.
(** A forum gets a new title and a new parent; also with DENORM_BULK_UNSAFE_TRIGGERS. *)
Example saved_row_is_fresh_ex b u :
  mk_env b (QS u) rand0 true 10 = Ok (env_of b (QS u) true) ∧ savable (QS u) q_rank true ∧
  getrow (qd b u) "forum" 2 = Some (q_row b u) ∧ no_self_relation (QS u) (qd b u) ∧
  not_self_related QForum (qd b u) 2 (q_inst b u) ∧ counts_current QForum (q_inst b u) (q_row b u) ∧
  save (env_of b (QS u) true) QForum (Some 2) (q_inst b u) (qd b u) = Ok (q_saved b u) ∧
  col (q_row b u) "path" = VText "/a/b/" ∧ col (q_saved b u).2 "path" = VText "/w/".
Proof.
  split; [apply QE_ok|]. split; [apply QS_savable|]. split; [apply q_row_ok|]. split; [apply qd_noself|].
  split; [apply not_self_relatedb_spec; destruct b, u; vm_compute; reflexivity|].
  split; [apply counts_currentb_spec; destruct b, u; vm_compute; reflexivity|]. split; [apply q_saved_ok|].
  split; destruct b, u; vm_compute; reflexivity.
Qed.
(** Saving a new instance: the stored columns are right when save() returns, if the
    functions need no primary key and no count of their own row. *)
Theorem saved_new_row_is_fresh b S rand imm depth E rank m pk k r d d' r' :
  mk_env b S rand imm depth = Ok E → savable S rank imm → own_stored S rank →
  m ∈ s_models S → getrow d (m_table m) k = None → no_self_relation S d →
  not_self_related m d k r → key_alike m d pk k →
  save E m pk r d = Ok (d', k, r') →
  getrow d' (m_table m) k = Some r' ∧ (∀ c, plain_col m c → col r' c = col r c) ∧
  ∀ f, f ∈ m_fields m → row_consistent m d' k r' f.
Proof. exact (λ HE Hsa Hos, new_fresh b S rand imm depth E HE rank Hsa Hos m pk k r d d' r'). Qed.
Print Assumptions saved_new_row_is_fresh.
Example saved_new_row_is_fresh_ex b u :
  mk_env b (QS u) rand0 true 10 = Ok (env_of b (QS u) true) ∧ savable (QS u) q_rank true ∧ own_stored (QS u) q_rank ∧
  QForum ∈ s_models (QS u) ∧ getrow (qd b u) "forum" 4 = None ∧ no_self_relation (QS u) (qd b u) ∧
  not_self_related QForum (qd b u) 4 q_new ∧ key_alike QForum (qd b u) None 4 ∧
  save (env_of b (QS u) true) QForum None q_new (qd b u) = Ok ((q_made b u).1.1, 4, (q_made b u).2) ∧
  col (q_made b u).2 "path" = VText "/a/b/c/n/".
Proof.
  split; [apply QE_ok|]. split; [apply QS_savable|]. split; [apply QS_own|]. split; [by left|]. split; [apply q_new_free|].
  split; [apply qd_noself|]. split; [apply q_new_noself|]. split; [apply QForum_alike|]. split; [apply q_made_ok|].
  destruct b, u; vm_compute; reflexivity.
Qed.
(** A new row: the function is called before the row has a primary key. *)
Theorem new_row_is_fresh_refuted : ∀ b, ∃ S rank m r d' k r' f,
  mk_env b S rand0 true 10 = Ok (env_of b S true) ∧ savable S rank true ∧ m ∈ s_models S ∧ f ∈ m_fields m ∧
  save (env_of b S true) m None r d0 = Ok (d', k, r') ∧ ¬ row_consistent m d' k r' f.
Proof.
  intros b. pose (q := the_save (env_of b (PK false) true) PkA None (rowof [("x", VInt 1)]) d0).
  exists (PK false), (λ _, 0%nat), PkA, (rowof [("x", VInt 1)]), q.1.1, q.1.2, q.2, (cbf "f" "A" cb_pk [] []).
  split; [destruct b; vm_compute; reflexivity|]. split; [apply PK_savable|]. split; [by left|]. split; [by right; left|]. split.
  - apply the_save_ok. destruct b; vm_compute; reflexivity.
  - apply staleb3_spec. destruct b; vm_compute; reflexivity.
Qed.
Print Assumptions new_row_is_fresh_refuted.
(** An instance loaded before a count changed: the function sees the old count, and the
    new one stays in the database. *)
Theorem stale_count_is_fresh_refuted : ∀ b, ∃ S rank m k r0 r d d' k' r' f,
  mk_env b S rand0 true 10 = Ok (env_of b S true) ∧ flushable S rank true ∧ m ∈ s_models S ∧ f ∈ m_fields m ∧
  (∃ ops1 ops2, getrow (hist2 b S ops1 []) (m_table m) k = Some r ∧
    flush (env_of b S true) S id_ord 5 (hist2 b S ops1 ops2) = (d, Done)) ∧
  getrow d (m_table m) k = Some r0 ∧
  save (env_of b S true) m (Some k) r d = Ok (d', k', r') ∧ ¬ row_consistent m d' k r' f.
Proof.
  intros b. pose (q := the_save (env_of b CN true) CnA (Some 1) (cn_inst b) (cn_d2 b)).
  exists CN, cn_rank, CnA, 1, (default ∅ (getrow (cn_d2 b) "a" 1)), (cn_inst b), (cn_d2 b), q.1.1, q.1.2, q.2, (cbf "f" "A" (cb_copy "n") [] []).
  split; [destruct b; vm_compute; reflexivity|]. split; [apply CN_flushable|]. split; [by left|]. split; [by right; left|].
  split; [exists cn_ops, cn_ops2; split; [destruct b; vm_compute; reflexivity|apply flush_pair; destruct b; vm_compute; reflexivity]|].
  split; [destruct b; vm_compute; reflexivity|]. split; [apply the_save_ok; destruct b; vm_compute; reflexivity|].
  apply staleb3_spec. destruct b; vm_compute; reflexivity.
Qed.
Print Assumptions stale_count_is_fresh_refuted.

(** ** C58 *)
(** When flush raises, nothing is lost: every row is still right or marked, and the
    marker at which it stopped raises again if it comes first. *)
Theorem flush_raise_loses_nothing b S rand imm depth E rank d ord n d' e :
  mk_env b S rand imm depth = Ok E → flushable S rank imm →
  links_ok S d → consistent_or_marked S d → no_self_relation S d →
  flush E S ord n d = (d', Raised e) →
  consistent_or_marked S d' ∧ ∃ mk, process E S mk d' = Err e.
Proof.
  exact (λ HE Hfl HL HC HN Hf, conj (proj1 (proj2 (fflush_inv b S rand imm depth E rank HE Hfl ord n d d' _ Hf (conj HL (conj HC HN)))))
    (flush_raised E S ord n d d' e Hf)).
Qed.
Print Assumptions flush_raise_loses_nothing.
Example flush_raise_loses_nothing_ex b : flushable RA (λ _, 0%nat) true ∧
  (flush (env_of b RA true) RA (λ _ l, rev l) 5 (ra_d b)).2 = Raised (EUser 7) ∧
  cellv (flush (env_of b RA true) RA (λ _ l, rev l) 5 (ra_d b)).1 "a" 2 "f" = Some (VInt 3).
Proof. split; [exact RA_flushable|]. split; destruct b; vm_compute; reflexivity. Qed.
(** But one row whose function raises can keep every other row from being refreshed, no
    matter how often flush is called. *)
Theorem raising_row_blocks_others_refuted : ∀ b, ∃ S rank d e m k r f,
  mk_env b S rand0 true 10 = Ok (env_of b S true) ∧ flushable S rank true ∧ (∃ ops1 ops2, d = hist2 b S ops1 ops2) ∧
  (∀ n, flush (env_of b S true) S id_ord (Datatypes.S n) d = (d, Raised e)) ∧
  m ∈ s_models S ∧ f ∈ m_fields m ∧ getrow d (m_table m) k = Some r ∧
  (∀ g fn ds sk, g ∈ m_fields m → f_kind g = KCallback fn ds sk → ∃ pv, fn d (Some k) r = Ok pv) ∧ ¬ row_consistent m d k r f.
Proof.
  intros b. exists RA, (λ _, 0%nat), (ra_d b), (EUser 7), RaA, 2, (default ∅ (getrow (ra_d b) "a" 2)), (cbf "f" "A" cb_raise [] []).
  split; [destruct b; vm_compute; reflexivity|]. split; [exact RA_flushable|]. split; [by exists ra_ops, ra_ops2|]. split.
  { intros n. apply (flush_stuck _ _ _ _ _ _ (20, Some "1") (tail (snapshot (env_of b RA true) id_ord (ra_d b)))); destruct b; vm_compute; try done; reflexivity. }
  split; [by left|]. split; [by right; left|]. split; [destruct b; vm_compute; reflexivity|]. split.
  - intros g fn ds sk Hg Hk. simpl in Hg. repeat (apply elem_of_cons in Hg as [->|Hg]); [..|by apply elem_of_nil in Hg]; simpl in Hk; [done|].
    injection Hk as <- <- <-. exists (PVal (VInt 3)). destruct b; vm_compute; reflexivity.
  - apply staleb3_spec. destruct b; vm_compute; reflexivity.
Qed.
Print Assumptions raising_row_blocks_others_refuted.

(** ** C59 *)
(** flush() on data that is right, whatever is marked: no stored value changes (except
    auto_now columns and cache keys), no marker is added and one pass is enough. *)
Theorem flush_of_fresh_data_is_idle b S rand imm depth E ord n d d' o :
  mk_env b S rand imm depth = Ok E → wf_schema S → names_apart S → no_m2m_denorm S →
  reads_no_clock S → (∀ m, m ∈ s_models S → ¬ restless b S m) → (∀ x l mk, mk ∈ ord x l ↔ mk ∈ l) →
  consistent S d → flush E S ord n d = (d', o) →
  data_kept S d d' ∧ consistent S d' ∧ (o = Running → n ≤ 1)%nat ∧ (∀ x, x ∈ d_dirty d' → x ∈ d_dirty d).
Proof. exact (λ HE Hwf Hn Hnod Hr Hrest Hord, fresh_flush b S rand imm depth E HE Hwf Hn Hnod Hr Hrest ord Hord n d d' o). Qed.
Print Assumptions flush_of_fresh_data_is_idle.
Theorem rebuild_of_fresh_data_is_idle b S rand imm depth E ord n mn fn d d' o :
  mk_env b S rand imm depth = Ok E → wf_schema S → names_apart S → no_m2m_denorm S →
  reads_no_clock S → (∀ m, m ∈ s_models S → ¬ restless b S m) → (∀ x l mk, mk ∈ ord x l ↔ mk ∈ l) →
  consistent S d → rebuildall E S ord n mn fn d = (d', o) →
  data_kept S d d' ∧ consistent S d' ∧ (o = Running → n ≤ 1)%nat.
Proof. exact (λ HE Hwf Hn Hnod Hr Hrest Hord, fresh_rebuild b S rand imm depth E HE Hwf Hn Hnod Hr Hrest ord Hord n mn fn d d' o). Qed.
Print Assumptions rebuild_of_fresh_data_is_idle.
(** Every row of the forums and posts marked; the auto_now column of the posts moves. *)
Example flush_of_fresh_data_ex b u :
  mk_env b (QS u) rand0 true 10 = Ok (env_of b (QS u) true) ∧ wf_schema (QS u) ∧ names_apart (QS u) ∧ no_m2m_denorm (QS u) ∧
  reads_no_clock (QS u) ∧ (∀ m, m ∈ s_models (QS u) → ¬ restless b (QS u) m) ∧ consistent (QS u) (qd b u) ∧
  (rebuildall (env_of b (QS u) true) (QS u) id_ord 2 None None (qd b u)).2 = Done ∧
  length (rebuild_marks (QS u) None None (qd b u)) = 6%nat ∧
  cellv (qd b u) "post" 1 "stamp" ≠ cellv (rebuildall (env_of b (QS u) true) (QS u) id_ord 2 None None (qd b u)).1 "post" 1 "stamp".
Proof.
  destruct (QS_savable u). split; [apply QE_ok|]. do 3 (split; [done|]). split; [apply QS_noclock|]. split; [apply QS_rest|].
  split; [apply qd_consistent|]. split; [destruct b, u; vm_compute; reflexivity|]. split; [destruct b, u; vm_compute; reflexivity|].
  destruct b, u; by vm_compute.
Qed.

(** ** C60 *)
(** DENORM_BULK_UNSAFE_TRIGGERS or not: an application that changes stored rows one by one
    through save(), creates rows whose functions need no primary key, deletes rows and
    flushes, ends with the right values after a flush. *)
Theorem bulk_unsafe_saves_are_safe b S rand imm depth E rank d d1 ord n d' :
  mk_env b S rand imm depth = Ok E → savable S rank imm → own_stored S rank →
  links_ok S d → consistent_or_marked S d → no_self_relation S d →
  rtc (orm_step E S) d d1 → flush E S ord n d1 = (d', Done) → consistent S d' ∧ d_dirty d' = [].
Proof. exact (λ HE Hsa Hos HL HC HN Hs, orm_hist_flush b S rand imm depth E HE rank Hsa Hos d d1 ord n d' Hs HL HC HN). Qed.
Print Assumptions bulk_unsafe_saves_are_safe.
Theorem bulk_unsafe_rebuild_repairs b S rand imm depth E rank d ord n d' :
  mk_env b S rand imm depth = Ok E → savable S rank imm → own_stored S rank →
  links_ok S d → no_self_relation S d →
  (∀ m k r, m ∈ s_models S → getrow d (m_table m) k = Some r → m_visible m r = true) →
  rebuildall E S ord n None None d = (d', Done) → consistent S d' ∧ d_dirty d' = [].
Proof. exact (λ HE Hsa Hos, bulk_rebuild b S rand imm depth E HE rank Hsa Hos d ord n d'). Qed.
Print Assumptions bulk_unsafe_rebuild_repairs.
(** With the setting on: saving a forum and flushing refreshes the forum below it and the
    posts in both. *)
Example bulk_unsafe_ex b :
  mk_env b (QS true) rand0 true 10 = Ok (env_of b (QS true) true) ∧ savable (QS true) q_rank true ∧ own_stored (QS true) q_rank ∧
  links_ok (QS true) (qd b true) ∧ consistent_or_marked (QS true) (qd b true) ∧ no_self_relation (QS true) (qd b true) ∧
  orm_step (env_of b (QS true) true) (QS true) (qd b true) (q_saved b true).1.1 ∧
  (flush (env_of b (QS true) true) (QS true) id_ord 10 (q_saved b true).1.1).2 = Done ∧
  cellv (q_saved b true).1.1 "post" 1 "forum_path" = Some (VText "/a/b/c/") ∧
  cellv (flush (env_of b (QS true) true) (QS true) id_ord 10 (q_saved b true).1.1).1 "post" 1 "forum_path" = Some (VText "/w/c/").
Proof.
  split; [apply QE_ok|]. split; [apply QS_savable|]. split; [apply QS_own|]. split; [apply QS_nolinks|].
  split; [apply consistent_marked, qd_consistent|]. split; [apply qd_noself|]. split.
  - eapply (os_save _ _ QForum 2 (q_row b true) (q_inst b true) _ _ (q_saved b true).1.2 (q_saved b true).2); [by left|apply q_row_ok|..].
    + apply counts_currentb_spec; destruct b; vm_compute; reflexivity.
    + apply not_self_relatedb_spec; destruct b; vm_compute; reflexivity.
    + rewrite q_saved_ok. by destruct (q_saved b true) as [[? ?] ?].
  - split; [destruct b; vm_compute; reflexivity|]. split; destruct b; vm_compute; reflexivity.
Qed.
(** Creating a forum marks nothing and leaves the right path. *)
Example bulk_unsafe_create_ex b :
  orm_step (env_of b (QS true) true) (QS true) (qd b true) (q_made b true).1.1 ∧
  cellv (q_made b true).1.1 "forum" 4 "path" = Some (VText "/a/b/c/n/") ∧ d_dirty (q_made b true).1.1 = [].
Proof.
  split; [|split; destruct b; vm_compute; reflexivity].
  eapply (os_create _ _ QForum None 4 q_new _ _ (q_made b true).2); [by left|apply q_new_free|apply q_new_noself|apply QForum_alike|apply q_made_ok].
Qed.
(** QuerySet.update() with the setting on goes unnoticed. *)
Theorem bulk_unsafe_update_refuted : ∀ b, ∃ S rank d d' o,
  mk_env b S rand0 true 10 = Ok (env_of b S true) ∧ savable S rank true ∧ own_stored S rank ∧ s_bulk_unsafe S = true ∧
  links_ok S d ∧ consistent S d ∧ no_self_relation S d ∧
  (∃ t ks g, o = OUpdate t ks g) ∧ flush (env_of b S true) S id_ord 5 (step (env_of b S true) S d o) = (d', Done) ∧ ¬ consistent S d'.
Proof.
  intros b. exists BU, (λ _, 0%nat), (bu_d b). eexists. exists (OUpdate "a" [1] (λ r, <["x" := VInt 2]> r)).
  split; [destruct b; vm_compute; reflexivity|]. split; [apply BU_savable|]. split; [apply BU_own|]. split; [done|]. split; [apply BU_nolinks|].
  split; [apply consistentb_spec; destruct b; vm_compute; reflexivity|]. split; [apply no_self_relationb_spec; destruct b; vm_compute; reflexivity|].
  split; [by eexists _, _, _|]. split; [apply flush_pair; destruct b; vm_compute; reflexivity|].
  apply (staleb_spec _ _ BuA 1 1); [by left|]. destruct b; vm_compute; reflexivity.
Qed.
Print Assumptions bulk_unsafe_update_refuted.
(** So does creating a row whose function reads the primary key. *)
Theorem bulk_unsafe_create_refuted : ∀ b, ∃ S rank d' o,
  mk_env b S rand0 true 10 = Ok (env_of b S true) ∧ savable S rank true ∧ own_stored S rank ∧ s_bulk_unsafe S = true ∧
  (∃ m r, o = OSave m None r) ∧ flush (env_of b S true) S id_ord 5 (step (env_of b S true) S d0 o) = (d', Done) ∧ ¬ consistent S d'.
Proof.
  intros b. exists (PK true), (λ _, 0%nat). eexists. exists (OSave "A" None (rowof [("x", VInt 1)])).
  split; [destruct b; vm_compute; reflexivity|]. split; [apply PK_savable|]. split; [apply PK_own|]. split; [done|].
  split; [by eexists _, _|]. split; [apply flush_pair; destruct b; vm_compute; reflexivity|].
  apply (staleb_spec _ _ PkA 1 1); [by left|]. destruct b; vm_compute; reflexivity.
Qed.
Print Assumptions bulk_unsafe_create_refuted.
