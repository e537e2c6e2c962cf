(** * Claims on bulk_create() (C88). *)
From Verif Require Import Base BaseLemmas Schema TrigSet Gen Exec Orm Flush Spec SpecAgg SpecOrder SpecSave Check ExForum ExBad ExAgg CheckOrder ExTree CheckSave ExSave ExModes BulkCreate BulkPg ExBulk ExRace.

(** A batch is one INSERT of rows whose fields were prepared before any row of the batch was
    stored. *)
Theorem bulk_batch_is_insert E S m objs d d' : bulk_batch E m objs d = Ok d' → ∃ rows d1,
  d_tabs d1 = d_tabs d ∧ d_dirty d1 = d_dirty d ∧ run_op E S (OInsert (m_table m) rows) d1 = Ok d' ∧
  ∀ k r, (k, r) ∈ rows → ∃ o d2 q, o ∈ objs ∧ d_tabs d2 = d_tabs d ∧ presave_all E m true o.1 d2 o.2 = Ok q ∧ r = q.2.
Proof. exact (bulk_batch_op E S m objs d d'). Qed.
Print Assumptions bulk_batch_is_insert.
Example bulk_batch_is_insert_ex b : okb (bulk_batch (QB b) QForum (hd [] bq_objs) (qd b false)) = true.
Proof. destruct b; vm_compute; reflexivity. Qed.

(** Whatever happens to a batch: a field of an object raises, or the batch ends as the INSERT of one
    row for every object does, in their order.  Objects keep the keys they have; if none has one,
    the keys are new and different. *)
Theorem bulk_batch_outcome E S m objs d :
  (∃ e o d2, o ∈ objs ∧ d_tabs d2 = d_tabs d ∧ presave_all E m true o.1 d2 o.2 = Err e ∧ bulk_batch E m objs d = Err e) ∨
  ∃ rows d1, d_tabs d1 = d_tabs d ∧ d_dirty d1 = d_dirty d ∧ bulk_batch E m objs d = run_op E S (OInsert (m_table m) rows) d1 ∧
    Forall2 (λ o kr, (∀ k, o.1 = Some k → kr.1 = k) ∧ ∃ d2 q, d_tabs d2 = d_tabs d ∧ presave_all E m true o.1 d2 o.2 = Ok q ∧ kr.2 = q.2) objs rows ∧
    ((∀ o, o ∈ objs → o.1 = None) → NoDup rows.*1 ∧ ∀ k, k ∈ rows.*1 → getrow d (m_table m) k = None).
Proof. exact (bulk_batch_total E S m objs d). Qed.
Print Assumptions bulk_batch_outcome.

(** Callback fields: the next flush puts everything right. *)
Theorem bulk_create_then_flush b S rand imm depth E rank m bs d d1 ord n d' :
  mk_env b S rand imm depth = Ok E → flushable S rank imm → links_ok S d → consistent_or_marked S d →
  bulk_create E m bs d = Ok d1 → no_self_relation S d1 → flush E S ord n d1 = (d', Done) →
  consistent S d' ∧ d_dirty d' = [].
Proof. exact (λ HE Hfl, bulk_create_flush b S rand imm depth E rank HE Hfl m bs d d1 ord n d'). Qed.
Print Assumptions bulk_create_then_flush.
Example bulk_create_then_flush_ex b : mk_env b (BN false) rand0 true 10 = Ok (BE b false) ∧ flushable (BN false) (λ _, 0%nat) true ∧
  bulk_create (BE b false) BNode bn_objs d0 = Ok (bn_d b false) ∧ (flush (BE b false) (BN false) id_ord 5 (bn_d b false)).2 = Done ∧
  cellv (bn_d b false) "node" 2 "path" = Some (VText "/b/") ∧
  cellv (flush (BE b false) (BN false) id_ord 5 (bn_d b false)).1 "node" 2 "path" = Some (VText "/a/b/").
Proof.
  split; [apply BE_ok|]. split; [apply BN_flushable|]. split; [apply bn_ok|]. destruct b; vm_compute; repeat split; reflexivity.
Qed.

(** Aggregates are exact at once, both those of the new rows and those that count the new
    rows, whatever values the objects had. *)
Theorem bulk_create_keeps_aggregates b S rand depth E m f a rel m' bs d d' :
  wf_schema S → names_apart S → mk_env b S rand true depth = Ok E → agg_field S m f a rel → m' ∈ s_models S →
  bulk_create E m' bs d = Ok d' → fk_valid m a rel d → agg_exact m f a rel d → fk_valid m a rel d' ∧ agg_exact m f a rel d'.
Proof. exact (λ Hwf Hna HE, bulk_create_exact b S rand depth E Hwf Hna HE m f a rel m' bs d d'). Qed.
Print Assumptions bulk_create_keeps_aggregates.
Example bulk_create_keeps_aggregates_ex b : bulk_create (QB b) QForum bq_objs (qd b false) = Ok (bq_d b) ∧ bulk_create (QB b) QPost bp_objs (bq_d b) = Ok (bp_d b) ∧
  agg_field (QS false) QForum q_cf q_count QPost ∧ agg_exact QForum q_cf q_count QPost (qd b false) ∧
  cellv (bq_d b) "forum" 11 "post_count" = Some (VInt 0) ∧ cellv (qd b false) "forum" 2 "post_count" = Some (VInt 2) ∧ cellv (bp_d b) "forum" 2 "post_count" = Some (VInt 4).
Proof.
  split; [exact (bq_ok b)|]. split; [exact (bp_ok b)|]. split; [exact (QS_count false)|]. split; [rewrite <- q_start_db; exact (q_start_exact b)|]. destruct b; vm_compute; repeat split; reflexivity.
Qed.

(** "The function is used every time the model gets saved" (fields.py:10-11): the value of a row
    made by bulk_create() may be wrong until the next flush ... *)
Theorem created_row_is_fresh_refuted : ∀ b, ∃ S rank m bs d' k r f,
  mk_env b S rand0 true 10 = Ok (env_of b S true) ∧ savable S rank true ∧ m ∈ s_models S ∧ f ∈ m_fields m ∧
  bulk_create (env_of b S true) m bs d0 = Ok d' ∧ getrow d' (m_table m) k = Some r ∧ ¬ row_consistent m d' k r f.
Proof.
  intros b. exists (BN false), (λ _, 0%nat), BNode, bn_objs, (bn_d b false), 2, (bn_row b false), bn_f.
  split; [exact (BE_ok b false)|]. split; [apply BN_savable|]. split; [by left|]. split; [do 2 right; by left|]. split; [exact (bn_ok b false)|].
  split; [exact (bn_row_ok b false)|exact (bn_stale b false)].
Qed.
Print Assumptions created_row_is_fresh_refuted.
(** ... and with DENORM_BULK_UNSAFE_TRIGGERS for good, on SQLite and MySQL, where the trigger of
    the first row runs before the second one is stored. *)
Theorem bulk_unsafe_bulk_create_refuted : ∀ b, b ≠ Postgres → ∃ S rank m bs d',
  mk_env b S rand0 true 10 = Ok (env_of b S true) ∧ savable S rank true ∧ m ∈ s_models S ∧
  bulk_create (env_of b S true) m bs d0 = Ok d' ∧ d_dirty d' = [] ∧ ¬ consistent_or_marked S d'.
Proof.
  intros b Hb. exists (BN true), (λ _, 0%nat), BNode, bn_objs, (bn_d b true).
  split; [exact (BE_ok b true)|]. split; [apply BN_savable|]. split; [by left|]. split; [exact (bn_ok b true)|]. split; [by apply bn_unmarked|by apply bn_lost].
Qed.
Print Assumptions bulk_unsafe_bulk_create_refuted.

(** On PostgreSQL the next flush puts everything right with that setting too, if the functions
    need no primary key when the rows are prepared ([key_alike], at every batch) ... *)
Theorem bulk_unsafe_bulk_create_postgres S rand imm depth E rank m bs d d1 ord n d' :
  mk_env Postgres S rand imm depth = Ok E → savable S rank imm → own_stored S rank → m ∈ s_models S →
  links_ok S d → consistent_or_marked S d →
  (∀ bs1 bs2 d2 k, bs = bs1 ++ bs2 → bulk_create E m bs1 d = Ok d2 → getrow d2 (m_table m) k = None → key_alike m d2 None k) →
  bulk_create E m bs d = Ok d1 → no_self_relation S d1 →
  consistent_or_marked S d1 ∧ (flush E S ord n d1 = (d', Done) → consistent S d' ∧ d_dirty d' = []).
Proof. exact (pg_bulk_flush S rand imm depth E rank m bs d d1 ord n d'). Qed.
Print Assumptions bulk_unsafe_bulk_create_postgres.
Example bulk_unsafe_bulk_create_postgres_ex : mk_env Postgres (BN true) rand0 true 10 = Ok (BE Postgres true) ∧
  savable (BN true) (λ _, 0%nat) true ∧ own_stored (BN true) (λ _, 0%nat) ∧ s_bulk_unsafe (BN true) = true ∧ BNode ∈ s_models (BN true) ∧
  (∀ d k, key_alike BNode d None k) ∧ bulk_create (BE Postgres true) BNode bn_objs d0 = Ok (bn_d Postgres true) ∧
  no_self_relation (BN true) (bn_d Postgres true) ∧
  cellv (bn_d Postgres true) "node" 2 "path" = Some (VText "/b/") ∧ d_dirty (bn_d Postgres true) = [marker_of BNode 2] ∧
  (flush (BE Postgres true) (BN true) id_ord 5 (bn_d Postgres true)).2 = Done ∧
  cellv (flush (BE Postgres true) (BN true) id_ord 5 (bn_d Postgres true)).1 "node" 2 "path" = Some (VText "/a/b/").
Proof.
  split; [apply BE_ok|]. split; [apply BN_savable|]. split; [apply BN_own|]. split; [done|]. split; [by left|]. split; [intros; apply BNode_alike|].
  split; [apply bn_ok|]. split; [apply no_self_relationb_spec; vm_compute; reflexivity|]. vm_compute; repeat split; reflexivity.
Qed.
(** ... and on the other backends if they depend on no rows of their own table. *)
Theorem bulk_unsafe_bulk_create_other_rows b S rand imm depth E rank m bs d d1 ord n d' :
  b ≠ Postgres → mk_env b S rand imm depth = Ok E → savable S rank imm → own_stored S rank → m ∈ s_models S → no_own_table m →
  links_ok S d → consistent_or_marked S d → no_self_relation S d →
  (∀ bs1 bs2 d2 k, bs = bs1 ++ bs2 → bulk_create E m bs1 d = Ok d2 → getrow d2 (m_table m) k = None → key_alike m d2 None k) →
  bulk_create E m bs d = Ok d1 →
  consistent_or_marked S d1 ∧ (flush E S ord n d1 = (d', Done) → consistent S d' ∧ d_dirty d' = []).
Proof. exact (seq_bulk_flush b S rand imm depth E rank m bs d d1 ord n d'). Qed.
Print Assumptions bulk_unsafe_bulk_create_other_rows.
Example bulk_unsafe_bulk_create_other_rows_ex b : mk_env b (QS true) rand0 true 10 = Ok (env_of b (QS true) true) ∧
  savable (QS true) q_rank true ∧ own_stored (QS true) q_rank ∧ QPost ∈ s_models (QS true) ∧ no_own_table QPost ∧
  links_ok (QS true) (qd b true) ∧ consistent_or_marked (QS true) (qd b true) ∧ no_self_relation (QS true) (qd b true) ∧
  (∀ d k, key_alike QPost d None k) ∧ bulk_create (env_of b (QS true) true) QPost bu_objs (qd b true) = Ok (bup_d b) ∧
  cellv (bup_d b) "post" 4 "forum_path" = Some (VText "/a/b/c/") ∧ cellv (bup_d b) "post" 20 "forum_path" = Some (VText "/a/") ∧
  cellv (bup_d b) "forum" 3 "post_count" = Some (VInt 2).
Proof.
  split; [apply QE_ok|]. split; [apply QS_savable|]. split; [apply QS_own|]. split; [right; by left|].
  split.
  { intros f fn ds sk dp Hf Hk Hdp. simpl in Hf. (repeat (apply elem_of_cons in Hf as [->|Hf]); [..|by apply elem_of_nil in Hf]); simpl in Hk; try discriminate Hk;
      injection Hk as <- <- <-; [apply elem_of_list_singleton in Hdp as ->; by vm_compute|by apply elem_of_nil in Hdp]. }
  split; [apply QS_nolinks|]. split; [apply consistent_marked, qd_consistent|]. split; [apply qd_noself|]. split; [intros; apply QPost_alike|].
  split; [apply bup_ok|]. split; [destruct b; vm_compute; reflexivity|]. split; destruct b; vm_compute; reflexivity.
Qed.

(** Unlike save() (C16), bulk_create() takes objects with a key of their own in models with
    aggregates. *)
Theorem preset_key_bulk_create b : ∃ r d', bulk_create (QB b) QForum [[(Some 11, r)]] (qd b false) = Ok d' ∧
  save (QB b) QForum (Some 11) r (qd b false) = Err EIndex.
Proof. exact (preset_bulk b). Qed.
Print Assumptions preset_key_bulk_create.

(** Django refuses models that have the table of a parent. *)
Theorem bulk_create_refuses_children E m bs d f : m_proxy m = false → f ∈ m_fields m → f_owner f ≠ m_name m → bulk_create E m bs d = Err EValue.
Proof. exact (bulk_refused E m bs d f). Qed.
Print Assumptions bulk_create_refuses_children.
Example bulk_create_refuses_children_ex b : bulk_create (QB b) (mkmodel "Child" "child" 40 [plain "x" "Base"] []) [] (qd b false) = Err EValue.
Proof. reflexivity. Qed.
