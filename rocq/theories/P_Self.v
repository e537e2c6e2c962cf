(** * Aggregates over the rows of the same model (C71) and nested triggers (C72). *)
From Verif Require Import Base BaseLemmas Schema TrigSet Gen Exec Orm Flush Spec SpecAgg GenLemmas Hist Conditions AggOps AggSelf Nest Check ExForum ExRich ExBad ExAgg P_Agg.

(** False of the code: a statement that is fine without the field fails with it. *)
Definition SNode : model := mkmodel "Node" "node" 50 [fkf "parent" "Node" "Node"; plain "kids" "Node"] [].
Definition SS : schema := Schema [SNode] false.
Definition succeeds {A} (r : res A) : bool := match r with Ok _ => true | Err _ => false end.
Theorem self_count_works_refuted : ∃ m f a (k : Z) r, (∀ b, wf_schema TS ∧ names_apart TS ∧ agg_field TS m f a m ∧ clean_op m f (OInsert (m_table m) [(k, r)]) ∧
    succeeds (run_op (env_of b SS true) SS (OInsert (m_table m) [(k, r)]) d0) = true) ∧
  run_op (env_of MySQL TS true) TS (OInsert (m_table m) [(k, r)]) d0 = Err ETableInUse ∧
  run_op (env_of Postgres TS true) TS (OInsert (m_table m) [(k, r)]) d0 = Err EDepth.
Proof.
  exists TNode, t_kids, (Agg "Node" "parent_id" [] [] None []), 1, (node (VInt 1)). split; [|split; vm_compute; reflexivity].
  intros b. split; [apply wf_schemab_spec; by vm_compute|]. split; [apply names_apartb_spec; by vm_compute|].
  split; [apply agg_fieldb_spec; [inl|inl|done|done|by vm_compute]|]. split; [|destruct b; vm_compute; reflexivity].
  intros _ k r Hin. by apply elem_of_list_singleton in Hin as [= -> ->].
Qed.
Print Assumptions self_count_works_refuted.

(** MySQL: whatever the rows are, none can be inserted, saved or deleted. *)
Theorem self_aggregate_mysql_insert S rand imm depth E m f a d k r rows d' :
  wf_schema S → names_apart S → mk_env MySQL S rand imm depth = Ok E → agg_field S m f a m →
  run_op E S (OInsert (m_table m) ((k, r) :: rows)) d ≠ Ok d'.
Proof. exact (λ Hwf Hna HE Haf, self_mysql_insert S rand imm depth E Hwf Hna HE m f a Haf d k r rows d'). Qed.
Print Assumptions self_aggregate_mysql_insert.
Theorem self_aggregate_mysql_save S rand imm depth E m f a d r p :
  wf_schema S → names_apart S → mk_env MySQL S rand imm depth = Ok E → agg_field S m f a m → save E m None r d ≠ Ok p.
Proof. exact (λ Hwf Hna HE Haf, self_mysql_save S rand imm depth E Hwf Hna HE m f a Haf d r p). Qed.
Print Assumptions self_aggregate_mysql_save.
Theorem self_aggregate_mysql_delete S rand imm depth E m f a d k o d' :
  wf_schema S → names_apart S → mk_env MySQL S rand imm depth = Ok E → agg_field S m f a m →
  getrow d (m_table m) k = Some o → run_op E S (ODelete (m_table m) [k]) d ≠ Ok d'.
Proof. exact (λ Hwf Hna HE Haf, self_mysql_delete S rand imm depth E Hwf Hna HE m f a Haf d k o d'). Qed.
Print Assumptions self_aggregate_mysql_delete.
(** PostgreSQL: no stack is large enough ([depth] is arbitrary) for a statement that closes
    a cycle, unless the count is excluded from the conditions of the triggers by skip. *)
Theorem self_count_cycle_insert S rand imm depth E m f a C d k r d' :
  wf_schema S → names_apart S → mk_env Postgres S rand imm depth = Ok E → agg_field S m f a m → ag_sum a = None → tracked S m (f_col f) →
  closed_refs m a C (put_row d (m_table m) k r) → k ∈ C → run_op E S (OInsert (m_table m) [(k, r)]) d ≠ Ok d'.
Proof. exact (λ Hwf Hna HE Haf, self_pg_insert S rand imm depth E Hwf Hna HE m f a Haf C d k r d'). Qed.
Print Assumptions self_count_cycle_insert.
Theorem self_count_cycle_update S rand imm depth E m f a C d k o g d' :
  wf_schema S → names_apart S → mk_env Postgres S rand imm depth = Ok E → agg_field S m f a m → ag_sum a = None → tracked S m (f_col f) →
  getrow d (m_table m) k = Some o → closed_refs m a C (put_row d (m_table m) k (g o)) → k ∈ C → col (g o) (ag_fk a) ≠ col o (ag_fk a) →
  run_op E S (OUpdate (m_table m) [k] g) d ≠ Ok d'.
Proof. exact (λ Hwf Hna HE Haf, self_pg_update S rand imm depth E Hwf Hna HE m f a Haf C d k o g d'). Qed.
Print Assumptions self_count_cycle_update.
(** Nodes 1 and 2, where 2 is below 1, and 1 is moved below 2. *)
Definition sdb : db := foldl (hstep (env_of Postgres TS true) TS) d0 [HOp (OInsert "node" [(1, node VNull); (2, node (VInt 1))])].
Definition to2 (r : row) : row := <["parent_id" := VInt 2]> r.
Example self_cycle_ex :
  (∀ depth, ∃ E, mk_env Postgres TS rand0 true depth = Ok E) ∧ (∃ E, mk_env MySQL TS rand0 true 10 = Ok E) ∧
  tracked TS TNode "kids" ∧ (∃ o, getrow sdb "node" 1 = Some o ∧ col o "parent_id" = VNull ∧
    closed_refs TNode (Agg "Node" "parent_id" [] [] None []) {[1; 2]} (put_row sdb "node" 1 (to2 o))).
Proof.
  split; [intros depth; eexists; vm_compute; reflexivity|]. split; [eexists; vm_compute; reflexivity|].
  split; [apply trackedb_spec; by vm_compute|].
  assert (H1 : cellv sdb "node" 1 "parent_id" = Some VNull) by (vm_compute; reflexivity).
  assert (H2 : cellv sdb "node" 2 "parent_id" = Some (VInt 1)) by (vm_compute; reflexivity).
  revert H1 H2. generalize sdb. unfold cellv. intros d H1 H2.
  destruct (getrow d "node" 1) as [o|] eqn:Ho; [|done]. destruct (getrow d "node" 2) as [o2|] eqn:Ho2; [|done].
  exists o. split; [done|]. split; [by injection H1|]. intros k Hk. apply elem_of_union in Hk as [->%elem_of_singleton| ->%elem_of_singleton].
  - exists (to2 o), 2. rewrite getrow_put, decide_True by done. split; [done|]. split; [by split; [apply Forall_nil|left]|]. split; [set_solver|]. unfold to2. by rewrite col_insert_eq.
  - exists o2, 1. rewrite getrow_put, decide_False by (by intros []). split; [done|]. split; [by split; [apply Forall_nil|left]|]. split; [set_solver|]. by injection H2.
Qed.

(** ** C72 *)
(** No step of any history fails for the nesting of triggers, from any database, if the
    immediate updates of aggregates and cache keys lead from table to table without a cycle:
    as many levels as ranks are enough. *)
Theorem nested_triggers_end b S rand imm depth E rank h d e :
  wf_schema S → names_apart S → mk_env b S rand imm depth = Ok E →
  upd_acyclic S rank → (∀ t, (rank t < depth)%nat) → calm_nest S →
  step_error E S h d = Some e → e ≠ EDepth ∧ e ≠ ETableInUse.
Proof. exact (no_nest_errors b S rand imm depth E rank h d e). Qed.
Print Assumptions nested_triggers_end.
(** Two levels are enough for ExRich.v; one is not. *)
Lemma RS_calm_nest : calm_nest RS.
Proof.
  intros m e Hm He. split; [|intros mm fn ds Hmm Hd; models Hm; simpl in Hmm; in_cases Hmm; discriminate Hd].
  intros f fn ds sk Hf Hk d pk r Hfn.
  destruct (RS_cbs _ _ _ _ _ Hm Hf Hk) as [(_ & _ & -> & _)|[(_ & _ & -> & _)|[(_ & _ & -> & _)|[(_ & _ & -> & _)|(_ & _ & -> & _)]]]].
  - unfold cb_total in Hfn. by destruct pk.
  - unfold cb_forum_title in Hfn. repeat case_match; try done. injection Hfn as <-. by destruct He.
  - unfold cb_tag_weight in Hfn. by destruct pk.
  - unfold cb_rating in Hfn. by repeat case_match.
  - unfold cb_bookmarks in Hfn. by destruct pk.
Qed.
Definition env_depth (b : backend) (n : nat) : env := match mk_env b RS rand0 true n with Ok E => E | Err _ => RE b end.
Lemma env_depth_ok b n : match mk_env b RS rand0 true n with Ok _ => true | Err _ => false end = true → mk_env b RS rand0 true n = Ok (env_depth b n).
Proof. unfold env_depth. by destruct (mk_env b RS rand0 true n). Qed.
Example nested_triggers_ex b : wf_schema RS ∧ names_apart RS ∧ mk_env b RS rand0 true 2 = Ok (env_depth b 2) ∧
  upd_acyclic RS rrank ∧ (∀ t, (rrank t < 2)%nat) ∧ calm_nest RS ∧
  step_error (env_depth b 2) RS (HOp (OUpdate "post" [8] (λ r, <["forum_id" := VInt 2]> r))) (rd1 b) = None ∧
  step_error (env_depth b 1) RS (HOp (OUpdate "post" [8] (λ r, <["forum_id" := VInt 2]> r))) (rd1 b) = Some EDepth.
Proof.
  split; [apply RS_wf|]. split; [apply RS_flushable|]. split; [apply env_depth_ok; destruct b; vm_compute; reflexivity|]. split; [apply RS_flushable|].
  split; [intros t; unfold rrank; case_decide; lia|]. split; [apply RS_calm_nest|]. destruct b; vm_compute; split; reflexivity.
Qed.
