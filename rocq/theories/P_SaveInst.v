(** * Claims on what a saved instance shows (C119). *)
From Verif Require Import Base BaseLemmas Schema TrigSet Gen Exec Orm Flush Machine Spec SpecAgg SpecOrder SpecSave GenLemmas Conditions Settle Hist Agg AggProps Check ExForum ExBad ExRich ExAgg CheckOrder ExTree CheckSave ExSave ExModes ExLimits Inherit ExInherit SaveInst.
Open Scope list_scope.

(** [save E m pk r d = Ok (d', k, r')]: the row was stored under the key [k] and [r'] is what
    the attributes of the instance show.  Ordinary and callback columns always agree. *)
Theorem saved_instance_shows_columns b S rand imm depth E m pk r d d' k r' : wf_schema S → mk_env b S rand imm depth = Ok E → m ∈ s_models S →
  save E m pk r d = Ok (d', k, r') → ∃ s, getrow d' (m_table m) k = Some s ∧ ∀ c, column_of m c → col s c = col r' c.
Proof. exact (save_shows b S rand imm depth E m pk r d (d', k, r')). Qed.
Print Assumptions saved_instance_shows_columns.
(** Counts and sums over other tables agree as well. *)
Theorem saved_instance_shows_aggregates b S rand imm depth E m f a rel pk r d d' k r' v : wf_schema S → names_apart S → mk_env b S rand imm depth = Ok E →
  agg_field S m f a rel → m_table rel ≠ m_table m → save E m pk r d = Ok (d', k, r') → col r' (f_col f) = VInt v →
  ∃ s, getrow d' (m_table m) k = Some s ∧ col s (f_col f) = VInt v.
Proof. exact (save_shows_agg b S rand imm depth E m f a rel pk r d (d', k, r') v). Qed.
Print Assumptions saved_instance_shows_aggregates.
(** If no chain of trigger updates leads from a table back to itself, the instance is the row. *)
Theorem saved_instance_is_row b S rand imm depth E rank m pk r d d' k r' : wf_schema S → names_apart S → upd_acyclic S rank → mk_env b S rand imm depth = Ok E →
  m ∈ s_models S → save E m pk r d = Ok (d', k, r') → getrow d' (m_table m) k = Some r'.
Proof. exact (save_shows_all b S rand imm depth E rank m pk r d (d', k, r')). Qed.
Print Assumptions saved_instance_is_row.
(** A stale instance of a forum that has posts and tags. *)
Definition si_row : row := rowof [("title", VText "new"); ("post_count", VInt 99); ("score_sum", VInt 99); ("total", VInt 99); ("ck", VInt 99)].
Definition si_x (b : backend) : db * Z * row := ok_save (save (RE b) RForum (Some 1) si_row (rd1 b)).
Example saved_instance_ex b : wf_schema RS ∧ names_apart RS ∧ upd_acyclic RS rrank ∧ mk_env b RS rand0 true 10 = Ok (RE b) ∧
  RForum ∈ s_models RS ∧ agg_field RS RForum f_count (Agg "Post" "forum_id" [] [] None []) RPost ∧ m_table RPost ≠ m_table RForum ∧
  save (RE b) RForum (Some 1) si_row (rd1 b) = Ok (si_x b) ∧ col (si_x b).2 "post_count" = VInt 2 ∧ col (si_x b).2 "title" = VText "new".
Proof.
  split; [apply RS_wf|]. split; [apply RS_flushable|]. split; [apply RS_flushable|]. split; [apply RE_ok|]. split; [set_solver|].
  split; [apply agg_fieldb_spec; [inl|inl|done|done|by vm_compute]|]. split; [done|].
  split; [apply ok_save_ok; destruct b; vm_compute; reflexivity|]. destruct b; vm_compute; split; reflexivity.
Qed.

(** Refuted in general: a node that is made its own parent counts itself, and a cache key that
    depends on the row itself is drawn again by the trigger (on SQLite; the other databases
    reject both statements or recurse for ever). *)
Definition si_node : model := mkmodel "Node" "node" 20 [fkf "parent" "Node" "Node"; ckf "ck" "Node" [Dep "Node" (RelForward "parent_id") []]] [].
Definition SI : schema := Schema [si_node] false.
Definition si_d : db := ok_db (run_op (env_of SQLite SI true) SI (OInsert "node" [(1, rowof [("parent_id", VInt 1); ("ck", VInt 0)])]) d0).
Definition sc_d1 : db := ok_db (run_op (env_of SQLite SC true) SC (OInsert "node" [(1, sc_row VNull)]) d0).
Definition sc_x : db * Z * row := ok_save (save (env_of SQLite SC true) sc_node (Some 1) (sc_row (VInt 1)) sc_d1).
Definition si_r : row := rowof [("parent_id", VInt 1); ("ck", VInt 0)].
Definition sk_x : db * Z * row := ok_save (save (env_of SQLite SI true) si_node (Some 1) si_r si_d).
Definition differs (x : db * Z * row) (m : model) (c : string) : bool :=
  match getrow x.1.1 (m_table m) x.1.2 with Some s => negb (bool_decide (col s c = col x.2 c)) | None => false end.
Theorem saved_instance_shows_row_refuted :
  (∃ S m f a r d d' k r' s, wf_schema S ∧ names_apart S ∧ agg_field S m f a m ∧ save (env_of SQLite S true) m (Some k) r d = Ok (d', k, r') ∧
    getrow d' (m_table m) k = Some s ∧ col s (f_col f) ≠ col r' (f_col f)) ∧
  (∃ S m f ds r d d' k r' s, wf_schema S ∧ names_apart S ∧ f ∈ m_fields m ∧ f_kind f = KCacheKey ds ∧ save (env_of SQLite S true) m (Some k) r d = Ok (d', k, r') ∧
    getrow d' (m_table m) k = Some s ∧ col s (f_col f) ≠ col r' (f_col f)).
Proof.
  assert (D : ∀ x m c, differs x m c = true → ∃ s, getrow x.1.1 (m_table m) x.1.2 = Some s ∧ col s c ≠ col x.2 c).
  { intros x m c H. unfold differs in H. destruct (getrow _ _ _) as [s|]; [|done]. exists s. split; [done|]. intros Hc. rewrite bool_decide_eq_true_2 in H; done. }
  assert (C : ∀ (x : res (db * Z * row)) y, x = Ok y → y.1.2 = 1 → x = Ok (y.1.1, 1, y.2)) by (intros x [[? ?] ?] ? ?; simpl in *; congruence).
  split.
  - assert (HA : agg_field SC sc_node (aggf "kids" "Node" (Agg "Node" "parent_id" [] [] None [])) (Agg "Node" "parent_id" [] [] None []) sc_node).
    { apply agg_fieldb_spec; [inl|inl|done|done|by vm_compute]. }
    assert (Hb : okb (save (env_of SQLite SC true) sc_node (Some 1) (sc_row (VInt 1)) sc_d1) = true) by (vm_compute; reflexivity).
    assert (Hd : differs sc_x sc_node "kids" = true) by (vm_compute; reflexivity).
    assert (Hk : sc_x.1.2 = 1) by (vm_compute; reflexivity).
    destruct (D _ _ _ Hd) as (s & Hs & Hc). rewrite Hk in Hs.
    exists SC, sc_node, (aggf "kids" "Node" (Agg "Node" "parent_id" [] [] None [])), (Agg "Node" "parent_id" [] [] None []), (sc_row (VInt 1)), sc_d1, sc_x.1.1, 1, sc_x.2, s.
    split; [apply wf_schemab_spec; vm_compute; reflexivity|]. split; [apply names_apartb_spec; vm_compute; reflexivity|].
    split; [exact HA|].
    split; [exact (C _ _ (ok_save_ok _ Hb) Hk)|]. split; [exact Hs|exact Hc].
  - assert (HI : ckf "ck" "Node" [Dep "Node" (RelForward "parent_id") []] ∈ m_fields si_node) by inl.
    assert (Hb : okb (save (env_of SQLite SI true) si_node (Some 1) si_r si_d) = true) by (vm_compute; reflexivity).
    assert (Hd : differs sk_x si_node "ck" = true) by (vm_compute; reflexivity).
    assert (Hk : sk_x.1.2 = 1) by (vm_compute; reflexivity).
    destruct (D _ _ _ Hd) as (s & Hs & Hc). rewrite Hk in Hs.
    exists SI, si_node, (ckf "ck" "Node" [Dep "Node" (RelForward "parent_id") []]), [Dep "Node" (RelForward "parent_id") []], si_r, si_d, sk_x.1.1, 1, sk_x.2, s.
    split; [apply wf_schemab_spec; vm_compute; reflexivity|]. split; [apply names_apartb_spec; vm_compute; reflexivity|].
    split; [exact HI|]. split; [reflexivity|].
    split; [exact (C _ _ (ok_save_ok _ Hb) Hk)|]. split; [exact Hs|exact Hc].
Qed.
Print Assumptions saved_instance_shows_row_refuted.
