(** * Cases of bulk_create(). *)
From Verif Require Import Base BaseLemmas Schema TrigSet Gen Exec Orm Flush Spec SpecAgg SpecOrder SpecSave Check ExForum ExBad ExAgg CheckOrder ExTree CheckSave ExSave ExModes BulkCreate.

(** The path of a row whose parent does not exist (yet) is that of a root. *)
Definition cb_path0 : callback := λ d _ r,
  match col r "title" with
  | VText s =>
    match col r "parent_id" with
    | VInt j => match getrow d "node" j with
                | Some p => match col p "path" with VText q => Ok (PVal (VText (q +:+ s +:+ "/"))) | _ => Err (EUser 1) end
                | None => Ok (PVal (VText ("/" +:+ s +:+ "/"))) end
    | _ => Ok (PVal (VText ("/" +:+ s +:+ "/")))
    end
  | _ => Ok (PVal VNull)
  end.
Definition t_node : dep := Dep "Node" (RelForward "parent_id") [].
Definition BNode : model := mkmodel "Node" "node" 30
  [ plain "title" "Node"; fkf "parent" "Node" "Node"; cbf "path" "Node" cb_path0 [t_node] [] ] [].
Definition BN (u : bool) : schema := Schema [BNode] u.
Definition bn_rds (m : model) (f : field) : reads := Reads ["title"; "parent_id"] [(t_node, ["path"])].
Lemma BN_reads u : reads_all (BN u) bn_rds.
Proof.
  intros m f fn ds sk Hm Hf Hk. simpl in Hm.
  repeat (apply elem_of_cons in Hm as [->|Hm]); [..|by apply elem_of_nil in Hm]; simpl in Hf;
  (repeat (apply elem_of_cons in Hf as [->|Hf]); [..|by apply elem_of_nil in Hf]); simpl in Hk; try discriminate Hk; injection Hk as <- <- <-.
  intros d d' k r r' Ho Hv. specialize (Hv _ _ (elem_of_list_here _ _)). unfold dep_view in Hv. simpl in Hv.
  unfold cb_path0. rewrite (Ho "title"), (Ho "parent_id") in * by (simpl; set_solver).
  destruct (col r' "title"); try done. destruct (col r' "parent_id") as [|j|]; [done| |done]. injection Hv as Hv.
  destruct (getrow d "node" j), (getrow d' "node" j); try done. simpl in Hv. injection Hv as Hv. by rewrite Hv.
Qed.
Lemma BN_truthy u : all_truthy (BN u).
Proof. intros m r Hm. simpl in Hm. by apply elem_of_list_singleton in Hm as ->. Qed.
Lemma BN_savable u : savable (BN u) (λ _, 0%nat) true.
Proof. apply (savableb_spec _ _ _ bn_rds); [destruct u; by vm_compute|apply BN_truthy|apply BN_reads]. Qed.
Lemma BN_flushable : flushable (BN false) (λ _, 0%nat) true.
Proof. apply (flushableb_spec _ _ _ bn_rds); [by vm_compute|apply BN_truthy|apply BN_reads]. Qed.
Definition BE (b : backend) (u : bool) : env := env_of b (BN u) true.
Lemma BE_ok b u : mk_env b (BN u) rand0 true 10 = Ok (BE b u).
Proof. destruct b, u; vm_compute; reflexivity. Qed.
(** A node and its child in one batch. *)
Definition bn_objs : list (list (option Z * row)) :=
  [[ (Some 1, rowof [("title", VText "a"); ("parent_id", VNull)]); (Some 2, rowof [("title", VText "b"); ("parent_id", VInt 1)]) ]].
Definition bn_d (b : backend) (u : bool) : db := ok_db (bulk_create (BE b u) BNode bn_objs d0).
Lemma bn_ok b u : bulk_create (BE b u) BNode bn_objs d0 = Ok (bn_d b u).
Proof. apply ok_db_ok. destruct b, u; vm_compute; reflexivity. Qed.
Definition bn_row (b : backend) (u : bool) : row := default ∅ (getrow (bn_d b u) "node" 2).
Lemma bn_row_ok b u : getrow (bn_d b u) (m_table BNode) 2 = Some (bn_row b u).
Proof.
  assert (H : match getrow (bn_d b u) "node" 2 with Some _ => true | None => false end = true) by (destruct b, u; vm_compute; reflexivity).
  change (m_table BNode) with "node". unfold bn_row. by destruct (getrow (bn_d b u) "node" 2).
Qed.
Definition bn_f : field := cbf "path" "Node" cb_path0 [t_node] [].
Lemma bn_stale b u : ¬ row_consistent BNode (bn_d b u) 2 (bn_row b u) bn_f.
Proof. apply staleb3_spec. destruct b, u; vm_compute; reflexivity. Qed.
(** PostgreSQL runs the row triggers after the whole statement: the trigger of node 1 then finds
    node 2. *)
Lemma bn_unmarked b : b ≠ Postgres → d_dirty (bn_d b true) = [].
Proof. intros Hb. destruct b; [|done|]; vm_compute; reflexivity. Qed.
Lemma bn_lost b : b ≠ Postgres → ¬ consistent_or_marked (BN true) (bn_d b true).
Proof.
  intros Hb H. destruct (H BNode 2 (bn_row b true)) as [Hm|Hc]; [by left|exact (bn_row_ok b true)| |].
  - rewrite bn_unmarked in Hm by done. by apply elem_of_nil in Hm.
  - apply (bn_stale b true). apply Hc. do 2 right. by left.
Qed.
Lemma BN_own u : own_stored (BN u) (λ _, 0%nat).
Proof. apply (own_storedb_spec _ _ true bn_rds); [destruct u; by vm_compute|apply BN_reads]. Qed.
Lemma BNode_alike d pk k : key_alike BNode d pk k.
Proof.
  intros f fn ds sk d' r Hf Hk _. simpl in Hf.
  (repeat (apply elem_of_cons in Hf as [->|Hf]); [..|by apply elem_of_nil in Hf]); simpl in Hk; try discriminate Hk; by injection Hk as <- <- <-.
Qed.
(** Posts in two batches, with DENORM_BULK_UNSAFE_TRIGGERS. *)
Definition bu_objs : list (list (option Z * row)) :=
  [[ (None, rowof [("forum_id", VInt 3); ("text", VText "p")]); (Some 20, rowof [("forum_id", VInt 1); ("text", VText "q")]) ];
   [ (None, rowof [("forum_id", VInt 2); ("text", VText "r")]) ]].
Definition bup_d (b : backend) : db := ok_db (bulk_create (env_of b (QS true) true) QPost bu_objs (qd b true)).
Lemma bup_ok b : bulk_create (env_of b (QS true) true) QPost bu_objs (qd b true) = Ok (bup_d b).
Proof. apply ok_db_ok. destruct b; vm_compute; reflexivity. Qed.
Lemma QPost_alike d pk k : key_alike QPost d pk k.
Proof.
  intros f fn ds sk d' r Hf Hk _. simpl in Hf.
  (repeat (apply elem_of_cons in Hf as [->|Hf]); [..|by apply elem_of_nil in Hf]); simpl in Hk; try discriminate Hk; by injection Hk as <- <- <-.
Qed.
(** Two forums with given keys and a wrong count, then one without a key. *)
Definition bq_objs : list (list (option Z * row)) :=
  [[ (Some 11, rowof [("title", VText "p"); ("parent_id", VInt 1); ("post_count", VInt 7)]); (Some 12, rowof [("title", VText "q"); ("parent_id", VNull)]) ];
   [ (None, rowof [("title", VText "r"); ("parent_id", VInt 11)]) ]].
Definition QB (b : backend) : env := env_of b (QS false) true.
Definition bq_d (b : backend) : db := ok_db (bulk_create (QB b) QForum bq_objs (qd b false)).
Lemma bq_ok b : bulk_create (QB b) QForum bq_objs (qd b false) = Ok (bq_d b).
Proof. apply ok_db_ok. destruct b; vm_compute; reflexivity. Qed.
Lemma bq_noself b : no_self_relation (QS false) (bq_d b).
Proof. apply no_self_relationb_spec. destruct b; vm_compute; reflexivity. Qed.
(** Posts in forums 2 and 3. *)
Definition bp_objs : list (list (option Z * row)) :=
  [[ (None, rowof [("forum_id", VInt 2); ("text", VText "u")]); (None, rowof [("forum_id", VInt 3); ("text", VText "v")]); (None, rowof [("forum_id", VInt 2); ("text", VText "w")]) ]].
Definition bp_d (b : backend) : db := ok_db (bulk_create (QB b) QPost bp_objs (bq_d b)).
Lemma bp_ok b : bulk_create (QB b) QPost bp_objs (bq_d b) = Ok (bp_d b).
Proof. apply ok_db_ok. destruct b; vm_compute; reflexivity. Qed.
(** A forum saved with a key of its own choice, and the same by bulk_create(). *)
Definition bq_one : row := rowof [("title", VText "p"); ("parent_id", VInt 1)].
Lemma preset_bulk b : ∃ r d', bulk_create (QB b) QForum [[(Some 11, r)]] (qd b false) = Ok d' ∧
  save (QB b) QForum (Some 11) r (qd b false) = Err EIndex.
Proof.
  exists bq_one, (ok_db (bulk_create (QB b) QForum [[(Some 11, bq_one)]] (qd b false))). split.
  - apply ok_db_ok. destruct b; vm_compute; reflexivity.
  - assert (H : match save (QB b) QForum (Some 11) bq_one (qd b false) with Err EIndex => true | _ => false end = true) by (destruct b; vm_compute; reflexivity).
    destruct (save (QB b) QForum (Some 11) bq_one (qd b false)) as [|[]]; done.
Qed.
