(** * Schemas and histories for the claims on saving.
    [QS u]: forums with a path that reads the parent's, a CountField over the posts,
    posts with a copy of the forum's path (cut down from
    /repo/test_denorm_project/test_app/models.py:115-159); [u] is
    DENORM_BULK_UNSAFE_TRIGGERS. *)
From Verif Require Import Base BaseLemmas Schema TrigSet Gen Exec Orm Flush Spec SpecAgg SpecOrder SpecSave GenLemmas Check ExForum ExBad ExAgg CheckOrder ExTree CheckSave.

Definition QForum : model := mkmodel "Forum" "forum" 10
  [ plain "title" "Forum"; fkf "parent" "Forum" "Forum"; aggf "post_count" "Forum" (Agg "Post" "forum_id" [] [] None ["stamp"]);
    cbf "path" "Forum" cb_path [t_parent] [] ] [].
Definition QPost : model := mkmodel "Post" "post" 11
  [ plain "text" "Post"; fkf "forum" "Forum" "Post"; Field "stamp" "stamp" "stamp" None "Post" KAutoNow;
    cbf "forum_path" "Post" cb_forum_path [t_forum] ["stamp"]; cbf "copy" "Post" (cb_copy "text") [] ["stamp"] ] [].
Definition QS (u : bool) : schema := Schema [QForum; QPost] u.
Definition q_rank (t : string) : nat := if decide (t = "post") then 1%nat else 0%nat.
Definition q_rds (m : model) (f : field) : reads :=
  if decide (f_col f = "path") then Reads ["title"; "parent_id"] [(t_parent, ["path"])] else
  if decide (f_col f = "forum_path") then Reads ["forum_id"] [(t_forum, ["path"])] else Reads ["text"] [].
Lemma QS_reads u : reads_all (QS u) q_rds.
Proof.
  intros m f fn ds sk Hm Hf Hk. simpl in Hm.
  repeat (apply elem_of_cons in Hm as [->|Hm]); [..|by apply elem_of_nil in Hm]; simpl in Hf;
  (repeat (apply elem_of_cons in Hf as [->|Hf]); [..|by apply elem_of_nil in Hf]); simpl in Hk; try discriminate Hk; injection Hk as <- <- <-.
  - intros d d' k r r' Ho Hv. specialize (Hv _ _ (elem_of_list_here _ _)). unfold dep_view in Hv. simpl in Hv.
    unfold cb_path. rewrite (Ho "title"), (Ho "parent_id") in * by (simpl; set_solver).
    destruct (col r' "title"); try done. destruct (col r' "parent_id") as [|j|]; [done| |done]. injection Hv as Hv.
    destruct (getrow d "forum" j), (getrow d' "forum" j); try done. simpl in Hv. injection Hv as Hv. by rewrite Hv.
  - intros d d' k r r' Ho Hv. specialize (Hv _ _ (elem_of_list_here _ _)). unfold dep_view in Hv. simpl in Hv.
    unfold cb_forum_path. rewrite (Ho "forum_id") in * by (simpl; set_solver).
    destruct (col r' "forum_id") as [|j|]; [done| |done]. injection Hv as Hv.
    destruct (getrow d "forum" j), (getrow d' "forum" j); try done. simpl in Hv. injection Hv as Hv. by rewrite Hv.
  - apply cb_copy_reads.
Qed.
Lemma QS_truthy u : all_truthy (QS u).
Proof. intros m r Hm. simpl in Hm. repeat (apply elem_of_cons in Hm as [->|Hm]); [done..|by apply elem_of_nil in Hm]. Qed.
Lemma QS_savable u : savable (QS u) q_rank true.
Proof. apply (savableb_spec _ _ _ q_rds); [destruct u; by vm_compute|apply QS_truthy|apply QS_reads]. Qed.
Lemma QS_own u : own_stored (QS u) q_rank.
Proof. apply (own_storedb_spec _ _ true q_rds); [destruct u; by vm_compute|apply QS_reads]. Qed.
Lemma QS_noclock u : reads_no_clock (QS u).
Proof. apply (no_clockb_spec _ q_rds); [destruct u; by vm_compute|apply QS_reads]. Qed.
Lemma QE_ok b u : mk_env b (QS u) rand0 true 10 = Ok (env_of b (QS u) true).
Proof. destruct b, u; vm_compute; reflexivity. Qed.
Lemma QS_rest b u m : m ∈ s_models (QS u) → ¬ restless b (QS u) m.
Proof.
  intros Hm Hr. apply restlessb_complete in Hr. simpl in Hm.
  repeat (apply elem_of_cons in Hm as [->|Hm]); [..|by apply elem_of_nil in Hm]; destruct b, u; by vm_compute in Hr.
Qed.

Definition qops : list op :=
  [ OSave "Forum" None (rowof [("title", VText "a"); ("parent_id", VNull)]);
    OSave "Forum" None (rowof [("title", VText "b"); ("parent_id", VInt 1)]);
    OSave "Forum" None (rowof [("title", VText "c"); ("parent_id", VInt 2)]);
    OSave "Post" None (rowof [("forum_id", VInt 3); ("text", VText "x")]);
    OSave "Post" None (rowof [("forum_id", VInt 2); ("text", VText "y")]);
    OSave "Post" None (rowof [("forum_id", VInt 2); ("text", VText "z")]) ].
Definition qd (b : backend) (u : bool) : db := (flush (env_of b (QS u) true) (QS u) id_ord 10 (foldl (step (env_of b (QS u) true) (QS u)) d0 qops)).1.
Lemma qd_consistent b u : consistent (QS u) (qd b u).
Proof. apply consistentb_spec. destruct b, u; vm_compute; reflexivity. Qed.
Lemma qd_noself b u : no_self_relation (QS u) (qd b u).
Proof. apply no_self_relationb_spec. destruct b, u; vm_compute; reflexivity. Qed.
Lemma QS_nolinks u d : links_ok (QS u) d.
Proof.
  intros m f dp o t c rc Hm Hf Hd Ho Hrel. simpl in Hm. exfalso.
  repeat (apply elem_of_cons in Hm as [->|Hm]); [..|by apply elem_of_nil in Hm]; simpl in Hf;
  (repeat (apply elem_of_cons in Hf as [->|Hf]); [..|by apply elem_of_nil in Hf]); cbn in Hd;
  try (by apply elem_of_nil in Hd); by apply elem_of_list_singleton in Hd as ->.
Qed.
(** Forum 2 loaded, then given a new title and a new parent. *)
Definition q_row (b : backend) (u : bool) : row := default ∅ (getrow (qd b u) "forum" 2).
Definition q_inst (b : backend) (u : bool) : row := <["title" := VText "w"]> (<["parent_id" := VNull]> (q_row b u)).
Definition the_save (E : env) (m : model) (pk : option Z) (r : row) (d : db) : db * Z * row :=
  match save E m pk r d with Ok p => p | Err _ => (d0, 0, ∅) end.
Lemma the_save_ok E m pk r d : match save E m pk r d with Ok _ => true | Err _ => false end = true →
  save E m pk r d = Ok ((the_save E m pk r d).1.1, (the_save E m pk r d).1.2, (the_save E m pk r d).2).
Proof. unfold the_save. by destruct (save E m pk r d) as [[[? ?] ?]|]. Qed.
Definition q_saved (b : backend) (u : bool) : db * Z * row := the_save (env_of b (QS u) true) QForum (Some 2) (q_inst b u) (qd b u).
Lemma q_saved_ok b u : save (env_of b (QS u) true) QForum (Some 2) (q_inst b u) (qd b u) = Ok (q_saved b u).
Proof.
  unfold q_saved. rewrite (the_save_ok (env_of b (QS u) true) QForum (Some 2) (q_inst b u) (qd b u)) by (destruct b, u; vm_compute; reflexivity).
  by destruct (the_save _ _ _ _ _) as [[? ?] ?].
Qed.
Lemma q_row_ok b u : getrow (qd b u) "forum" 2 = Some (q_row b u).
Proof.
  assert (H : match getrow (qd b u) "forum" 2 with Some _ => true | None => false end = true) by (destruct b, u; vm_compute; reflexivity).
  unfold q_row. by destruct (getrow (qd b u) "forum" 2).
Qed.

(** A new forum below forum 3. *)
Definition q_new : row := rowof [("title", VText "n"); ("parent_id", VInt 3)].
Definition q_made (b : backend) (u : bool) : db * Z * row := the_save (env_of b (QS u) true) QForum None q_new (qd b u).
Lemma q_made_ok b u : save (env_of b (QS u) true) QForum None q_new (qd b u) = Ok ((q_made b u).1.1, 4, (q_made b u).2).
Proof.
  assert (H4 : (q_made b u).1.2 = 4) by (destruct b, u; vm_compute; reflexivity). rewrite <- H4.
  apply the_save_ok. destruct b, u; vm_compute; reflexivity.
Qed.
Lemma q_new_free b u : getrow (qd b u) "forum" 4 = None.
Proof. destruct b, u; vm_compute; reflexivity. Qed.
Lemma q_new_noself b u : not_self_related QForum (qd b u) 4 q_new.
Proof. apply not_self_relatedb_spec; destruct b, u; vm_compute; reflexivity. Qed.
Lemma QForum_alike d pk k : key_alike QForum d pk k.
Proof.
  intros f fn ds sk d' r Hf Hk _. simpl in Hf.
  (repeat (apply elem_of_cons in Hf as [->|Hf]); [..|by apply elem_of_nil in Hf]); simpl in Hk; try discriminate Hk; by injection Hk as <- <- <-.
Qed.

(** ** A value that is the primary key *)
Definition cb_pk : callback := λ _ pk _, Ok (PVal (match pk with Some k => VInt k | None => VNull end)).
Definition PkA : model := mkmodel "A" "a" 20 [plain "x" "A"; cbf "f" "A" cb_pk [] []] [].
Definition PK (u : bool) : schema := Schema [PkA] u.
Definition pk_rds (m : model) (f : field) : reads := Reads [] [].
Lemma PK_reads u : reads_all (PK u) pk_rds.
Proof.
  intros m f fn ds sk Hm Hf Hk. simpl in Hm. apply elem_of_list_singleton in Hm as ->. simpl in Hf.
  (repeat (apply elem_of_cons in Hf as [->|Hf]); [..|by apply elem_of_nil in Hf]); simpl in Hk; try discriminate Hk; injection Hk as <- <- <-.
  by intros d d' k r r' _ _.
Qed.
Lemma PK_savable u : savable (PK u) (λ _, 0%nat) true.
Proof.
  apply (savableb_spec _ _ _ pk_rds); [destruct u; by vm_compute| |apply PK_reads].
  intros m r Hm. by apply elem_of_list_singleton in Hm as ->.
Qed.
Lemma PK_own u : own_stored (PK u) (λ _, 0%nat).
Proof. apply (own_storedb_spec _ _ true pk_rds); [destruct u; by vm_compute|apply PK_reads]. Qed.

(** ** A copy of a column, with the setting on *)
Definition BuA : model := mkmodel "A" "a" 20 [plain "x" "A"; cbf "f" "A" (cb_copy "x") [] []] [].
Definition BU : schema := Schema [BuA] true.
Definition bu_rds (m : model) (f : field) : reads := Reads ["x"] [].
Lemma BU_reads : reads_all BU bu_rds.
Proof.
  intros m f fn ds sk Hm Hf Hk. simpl in Hm. apply elem_of_list_singleton in Hm as ->. simpl in Hf.
  (repeat (apply elem_of_cons in Hf as [->|Hf]); [..|by apply elem_of_nil in Hf]); simpl in Hk; try discriminate Hk; injection Hk as <- <- <-.
  apply cb_copy_reads.
Qed.
Lemma BU_savable : savable BU (λ _, 0%nat) true.
Proof. apply (savableb_spec _ _ _ bu_rds); [by vm_compute| |apply BU_reads]. intros m r Hm. by apply elem_of_list_singleton in Hm as ->. Qed.
Lemma BU_own : own_stored BU (λ _, 0%nat).
Proof. apply (own_storedb_spec _ _ true bu_rds); [by vm_compute|apply BU_reads]. Qed.
Definition bu_d (b : backend) : db := hist2 b BU [OSave "A" None (rowof [("x", VInt 1)])] [].
Lemma BU_nolinks d : links_ok BU d.
Proof.
  intros m f dp o t c rc Hm Hf Hd Ho Hrel. simpl in Hm. exfalso. apply elem_of_list_singleton in Hm as ->. simpl in Hf.
  (repeat (apply elem_of_cons in Hf as [->|Hf]); [..|by apply elem_of_nil in Hf]); cbn in Hd; by apply elem_of_nil in Hd.
Qed.

(** ** A value computed from a CountField of the row *)
Definition CnA : model := mkmodel "A" "a" 20
  [ plain "x" "A"; cbf "f" "A" (cb_copy "n") [] []; aggf "n" "A" (Agg "B" "a_id" [] [] None []) ] [].
Definition CnB : model := mkmodel "B" "b" 21 [fkf "a" "A" "B"] [].
Definition CN : schema := Schema [CnA; CnB] false.
Definition cn_rank (t : string) : nat := if decide (t = "b") then 1%nat else 0%nat.
Definition cn_rds (m : model) (f : field) : reads := Reads ["n"] [].
Lemma CN_reads : reads_all CN cn_rds.
Proof.
  intros m f fn ds sk Hm Hf Hk. simpl in Hm.
  repeat (apply elem_of_cons in Hm as [->|Hm]); [..|by apply elem_of_nil in Hm]; simpl in Hf;
  (repeat (apply elem_of_cons in Hf as [->|Hf]); [..|by apply elem_of_nil in Hf]); simpl in Hk; try discriminate Hk; injection Hk as <- <- <-.
  apply cb_copy_reads.
Qed.
Lemma CN_flushable : flushable CN cn_rank true.
Proof.
  apply (flushableb_spec _ _ _ cn_rds); [by vm_compute| |apply CN_reads].
  intros m r Hm. simpl in Hm. repeat (apply elem_of_cons in Hm as [->|Hm]); [done..|by apply elem_of_nil in Hm].
Qed.
Definition cn_ops : list op := [ OSave "A" None (rowof [("x", VInt 1)]) ].
Definition cn_ops2 : list op := [ OSave "B" None (rowof [("a_id", VInt 1)]) ].
Definition cn_d (b : backend) : db := hist2 b CN cn_ops [].
(** The row is loaded, then another session adds a B and flushes, then it is saved. *)
Definition cn_d2 (b : backend) : db := (flush (env_of b CN true) CN id_ord 5 (hist2 b CN cn_ops cn_ops2)).1.
Definition cn_inst (b : backend) : row := default ∅ (getrow (cn_d b) "a" 1).

(** ** A function that raises *)
Definition cb_raise : callback := λ _ _ r, match col r "x" with VNull => Err (EUser 7) | v => Ok (PVal v) end.
Definition RaA : model := mkmodel "A" "a" 20 [plain "x" "A"; cbf "f" "A" cb_raise [] []] [].
Definition RA : schema := Schema [RaA] false.
Lemma RA_flushable : flushable RA (λ _, 0%nat) true.
Proof.
  apply (flushableb_spec _ _ _ (λ _ _, Reads ["x"] [])); [by vm_compute| |].
  - intros m r Hm. by apply elem_of_list_singleton in Hm as ->.
  - intros m f fn ds sk Hm Hf Hk. simpl in Hm. apply elem_of_list_singleton in Hm as ->. simpl in Hf.
    (repeat (apply elem_of_cons in Hf as [->|Hf]); [..|by apply elem_of_nil in Hf]); simpl in Hk; try discriminate Hk; injection Hk as <- <- <-.
    intros d d' k r r' Ho _. unfold cb_raise. rewrite (Ho "x"); [done|]. simpl. by left.
Qed.
Definition ra_ops : list op := [ OSave "A" None (rowof [("x", VInt 1)]); OSave "A" None (rowof [("x", VInt 2)]) ].
Definition ra_ops2 : list op :=
  [ OUpdate "a" [1] (λ r, <["x" := VNull]> r); OUpdate "a" [2] (λ r, <["x" := VInt 3]> r) ].
Definition ra_d (b : backend) : db := hist2 b RA ra_ops ra_ops2.
