(** * Trees: values that depend on values of the same column in other rows.
    Cut down from /repo/test_denorm_project/test_app/models.py:115-159: Forum.path
    reads the path of the parent forum, Post.response_count adds up the counts of
    the responses.  Post.forum_path reads the path of the forum; Post.note_count is a
    CountField; Note.stamp is an auto_now column, which every save rewrites. *)
From Verif Require Import Base BaseLemmas Schema TrigSet Gen Exec Orm Flush Spec SpecAgg SpecOrder GenLemmas Settle Sessions Hist Check ExForum ExBad ExAgg CheckOrder.

(** def path(self): parent.path + title + '/', or '/' + title + '/' *)
Definition cb_path : callback := λ d _ r,
  match col r "title" with
  | VText s =>
    match col r "parent_id" with
    | VInt j => match getrow d "forum" j with
                | Some p => match col p "path" with VText q => Ok (PVal (VText (q +:+ s +:+ "/"))) | _ => Err (EUser 1) end
                | None => Err (EUser 2) end
    | _ => Ok (PVal (VText ("/" +:+ s +:+ "/")))
    end
  | _ => Ok (PVal VNull)
  end.
(** def forum_path(self): return self.forum.path *)
Definition cb_forum_path : callback := λ d _ r,
  match col r "forum_id" with
  | VInt j => match getrow d "forum" j with Some p => Ok (PVal (col p "path")) | None => Err (EUser 2) end
  | _ => Ok (PVal VNull)
  end.
(** def response_count(self): own notes, and one plus the count of each response *)
Definition sum_succ (g : gmap Z (list val)) : Z :=
  map_fold (λ _ vs acc, match vs with [VInt s] => 1 + s + acc | _ => 1 + acc end) 0 g.
Definition cb_responses : callback := λ d pk r,
  match pk with
  | None => Ok (PVal (VInt 0))
  | Some k => Ok (PVal (VInt (match col r "note_count" with VInt n => n | _ => 0 end +
       sum_succ (omap (λ r' : row, if decide (col r' "response_to_id" = VInt k)
         then Some (cols_of ["response_count"] r') else None) (tab d "post")))))
  end.

Definition t_parent : dep := Dep "Forum" (RelForward "parent_id") [].
Definition t_forum : dep := Dep "Forum" (RelForward "forum_id") [].
Definition t_resp : dep := Dep "Post" (RelBackward "response_to_id") [].
Definition TForum : model := mkmodel "Forum" "forum" 10
  [plain "title" "Forum"; fkf "parent" "Forum" "Forum"; cbf "path" "Forum" cb_path [t_parent] []] [].
Definition TPost : model := mkmodel "Post" "post" 11
  [ fkf "forum" "Forum" "Post"; fkf "response_to" "Post" "Post";
    aggf "note_count" "Post" (Agg "Note" "post_id" [] [] None []);
    cbf "forum_path" "Post" cb_forum_path [t_forum] []; cbf "response_count" "Post" cb_responses [t_resp] [] ] [].
Definition TNote : model := mkmodel "Note" "note" 12
  [ fkf "post" "Post" "Note"; plain "text" "Note"; Field "stamp" "stamp" "stamp" None "Note" KAutoNow;
    cbf "copy" "Note" (cb_copy "text") [] [] ] [].
Definition TS : schema := Schema [TForum; TPost; TNote] false.
Definition t_rank (t : string) : nat := if decide (t = "note") then 1%nat else 0%nat.
Definition t_rds (m : model) (f : field) : reads :=
  if decide (f_col f = "path") then Reads ["title"; "parent_id"] [(t_parent, ["path"])] else
  if decide (f_col f = "forum_path") then Reads ["forum_id"] [(t_forum, ["path"])] else
  if decide (f_col f = "response_count") then Reads ["note_count"] [(t_resp, ["response_count"])] else Reads ["text"] [].
Lemma TS_reads : reads_all TS t_rds.
Proof.
  intros m f fn ds sk Hm Hf Hk. simpl in Hm.
  repeat (apply elem_of_cons in Hm as [->|Hm]); [..|by apply elem_of_nil in Hm]; simpl in Hf;
  (repeat (apply elem_of_cons in Hf as [->|Hf]); [..|by apply elem_of_nil in Hf]); simpl in Hk; try discriminate Hk; injection Hk as <- <- <-.
  - intros d d' k r r' Ho Hv. specialize (Hv _ _ (elem_of_list_here _ _)). unfold dep_view in Hv. simpl in Hv.
    unfold cb_path. rewrite (Ho "title"), (Ho "parent_id") in * by (simpl; set_solver).
    destruct (col r' "title"); try done. destruct (col r' "parent_id") as [|j|]; [done| |done]. injection Hv as Hv.
    destruct (getrow d "forum" j), (getrow d' "forum" j); try done. simpl in Hv. injection Hv as Hv. by rewrite Hv.
  - intros d d' k r r' Ho Hv. specialize (Hv _ _ (elem_of_list_here _ _)). unfold dep_view in Hv. simpl in Hv.
    unfold cb_forum_path. rewrite (Ho "forum_id") in * by (simpl; set_solver).
    destruct (col r' "forum_id") as [|j|]; [done| |done]. injection Hv as Hv.
    destruct (getrow d "forum" j), (getrow d' "forum" j); try done. simpl in Hv. injection Hv as Hv. by rewrite Hv.
  - intros d d' k r r' Ho Hv. specialize (Hv _ _ (elem_of_list_here _ _)). unfold dep_view in Hv. simpl in Hv.
    injection Hv as Hv. unfold cb_responses. rewrite (Ho "note_count") by (simpl; set_solver). do 4 f_equal. exact (f_equal sum_succ Hv).
  - apply cb_copy_reads.
Qed.
Lemma TS_flushable : flushable TS t_rank true.
Proof.
  apply (flushableb_spec _ _ _ t_rds); [by vm_compute| |exact TS_reads].
  intros m r Hm. simpl in Hm. repeat (apply elem_of_cons in Hm as [->|Hm]); [done..|by apply elem_of_nil in Hm].
Qed.

(** A tree of forums, a thread of posts and some notes; the root is then renamed,
    without going through save(). *)
Definition tops : list op :=
  [ OSave "Forum" None (rowof [("title", VText "a"); ("parent_id", VNull)]);
    OSave "Forum" None (rowof [("title", VText "b"); ("parent_id", VInt 1)]);
    OSave "Forum" None (rowof [("title", VText "c"); ("parent_id", VInt 2)]);
    OSave "Post" None (rowof [("forum_id", VInt 3); ("response_to_id", VNull)]);
    OSave "Post" None (rowof [("forum_id", VInt 2); ("response_to_id", VInt 1)]);
    OSave "Post" None (rowof [("forum_id", VInt 2); ("response_to_id", VInt 2)]);
    OSave "Note" None (rowof [("post_id", VInt 3); ("text", VText "x")]);
    OUpdate "forum" [1] (λ r, <["title" := VText "z"]> r) ].
Definition td (b : backend) : db := foldl (step (env_of b TS true) TS) d0 tops.

(** Ranks of the cells: a path by the key of the forum (parents have smaller keys), a
    count by the key of the post downwards (responses have larger keys). *)
Definition t_ρ (t : string) (k : Z) (c : string) : nat :=
  if decide (c = "path") then Z.to_nat k else
  if decide (c = "response_count") then Z.to_nat (10 - k) else 10%nat.
(** Types of rows: notes are rewritten by every save and their posts are then
    updated by the trigger that counts. *)
Definition t_σ (ct : Z) : nat := if decide (ct = 12) then 1%nat else 0%nat.
Definition t_cl (t : string) : list string := if decide (t = "note") then ["post"] else [].

Lemma TE_ok b : mk_env b TS rand0 true 10 = Ok (env_of b TS true).
Proof. destruct b; vm_compute; reflexivity. Qed.
Lemma td_acyclic b : value_acyclic TS t_ρ (td b).
Proof. apply (value_acyclicb_spec _ _ t_rds); [|exact TS_reads]. destruct b; vm_compute; reflexivity. Qed.
Lemma td_calm b : calm b TS t_σ.
Proof. apply (calmb_spec _ _ _ t_cl). destruct b; vm_compute; reflexivity. Qed.
Lemma td_restless b : restless b TS TNote.
Proof.
  apply (rl_auto _ _ _ (Field "stamp" "stamp" "stamp" None "Note" KAutoNow)); [simpl; set_solver|done|].
  apply (wa_model TS TNote [] (Field "stamp" "stamp" "stamp" None "Note" KAutoNow)); [simpl; set_solver| |simpl; set_solver|apply not_elem_of_nil].
  by apply (so_self TS TNote (cbf "copy" "Note" (cb_copy "text") [] []) (cb_copy "text") [] []); [simpl; set_solver|].
Qed.
Lemma td_noself b : no_self_relation TS (td b).
Proof. apply no_self_relationb_spec. destruct b; vm_compute; reflexivity. Qed.
Lemma td_inv b : finv TS (td b).
Proof.
  destruct (finv_empty TS d0 eq_refl) as (L & C & _).
  destruct (fsteps_inv b TS rand0 true 10 (env_of b TS true) t_rank (TE_ok b) TS_flushable tops d0 L C). split_and!; [done|done|apply td_noself].
Qed.
