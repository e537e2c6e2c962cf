(** * Claims on the project's own test application (C121). *)
From Verif Require Import Base BaseLemmas Schema TrigSet Gen Exec Orm Flush Machine Spec SpecAgg GenLemmas Settle Hist AggOps AggProps Check ExForum ExBad ExAgg CheckOrder Text P_Text ExDaemonData TestApp ExTestApp.
Open Scope list_scope.

(** Whatever was saved, inserted, updated and deleted since the tables were empty: after a flush
    that returns, every field of models.py says what it promises. *)
Theorem test_app_flush b ops d ord n d' : let E := env_of b (TA b) true in let D := foldl (step E (TA b)) d ops in
  d_tabs d = ∅ →
  (∀ k f, getrow D tforum k = Some f → col f "parent_forum_id" ≠ VInt k) → (∀ k p, getrow D tpost k = Some p → col p "response_to_id" ≠ VInt k) →
  flush E (TA b) ord n D = (d', Done) → ta_promises d' ∧ consistent (TA b) d' ∧ d_dirty d' = [].
Proof. exact (TA_flush b ops d ord n d'). Qed.
Print Assumptions test_app_flush.
(** The number of posts of a forum is exact at any time. *)
Theorem test_app_post_count b hs d k f : let E := env_of b (TA b) true in let D := foldl (hstep E (TA b)) d hs in
  d_tabs d = ∅ → Forall (clean_hop mForum' ta_count) hs →
  getrow D tforum k = Some f → col f "post_count" = VInt (Z.of_nat (size (rows_with D tpost "forum_id" k))).
Proof. exact (TA_count b hs d k f). Qed.
Print Assumptions test_app_post_count.
(** So are the filtered aggregates, on the databases where they are declared. *)
Theorem test_app_filtered b hs d k : b ≠ SQLite → let E := env_of b (TA b) true in let D := foldl (hstep E (TA b)) d hs in d_tabs d = ∅ →
  (∀ f, Forall (clean_hop mFSum ta_sum) hs → getrow D (m_table mFSum) k = Some f →
    col f "active_item_sum" = VInt (map_fold (λ _ r s, summand (col r "active_item_count") + s) 0 (filter (λ p : Z * row, adult p.2) (rows_with D fsi "parent_id" k)))) ∧
  (∀ f, Forall (clean_hop mFCount ta_fcount) hs → getrow D (m_table mFCount) k = Some f →
    col f "active_item_count" = VInt (Z.of_nat (size (filter (λ p : Z * row, counted p.2) (rows_with D fci "parent_id" k))))).
Proof. exact (TA_filtered b hs d k). Qed.
Print Assumptions test_app_filtered.
(** A forum inside another, a thread of three posts, a bookmark, a comment; then the member is
    renamed and the outer forum retitled by update(). *)
Definition ta_ops : list op :=
  [ OSave "Forum" None (rowof (forum "one" VNull)); OSave "Forum" None (rowof (forum "two" (VInt 1)));
    OSave "Member" None (rowof (member "Ann" "Lee"));
    OSave "Post" None (rowof (post (VInt 1) (VInt 1) VNull "a")); OSave "Post" None (rowof (post (VInt 1) VNull (VInt 1) "b"));
    OSave "Post" None (rowof (post (VInt 2) (VInt 1) (VInt 2) "c"));
    OSave "Attachment" None (rowof [("post_id", VInt 1)]);
    OInsert tbm [(1, rowof [("member_id", VInt 1); ("post_id", VInt 1)]); (2, rowof [("member_id", VInt 1); ("post_id", VInt 3)])];
    OSave "SkipPost" None (rowof [("text", VText "hi")]); OSave "SkipCommentWithSkip" None (rowof [("post_id", VInt 1); ("text", VText "ho"); ("created_on", VInt 0)]);
    OUpdate tmember [1] (λ r, <["name" := VText "Law"]> r); OUpdate tforum [1] (λ r, <["title" := VText "uno"]> r);
    OUpdate tpost [2] (λ r, <["forum_id" := VInt 2]> r); OUpdate "test_app_skippost" [1] (λ r, <["text" := VText "ha"]> r) ].
Definition ta_d (b : backend) : db := foldl (step (env_of b (TA b) true) (TA b)) d0 ta_ops.
Definition no_selfb (d : db) (t c : string) : bool := forallb (λ p : Z * row, negb (bool_decide (col p.2 c = VInt p.1))) (map_to_list (tab d t)).
Lemma no_selfb_spec d t c : no_selfb d t c = true → ∀ k r, getrow d t k = Some r → col r c ≠ VInt k.
Proof.
  intros H k r Hr Hc. unfold no_selfb in H. rewrite forallb_forall in H. specialize (H (k, r)).
  rewrite bool_decide_eq_true_2 in H by done. assert (false = true); [|done]. apply H. apply elem_of_list_In, elem_of_map_to_list. exact Hr.
Qed.
Definition ta_texts (d : db) : list (option val) :=
  [ cellv d tforum 2 "path"; cellv d tforum 2 "author_names"; cellv d tpost 1 "author_name"; cellv d tpost 1 "forum_title"; cellv d tpost 1 "response_count"; cellv d tpost 2 "forum_title";
    cellv d tatt 1 "forum_id"; cellv d tmember 1 "full_name"; cellv d tmember 1 "bookmark_titles"; cellv d (m_table mSkip) 1 "post_text"; cellv d tforum 2 "post_count" ].
Definition ta_want : list (option val) :=
  Some <$> [VText "/uno/two/"; VText ", Law"; VText "Law"; VText "uno"; VInt 2; VText "two"; VInt 1; VText "Ann Law"; VText ("a" +:+ nl +:+ "c"); VText "ha"; VInt 2].
Definition ta_gen (E : env) (S : schema) (D : db) : bool :=
  no_selfb D tforum "parent_forum_id" && no_selfb D tpost "response_to_id" &&
  (let x := flush E S id_ord 10 D in match x.2 with Done => true | _ => false end && bool_decide (ta_texts x.1 = ta_want)).
Lemma ta_gen_spec E S D : ta_gen E S D = true →
  (∀ k f, getrow D tforum k = Some f → col f "parent_forum_id" ≠ VInt k) ∧ (∀ k p, getrow D tpost k = Some p → col p "response_to_id" ≠ VInt k) ∧
  ∃ d', flush E S id_ord 10 D = (d', Done) ∧ ta_texts d' = ta_want.
Proof.
  unfold ta_gen. intros H. destruct (flush E S id_ord 10 D) as [d' o] eqn:Hf. apply andb_true_iff in H as [H H1]. apply andb_true_iff in H as [H3 H4]. apply andb_true_iff in H1 as [H1 H2].
  split; [by apply no_selfb_spec|]. split; [by apply no_selfb_spec|]. exists d'. cbn [fst snd] in H1, H2. destruct o; try done.
  split; [done|]. by apply bool_decide_eq_true_1 in H2.
Qed.
Lemma ta_checked b : ta_gen (env_of b (TA b) true) (TA b) (ta_d b) = true.
Proof. destruct b; vm_cast_no_check (eq_refl true). Qed.
Example test_app_flush_ex b : d_tabs d0 = ∅ ∧
  (∀ k f, getrow (ta_d b) tforum k = Some f → col f "parent_forum_id" ≠ VInt k) ∧ (∀ k p, getrow (ta_d b) tpost k = Some p → col p "response_to_id" ≠ VInt k) ∧
  ∃ d', flush (env_of b (TA b) true) (TA b) id_ord 10 (ta_d b) = (d', Done) ∧ ta_texts d' = ta_want.
Proof. split; [done|]. exact (ta_gen_spec _ _ _ (ta_checked b)). Qed.
(** The operations keep off the aggregate columns. *)
Example test_app_count_ex : Forall (clean_hop mForum' ta_count) (HOp <$> ta_ops).
Proof. unfold ta_ops. repeat (apply Forall_cons; split); [..|apply Forall_nil; exact I]; try exact I; intros Ht; try discriminate Ht. intros r. unfold col. by rewrite lookup_insert_ne. Qed.

(** ** tests.py *)
(** Every test passes in the model: foreign keys checked at once or at commit, markers found in
    the order of marking or the other way round. *)
Definition all_pass (x : res (list (res unit))) : bool := match x with Ok l => forallb (λ y : res unit, match y with Ok _ => true | Err _ => false end) l | Err _ => false end.
Example project_tests_pass : all_pass (run_tests SQLite true id_ord) = true ∧ all_pass (run_tests Postgres false rev_ord) = true ∧ all_pass (run_tests MySQL true rev_ord) = true.
Proof. split; [|split]; vm_cast_no_check (eq_refl true). Qed.
(** They can fail: without triggers only those five pass that do not depend on one. *)
Definition bare (b : backend) : session := let E := env_of b (test_app b false false) true in
  Session b (Env b (e_pk E) [] (e_rand E) (e_fks E) (e_fkimm E) (e_depth E)) id_ord.
Example project_tests_need_triggers b : (λ t : session → res unit, match t (bare b) with Ok _ => true | _ => false end) <$> all_tests b =
  [false; true; true; true; false; false; false; true] ++ replicate 10 false ++ [true] ++ replicate (match b with SQLite => 5 | _ => 8 end) false.
Proof. destruct b; vm_compute; reflexivity. Qed.
(** tests.py:94-102: test_without_skip is commented out, flush() is said not to return.  It does. *)
Example commented_out_test_passes b : match test_skip_of mNoSkip (Session b (env_of b (test_app b false false) true) id_ord) with Ok _ => true | Err _ => false end = true.
Proof. destruct b; vm_cast_no_check (eq_refl true). Qed.
(** tests.py:27-37, test_triggers: with the models that have awkward names, every trigger is text
    that the database reads as intended (Text.v). *)
Example project_triggers_read b : all_read b (test_app b true false) = true.
Proof. destruct b; vm_cast_no_check (eq_refl true). Qed.
