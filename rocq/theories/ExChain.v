(** * Schemas with aggregates over aggregates. *)
From Verif Require Import Base BaseLemmas Schema TrigSet Gen Exec Orm Flush Spec SpecAgg GenLemmas Hist Check ExForum ExRich ExBad ExAgg.

Definition agg_linkb (S : schema) (m : model) (a : agg) : bool :=
  match find_model S (ag_rel a) with
  | Some rel => existsb (λ g, bool_decide (f_col g = ag_fk a) && bool_decide (f_fk g = Some (m_name m))) (m_fields rel) &&
                forallb (trackedb S rel) (agg_cols a)
  | None => false
  end.
Lemma agg_linkb_spec S m f a rel : m ∈ s_models S → f ∈ m_fields m → f_kind f = KAgg a → find_model S (ag_rel a) = Some rel →
  agg_linkb S m a = true → agg_link S m f a rel.
Proof.
  intros Hm Hf Hk Hr H. unfold agg_linkb in H. rewrite Hr in H. apply andb_true_iff in H as [H1 H2].
  split; [done..| |].
  - apply exb_spec in H1 as (g & Hg & Hp). bsplit. by exists g.
  - intros c Hc. allb H2 c as B. by apply trackedb_spec.
Qed.

(** Board.total = SumField("thread_set", field="n_posts") and
    Thread.n_posts = CountField("post_set"). *)
Definition a_total2 : agg := Agg "Thread" "board_id" [] [] (Some "n_posts") [].
Definition a_posts : agg := Agg "Post" "thread_id" [] [] None [].
Definition h_total : field := aggf "total" "Board" a_total2.
Definition h_posts : field := aggf "n_posts" "Thread" a_posts.
Definition HBoard : model := mkmodel "Board" "board" 60 [plain "title" "Board"; h_total] [].
Definition HThread : model := mkmodel "Thread" "thread" 61 [fkf "board" "Board" "Thread"; h_posts] [].
Definition HPost : model := mkmodel "Post" "post" 62 [fkf "thread" "Thread" "Post"; plain "text" "Post"] [].
Definition HS : schema := Schema [HBoard; HThread; HPost] false.
Definition hrank (t : string) : nat := if decide (t = "board") then 0 else if decide (t = "thread") then 1 else 2.
Lemma HS_wf : wf_schema HS. Proof. apply wf_schemab_spec. by vm_compute. Qed.
Lemma HS_names : names_apart HS. Proof. apply names_apartb_spec. by vm_compute. Qed.
Lemma HS_acyclic : upd_acyclic HS hrank. Proof. apply upd_acyclicb_spec. by vm_compute. Qed.
Lemma HS_total : agg_link HS HBoard h_total a_total2 HThread.
Proof. apply agg_linkb_spec; [inl|inl|done|done|by vm_compute]. Qed.
Lemma HS_posts : agg_link HS HThread h_posts a_posts HPost.
Proof. apply agg_linkb_spec; [inl|inl|done|done|by vm_compute]. Qed.
Definition board (t : string) : row := rowof [("title", VText t); ("total", VInt 0)].
Definition thread (p : val) : row := rowof [("board_id", p); ("n_posts", VInt 0)].
Definition post (p : val) : row := rowof [("thread_id", p); ("text", VText "x")].
(** Two boards, three threads, five posts; posts and threads are moved; a save of a
    thread with a stale count; a post is deleted. *)
Definition cops : list hop :=
  [ HOp (OInsert "board" [(1, board "a"); (2, board "b")]);
    HOp (OInsert "thread" [(1, thread (VInt 1)); (2, thread (VInt 1)); (3, thread (VInt 2))]);
    HOp (OInsert "post" [(1, post (VInt 1)); (2, post (VInt 1)); (3, post (VInt 2)); (4, post (VInt 3)); (5, post VNull)]);
    HOp (OUpdate "post" [1; 5] (λ r, <["thread_id" := VInt 3]> r));
    HOp (OSave "Thread" (Some 3) (thread (VInt 1)));
    HOp (ODelete "post" [2]);
    HFlush id_ord 5 ].
Definition cd (b : backend) : db := foldl (hstep (env_of b HS true) HS) d0 cops.

(** A tree: Node.kids = CountField("node_set"), Node.grand = SumField("node_set", field="kids"). *)
Definition a_kids : agg := Agg "Node" "parent_id" [] [] None [].
Definition a_grand : agg := Agg "Node" "parent_id" [] [] (Some "kids") [].
Definition u_kids : field := aggf "kids" "Node" a_kids.
Definition u_grand : field := aggf "grand" "Node" a_grand.
Definition UNode : model := mkmodel "Node" "node" 63 [fkf "parent" "Node" "Node"; u_kids; u_grand] [].
Definition US : schema := Schema [UNode] false.
Definition unode (p : val) : row := rowof [("parent_id", p); ("kids", VInt 0); ("grand", VInt 0)].
Definition uops : list hop :=
  [ HOp (OInsert "node" [(1, unode VNull)]); HOp (OInsert "node" [(2, unode (VInt 1))]); HOp (OInsert "node" [(3, unode VNull)]);
    HOp (OUpdate "node" [3] (λ r, <["parent_id" := VInt 2]> r)) ].
Definition ud (b : backend) : db := foldl (hstep (env_of b US true) US) d0 uops.
Lemma US_wf : wf_schema US. Proof. apply wf_schemab_spec. by vm_compute. Qed.
Lemma US_names : names_apart US. Proof. apply names_apartb_spec. by vm_compute. Qed.
Lemma US_grand : agg_link US UNode u_grand a_grand UNode.
Proof. apply agg_linkb_spec; [inl|inl|done|done|by vm_compute]. Qed.
