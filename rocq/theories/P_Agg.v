(** * Aggregate fields (C12 - C16, C18, C20, C54, C70). *)
From Verif Require Import Base BaseLemmas Schema TrigSet Gen Exec Orm Flush Spec SpecAgg Hist AggOps AggDefer AggCheck AggSave AggDrift AggProps Check ExForum ExRich ExBad ExAgg.

(** The example: every step of the history of ExAgg.v is allowed, and the database it
    starts from is empty, so all aggregates are exact in it. *)
Lemma gops_clean m f a rel : agg_field GS m f a rel → Forall (clean_hop m f) gops.
Proof.
  intros (-> & -> & Hf)%GS_only. unfold gops. repeat (apply Forall_cons; split); [..|apply Forall_nil; exact I]; try exact I; intros Ht; try discriminate Ht.
  intros k r Hin. repeat (apply elem_of_cons in Hin as [[= -> ->]|Hin]); [..|by apply elem_of_nil in Hin];
    destruct Hf as [[-> _]|[[-> _]|[-> _]]]; by vm_compute.
Qed.
Lemma d0_exact m f a rel : fk_valid m a rel d0 ∧ agg_exact m f a rel d0.
Proof. apply exact_spec. by apply exact_empty. Qed.
Lemma gd_exact b : b ≠ SQLite → all_agg_exact GS (gd b).
Proof. intros Hb m f a rel Haf. apply (hist_agg b GS rand0 10 (GE b) GS_wf GS_names); [by apply GE_ok|done|by eapply gops_clean|apply d0_exact]. Qed.

(** ** C12 *)
(** [clean_hop m f]: a raw insert stores 0 in the aggregate column and a raw update does
    not assign to it (neither does the ORM); flushes, rebuilds, saves and deletes are
    unrestricted.  A statement that fails leaves the database as it was. *)
Theorem count_exact b S rand depth E m f a rel hs d k r :
  wf_schema S → names_apart S → mk_env b S rand true depth = Ok E → agg_field S m f a rel → ag_sum a = None →
  Forall (clean_hop m f) hs → fk_valid m a rel d → agg_exact m f a rel d →
  getrow (foldl (hstep E S) d hs) (m_table m) k = Some r →
  col r (f_col f) = VInt (Z.of_nat (size (related (foldl (hstep E S) d hs) rel a k))).
Proof. exact (λ Hwf Hna, hist_count b S rand depth E Hwf Hna m f a rel hs d k r). Qed.
Print Assumptions count_exact.
Theorem count_exact_from_empty b S rand depth E m f a rel hs d :
  wf_schema S → names_apart S → mk_env b S rand true depth = Ok E → agg_field S m f a rel →
  Forall (clean_hop m f) hs → d_tabs d = ∅ →
  fk_valid m a rel (foldl (hstep E S) d hs) ∧ agg_exact m f a rel (foldl (hstep E S) d hs).
Proof. exact (λ Hwf Hna HE Haf Hcl Hd, hist_agg b S rand depth E Hwf Hna m f a rel hs d HE Haf Hcl (proj1 (exact_spec m f a rel d) (exact_empty m f a rel d Hd))). Qed.
Print Assumptions count_exact_from_empty.
(** Re-parenting, filter flips, bulk statements, saves and a flush. *)
Example count_exact_ex b : b ≠ SQLite →
  mk_env b GS rand0 true 10 = Ok (GE b) ∧ wf_schema GS ∧ names_apart GS ∧ agg_field GS GParent g_open a_open GItem ∧
  Forall (clean_hop GParent g_open) gops ∧ fk_valid GParent a_open GItem d0 ∧ agg_exact GParent g_open a_open GItem d0 ∧
  cellv (gd b) "parent" 1 "n_open" = Some (VInt 2) ∧ cellv (gd b) "parent" 2 "n_open" = Some (VInt 1) ∧
  cellv (gd b) "parent" 1 "n_flag" = Some (VInt 1) ∧ length (d_dirty (gd b)) = 3%nat.
Proof.
  intros Hb. split; [by apply GE_ok|]. split; [apply GS_wf|]. split; [apply GS_names|]. split; [apply GS_open|].
  split; [apply (gops_clean _ _ _ _ GS_open)|]. split; [apply (d0_exact GParent g_open)|]. split; [apply d0_exact|].
  destruct b; [done|..]; vm_compute; repeat split; reflexivity.
Qed.
(** A relation of a model to itself (no MySQL: there the trigger may not write its own table). *)
Definition t_kids : field := aggf "kids" "Node" (Agg "Node" "parent_id" [] [] None []).
Definition TNode : model := mkmodel "Node" "node" 50 [fkf "parent" "Node" "Node"; t_kids] [].
Definition TS : schema := Schema [TNode] false.
Definition node (p : val) : row := rowof [("parent_id", p); ("kids", VInt 0)].
Definition tops : list hop :=
  [ HOp (OInsert "node" [(1, node VNull); (2, node (VInt 1)); (3, node (VInt 1)); (4, node (VInt 2))]);
    HOp (OUpdate "node" [4; 3] (λ r, <["parent_id" := VInt 2]> r)); HOp (ODelete "node" [4]) ].
Example count_self_ex b : b ≠ MySQL →
  mk_env b TS rand0 true 10 = Ok (env_of b TS true) ∧ wf_schema TS ∧ names_apart TS ∧
  agg_field TS TNode t_kids (Agg "Node" "parent_id" [] [] None []) TNode ∧ Forall (clean_hop TNode t_kids) tops ∧
  (λ k, cellv (foldl (hstep (env_of b TS true) TS) d0 tops) "node" k "kids") <$> [1; 2; 3] = Some <$> [VInt 1; VInt 1; VInt 0] ∧
  getrow (foldl (hstep (env_of b TS true) TS) d0 tops) "node" 4 = None.
Proof.
  intros Hb. split; [destruct b; [|..|done]; vm_compute; reflexivity|]. split; [apply wf_schemab_spec; by vm_compute|].
  split; [apply names_apartb_spec; by vm_compute|]. split; [apply agg_fieldb_spec; [inl|inl|done|done|by vm_compute]|]. split.
  - unfold tops. repeat (apply Forall_cons; split); [..|apply Forall_nil; exact I]; try exact I; intros _; [|intros r; unfold col; by rewrite lookup_insert_ne].
    intros k r Hin. repeat (apply elem_of_cons in Hin as [[= -> ->]|Hin]); [done..|by apply elem_of_nil in Hin].
  - destruct b; [..|done]; vm_compute; split; reflexivity.
Qed.
(** A row that becomes its own parent: with recursive triggers (PostgreSQL) the counter
    column re-fires its own trigger until the nesting limit is hit; the statement fails. *)
Example count_self_loop_ex : run_op (env_of Postgres TS true) TS (OUpdate "node" [1] (λ r, <["parent_id" := VInt 1]> r))
  (foldl (hstep (env_of Postgres TS true) TS) d0 tops) = Err EDepth.
Proof. vm_compute. reflexivity. Qed.
(** An exclude value is a bound parameter; SQLite accepts none inside CREATE TRIGGER, so
    "on every backend" is false: the triggers of the schema cannot be installed there.
    (A filter is already refused with NotImplementedError when the field is declared,
    fields.py:132-133, which checks filter only.) *)
Definition a_excl : agg := Agg "Item" "parent_id" [] [Cond1 "weight" LGt (VInt 5)] None [].
Definition g_excl : field := aggf "n_light" "Parent" a_excl.
Definition XParent : model := mkmodel "Parent" "parent" 40 [plain "title" "Parent"; g_excl] [].
Definition XS : schema := Schema [XParent; GItem] false.
Theorem filtered_count_sqlite_refuted : ∃ S m f a rel, wf_schema S ∧ names_apart S ∧ agg_field S m f a rel ∧ ag_filter a = [] ∧ ag_exclude a ≠ [] ∧
  mk_env SQLite S rand0 true 10 = Err ESyntax.
Proof.
  exists XS, XParent, g_excl, a_excl, GItem. split; [apply wf_schemab_spec; by vm_compute|]. split; [apply names_apartb_spec; by vm_compute|].
  split; [apply agg_fieldb_spec; [inl|inl|done|done|by vm_compute]|]. split; [done|]. split; [done|]. vm_compute. reflexivity.
Qed.
Print Assumptions filtered_count_sqlite_refuted.

(** ** C13 *)
Theorem sum_exact b S rand depth E m f a rel c hs d k r :
  wf_schema S → names_apart S → mk_env b S rand true depth = Ok E → agg_field S m f a rel → ag_sum a = Some c →
  Forall (clean_hop m f) hs → fk_valid m a rel d → agg_exact m f a rel d →
  getrow (foldl (hstep E S) d hs) (m_table m) k = Some r →
  col r (f_col f) = VInt (map_fold (λ _ r s, summand (col r c) + s) 0 (related (foldl (hstep E S) d hs) rel a k)).
Proof. exact (λ Hwf Hna, hist_sum b S rand depth E Hwf Hna m f a rel c hs d k r). Qed.
Print Assumptions sum_exact.
Example sum_exact_ex b : b ≠ SQLite →
  mk_env b GS rand0 true 10 = Ok (GE b) ∧ agg_field GS GParent g_total a_total GItem ∧
  Forall (clean_hop GParent g_total) gops ∧ fk_valid GParent a_total GItem d0 ∧ agg_exact GParent g_total a_total GItem d0 ∧
  cellv (gd b) "parent" 1 "total" = Some (VInt 7) ∧ cellv (gd b) "parent" 2 "total" = Some (VInt 4).
Proof.
  intros Hb. split; [by apply GE_ok|]. split; [apply GS_total|].
  split; [apply (gops_clean _ _ _ _ GS_total)|]. split; [apply (d0_exact GParent g_total)|]. split; [apply d0_exact|].
  destruct b; [done|..]; vm_compute; split; reflexivity.
Qed.

(** ** C14 *)
Theorem stale_save_keeps_aggregate b S rand imm depth E m f a rel k r d p r0 v :
  wf_schema S → names_apart S → mk_env b S rand imm depth = Ok E → agg_field S m f a rel → rel ≠ m →
  getrow d (m_table m) k = Some r0 → col r0 (f_col f) = VInt v → save E m (Some k) r d = Ok p →
  col p.2 (f_col f) = VInt v ∧ ∃ r1, getrow p.1.1 (m_table m) k = Some r1 ∧ col r1 (f_col f) = VInt v.
Proof. exact (λ Hwf Hna, stale_save b S rand depth E Hwf Hna imm m f a rel k r d p r0 v). Qed.
Print Assumptions stale_save_keeps_aggregate.
Definition stale : row := rowof [("title", VText "c"); ("n_open", VInt 77); ("total", VInt (-5)); ("n_flag", VNull)].
Definition gsaved (b : backend) := match save (GE b) GParent (Some 1) stale (gd b) with Ok p => Some p | Err _ => None end.
Example stale_save_ex b : b ≠ SQLite → GItem ≠ GParent ∧
  cellv (gd b) "parent" 1 "n_open" = Some (VInt 2) ∧
  (λ p, (col p.2 "n_open", cellv p.1.1 "parent" 1 "n_open", cellv p.1.1 "parent" 1 "total", cellv p.1.1 "parent" 1 "title")) <$> gsaved b =
    Some (VInt 2, Some (VInt 2), Some (VInt 7), Some (VText "c")).
Proof.
  intros Hb. split; [intros [=]%(f_equal m_name)|]. destruct b; [done|..]; vm_compute; split; reflexivity.
Qed.
(** Also when the aggregate counts rows of its own model, and for saves of any model, of
    stored and of new instances: what the instance holds does not matter, the stored value
    moves by exactly as much as the true one.  Foreign keys may be unchecked. *)
Theorem save_moves_aggregate b S rand imm depth E m f a rel m' k pk r d p r0 v :
  wf_schema S → names_apart S → mk_env b S rand imm depth = Ok E → agg_field S m f a rel → m' ∈ s_models S →
  getrow d (m_table m) k = Some r0 → col r0 (f_col f) = VInt v → save E m' pk r d = Ok p →
  ∃ r1, getrow p.1.1 (m_table m) k = Some r1 ∧ col r1 (f_col f) = VInt (v + (agg_value p.1.1 rel a k - agg_value d rel a k)).
Proof. exact (λ Hwf Hna, save_error b S rand depth E Hwf Hna imm m f a rel m' k pk r d p r0 v). Qed.
Print Assumptions save_moves_aggregate.
(** A stale instance of node 3, moved from node 2 to node 1. *)
Definition tsaved (b : backend) := match save (env_of b TS true) TNode (Some 3) (rowof [("parent_id", VInt 1); ("kids", VInt 77)]) (foldl (hstep (env_of b TS true) TS) d0 tops) with
  Ok p => Some p | Err _ => None end.
Definition kids_true (d : db) (k : Z) : option val * Z := (cellv d "node" k "kids", agg_value d TNode (Agg "Node" "parent_id" [] [] None []) k).
Example save_moves_ex b : b ≠ MySQL → TNode ∈ s_models TS ∧
  kids_true (foldl (hstep (env_of b TS true) TS) d0 tops) <$> [1; 2; 3] = [(Some (VInt 1), 1); (Some (VInt 1), 1); (Some (VInt 0), 0)] ∧
  (λ p, kids_true p.1.1 <$> [1; 2; 3]) <$> tsaved b = Some [(Some (VInt 2), 2); (Some (VInt 0), 0); (Some (VInt 0), 0)].
Proof. intros Hb. split; [left|]. destruct b; [| |done]; vm_compute; split_and!; reflexivity. Qed.

(** ** C15 *)
(** No step of a history - statement, save, flush or rebuild - fails with a violated
    CHECK, if raw writes leave the aggregates alone, summed columns get no negative values
    ([nonneg_hop], [nonneg_fns]) and the functions do not raise that exception themselves. *)
Theorem no_check_violation b S rand depth E hs d :
  wf_schema S → names_apart S → mk_env b S rand true depth = Ok E → all_agg S → calm S → nonneg_fns S →
  (∀ m f a rel, agg_field S m f a rel → Forall (clean_hop m f) hs) → Forall (nonneg_hop S) hs →
  all_agg_exact S d → nonneg_db S d →
  (∀ pre h post, hs = pre ++ h :: post → raised E S h (foldl (hstep E S) d pre) ≠ Some ECheck) ∧
  all_agg_exact S (foldl (hstep E S) d hs) ∧ nonneg_db S (foldl (hstep E S) d hs).
Proof. exact (λ Hwf Hna, hist_nocheck b S rand depth E Hwf Hna hs d). Qed.
Print Assumptions no_check_violation.
(** All of the history of ExAgg.v, then moving all items of parent 1 to parent 2 and
    changing the score in the same statement, and a rebuild. *)
Definition op_move : op := OUpdate "item" [1; 2; 3] (λ r, <["parent_id" := VInt 2]> (<["score" := VInt 3]> r)).
Definition ghist : list hop := gops ++ [HOp op_move; HRebuild id_ord 5 None None].
Lemma ghist_clean m f a rel : agg_field GS m f a rel → Forall (clean_hop m f) ghist.
Proof.
  intros Haf. apply Forall_app. split; [by eapply gops_clean|]. apply GS_only in Haf as (-> & -> & Hf).
  repeat (apply Forall_cons; split); [done|done|by apply Forall_nil].
Qed.
Lemma ghist_nonneg : Forall (nonneg_hop GS) ghist.
Proof.
  unfold ghist, gops. repeat (apply Forall_cons; split); [..|by apply Forall_nil]; try exact I;
    intros m f a rel (-> & -> & Hf)%GS_only; simpl; try done; intros Ht; try discriminate Ht.
  - intros k r Hin c. destruct Hf as [[_ ->]|[[_ ->]|[_ ->]]]; [done| |done]. intros [= <-].
    repeat (apply elem_of_cons in Hin as [[= -> ->]|Hin]); [by vm_compute..|by apply elem_of_nil in Hin].
  - intros c. destruct Hf as [[_ ->]|[[_ ->]|[_ ->]]]; [done| |done]. intros [= <-]. by vm_compute.
  - intros r Hr c. destruct Hf as [[_ ->]|[[_ ->]|[_ ->]]]; [done| |done]. intros [= <-]. unfold col. rewrite lookup_insert_ne by done. by apply Hr.
  - intros r Hr c. destruct Hf as [[_ ->]|[[_ ->]|[_ ->]]]; [done| |done]. intros [= <-]. unfold col. rewrite lookup_insert_ne by done. by apply Hr.
  - intros r Hr c. destruct Hf as [[_ ->]|[[_ ->]|[_ ->]]]; [done| |done]. intros [= <-]. unfold col. rewrite lookup_insert_ne by done. by apply Hr.
  - intros c. destruct Hf as [[_ ->]|[[_ ->]|[_ ->]]]; [done| |done]. intros [= <-]. by vm_compute.
  - intros r Hr c. destruct Hf as [[_ ->]|[[_ ->]|[_ ->]]]; [done| |done]. intros [= <-]. unfold col. rewrite lookup_insert_ne, lookup_insert by done. done.
Qed.
Lemma GS_calm : calm GS.
Proof.
  intros m Hm. split; [|intros mm fn ds Hmm; simpl in Hm; repeat (apply elem_of_cons in Hm as [->|Hm]); by apply elem_of_nil in Hmm || by apply elem_of_nil in Hm].
  intros f fn ds sk Hf Hk. simpl in Hm. repeat (apply elem_of_cons in Hm as [->|Hm]); [..|by apply elem_of_nil in Hm];
    simpl in Hf; repeat (apply elem_of_cons in Hf as [->|Hf]); try (by apply elem_of_nil in Hf); try discriminate Hk.
  injection Hk as <- <- <-. done.
Qed.
Lemma GS_fns : nonneg_fns GS.
Proof.
  intros m f a rel (-> & -> & Hf)%GS_only c g fn ds sk Hs Hg Hc Hk. destruct Hf as [[_ ->]|[[_ ->]|[_ ->]]]; [done| |done]. injection Hs as <-.
  simpl in Hg. repeat (apply elem_of_cons in Hg as [->|Hg]); try (by apply elem_of_nil in Hg); discriminate Hk || discriminate Hc.
Qed.
Example no_check_ex b : b ≠ SQLite → all_agg GS ∧ calm GS ∧ nonneg_fns GS ∧ (∀ m f a rel, agg_field GS m f a rel → Forall (clean_hop m f) ghist) ∧
  Forall (nonneg_hop GS) ghist ∧ all_agg_exact GS d0 ∧ nonneg_db GS d0 ∧
  (λ k, cellv (foldl (hstep (GE b) GS) d0 ghist) "parent" k "total") <$> [1; 2] = [Some (VInt 0); Some (VInt 9)].
Proof.
  intros Hb. split; [apply GS_agg|]. split; [apply GS_calm|]. split; [apply GS_fns|]. split; [apply ghist_clean|]. split; [apply ghist_nonneg|].
  split; [intros m f a rel _; apply d0_exact|]. split; [intros m f a rel _ j r Hr; by vm_compute in Hr|]. destruct b; [done|..]; vm_compute; reflexivity.
Qed.
(** Outside these hypotheses the check does fire: a negative score in a sum over
    non-negative integers. *)
Theorem check_violation_refuted : ∃ b S E o d, mk_env b S rand0 true 10 = Ok E ∧ wf_schema S ∧ names_apart S ∧ all_agg S ∧ all_agg_exact S d ∧
  run_op E S o d = Err ECheck.
Proof.
  exists Postgres, GS, (GE Postgres), (OUpdate "item" [1] (λ r, <["score" := VInt (-9)]> r)), (gd Postgres).
  split; [by apply GE_ok|]. split; [apply GS_wf|]. split; [apply GS_names|]. split; [apply GS_agg|]. split; [by apply gd_exact|].
  vm_compute. reflexivity.
Qed.
Print Assumptions check_violation_refuted.

(** ** C16 *)
(** False of the code: AggregateField.pre_save looks the row up by primary key and takes
    element 0 of an empty result.  No row with a preset key can ever be saved. *)
Theorem preset_key_never_saved S E m f a rel k r d p :
  wf_schema S → agg_field S m f a rel → getrow d (m_table m) k = None → (∀ mm, mm ∈ m_m2m m → mm_denorm mm = None) →
  save E m (Some k) r d ≠ Ok p.
Proof. exact (λ Hwf, preset_pk_fails S E Hwf m f a rel k r d p). Qed.
Print Assumptions preset_key_never_saved.
Theorem preset_key_save_refuted : ∃ b S E m f a rel k r d, mk_env b S rand0 true 10 = Ok E ∧ wf_schema S ∧ agg_field S m f a rel ∧
  getrow d (m_table m) k = None ∧ save E m (Some k) r d = Err EIndex.
Proof.
  exists Postgres, GS, (GE Postgres), GParent, g_open, a_open, GItem, 9, (prow "x"), (gd Postgres).
  split; [by apply GE_ok|]. split; [apply GS_wf|]. split; [apply GS_open|]. split; vm_compute; reflexivity.
Qed.
Print Assumptions preset_key_save_refuted.
(** Without a preset key the new row gets aggregate 0 whatever the instance holds. *)
Theorem new_row_aggregate_zero S E m f a rel pk d r q :
  wf_schema S → agg_field S m f a rel → presave_all E m true pk d r = Ok q → col q.2 (f_col f) = VInt 0.
Proof. exact (λ Hwf, new_row_zero S E Hwf m f a rel pk d r q). Qed.
Print Assumptions new_row_aggregate_zero.
Example new_row_zero_ex b : b ≠ SQLite →
  (λ d, cellv d "parent" 3 "n_open") <$> match run_op (GE b) GS (OSave "Parent" None stale) (gd b) with Ok d => Some d | Err _ => None end = Some (Some (VInt 0)).
Proof. intros Hb. destruct b; [done|..]; vm_compute; reflexivity. Qed.

(** ** C18 *)
(** False of the code: an aggregate column that is wrong (rows loaded before the triggers
    were installed, for instance) is still wrong after rebuildall(). *)
Definition dwrong : db :=
  Db {[ "parent" := {[ 1 := <["n_open" := VInt 5]> (prow "a") ]}; "item" := {[ 1 := item (VInt 1) 1 0 4 ]} ]} [] 0 0.
Theorem rebuild_recalculates_aggregates_refuted : ∃ b S E m f a rel ord n d d', mk_env b S rand0 true 10 = Ok E ∧ wf_schema S ∧ names_apart S ∧
  agg_field S m f a rel ∧ rebuildall E S ord n None None d = (d', Done) ∧ ¬ agg_exact m f a rel d'.
Proof.
  exists Postgres, GS, (GE Postgres), GParent, g_open, a_open, GItem, id_ord, 5%nat, dwrong, (rebuildall (GE Postgres) GS id_ord 5 None None dwrong).1.
  split; [by apply GE_ok|]. split; [apply GS_wf|]. split; [apply GS_names|]. split; [apply GS_open|].
  split; [apply rebuild_pair; vm_compute; reflexivity|].
  apply (agg_wrong _ _ _ _ _ 1 5 1); [vm_compute; reflexivity..|done].
Qed.
Print Assumptions rebuild_recalculates_aggregates_refuted.
(** It is false for every aggregate over ordinary columns: rebuildall() leaves it alone,
    whatever it holds, whatever it is asked to rebuild, and however it ends. *)
Theorem rebuild_keeps_aggregates b S rand imm depth E m f a rel ord n mn fn d k r v :
  wf_schema S → names_apart S → mk_env b S rand imm depth = Ok E → agg_field S m f a rel → (∀ c, c ∈ agg_cols a → plain_col rel c) →
  getrow d (m_table m) k = Some r → col r (f_col f) = VInt v →
  ∃ r', getrow (rebuildall E S ord n mn fn d).1 (m_table m) k = Some r' ∧ col r' (f_col f) = VInt v.
Proof. exact (λ Hwf Hna, rebuild_keeps_agg b S rand depth E Hwf Hna imm m f a rel ord n mn fn d k r v). Qed.
Print Assumptions rebuild_keeps_aggregates.

(** ** C20, the aggregates *)
Theorem flush_keeps_aggregates b S rand imm depth E m f a rel ord n d k r v :
  wf_schema S → names_apart S → mk_env b S rand imm depth = Ok E → agg_field S m f a rel → (∀ c, c ∈ agg_cols a → plain_col rel c) →
  getrow d (m_table m) k = Some r → col r (f_col f) = VInt v →
  ∃ r', getrow (flush E S ord n d).1 (m_table m) k = Some r' ∧ col r' (f_col f) = VInt v.
Proof. exact (λ Hwf Hna, flush_keeps_agg b S rand depth E Hwf Hna imm m f a rel ord n d k r v). Qed.
Print Assumptions flush_keeps_aggregates.
Example flush_keeps_ex b : b ≠ SQLite → (∀ c, c ∈ agg_cols a_open → plain_col GItem c) ∧ (∀ c, c ∈ agg_cols a_total → plain_col GItem c) ∧
  length (d_dirty (gd b)) = 3%nat ∧ (flush (GE b) GS id_ord 5 (gd b)).2 = Done ∧
  cellv (flush (GE b) GS id_ord 5 (gd b)).1 "parent" 1 "n_open" = Some (VInt 2) ∧ cellv (gd b) "parent" 1 "n_open" = Some (VInt 2).
Proof.
  intros Hb. split; [intros c Hc; repeat (apply elem_of_cons in Hc as [->|Hc]); [apply plain_colb_spec; by vm_compute..|by apply elem_of_nil in Hc]|].
  split; [intros c Hc; repeat (apply elem_of_cons in Hc as [->|Hc]); [apply plain_colb_spec; by vm_compute..|by apply elem_of_nil in Hc]|].
  destruct b; [done|..]; vm_compute; repeat split; reflexivity.
Qed.
(** An aggregate that filters on a denormalized column must follow it, so flush() does
    change it: "aggregates stay as they are" is false as stated. *)
Definition gnew (b : backend) : db := foldl (step (GE b) GS) d0
  [OInsert "parent" [(1, prow "a")]; OInsert "item" [(1, item (VInt 1) 1 0 4)]].
Theorem flush_keeps_all_aggregates_refuted : ∃ b S E m f a rel ord n d d' k v v', mk_env b S rand0 true 10 = Ok E ∧ wf_schema S ∧ names_apart S ∧
  agg_field S m f a rel ∧ flush E S ord n d = (d', Done) ∧
  cellv d (m_table m) k (f_col f) = Some v ∧ cellv d' (m_table m) k (f_col f) = Some v' ∧ v ≠ v'.
Proof.
  exists Postgres, GS, (GE Postgres), GParent, g_flag, a_flag, GItem, id_ord, 5%nat, (gnew Postgres), (flush (GE Postgres) GS id_ord 5 (gnew Postgres)).1, 1, (VInt 0), (VInt 1).
  split; [by apply GE_ok|]. split; [apply GS_wf|]. split; [apply GS_names|]. split; [apply GS_flag|].
  split; [apply flush_pair; vm_compute; reflexivity|]. split; [vm_compute; reflexivity|]. split; [vm_compute; reflexivity|done].
Qed.
Print Assumptions flush_keeps_all_aggregates_refuted.

(** ** C54 *)
(** False of the code: with deferred constraints (what Django creates on PostgreSQL) the
    child may come first; the increment then finds no parent, and the parent starts at 0. *)
Definition gdef : list op := [OInsert "item" [(1, item (VInt 1) 1 0 4)]; OInsert "parent" [(1, prow "a")]].
Theorem deferred_keys_count_refuted : ∃ b S E m f a rel ops, mk_env b S rand0 false 10 = Ok E ∧ wf_schema S ∧ names_apart S ∧ agg_field S m f a rel ∧
  Forall (clean_op m f) ops ∧ fk_valid m a rel (foldl (step E S) d0 ops) ∧ ¬ agg_exact m f a rel (foldl (step E S) d0 ops).
Proof.
  exists Postgres, GS, (env_of Postgres GS false), GParent, g_open, a_open, GItem, gdef.
  split; [vm_compute; reflexivity|]. split; [apply GS_wf|]. split; [apply GS_names|]. split; [apply GS_open|]. split.
  { repeat (apply Forall_cons; split); [done| |by apply Forall_nil]. intros _ k r Hin. by apply elem_of_list_singleton in Hin as [= -> ->]. }
  split; [|apply (agg_wrong _ _ _ _ _ 1 0 1); [vm_compute; reflexivity..|done]].
  assert (Hc : cellv (foldl (step (env_of Postgres GS false) GS) d0 gdef) "parent" 1 "n_open" = Some (VInt 0)) by (vm_compute; reflexivity).
  assert (Ht : bool_decide (map_Forall (λ _ r, col r "parent_id" = VInt 1) (tab (foldl (step (env_of Postgres GS false) GS) d0 gdef) "item")) = true) by (vm_compute; reflexivity).
  revert Hc Ht. generalize (foldl (step (env_of Postgres GS false) GS) d0 gdef). intros d Hc Ht.
  apply bool_decide_eq_true in Ht. unfold cellv in Hc. destruct (getrow d "parent" 1) as [r|] eqn:Hr; [|done].
  intros j r1 k Hj Hk. assert (Hk1 : col r1 "parent_id" = VInt 1) by (by apply (Ht j r1)). change (ag_fk a_open) with "parent_id" in Hk.
  assert (k = 1) as -> by congruence. by exists r.
Qed.
Print Assumptions deferred_keys_count_refuted.
(** What holds whether or not the database checks foreign keys at every statement
    ([imm] is arbitrary, and rows may refer to missing rows): the aggregate is exact
    after every history in which no row is inserted that is already referred to. *)
Theorem deferred_count_exact b S rand imm depth E m f a rel hs d :
  wf_schema S → names_apart S → mk_env b S rand imm depth = Ok E → agg_field S m f a rel →
  Forall (clean_hop m f) hs → parents_first E S m a rel d hs → agg_exact m f a rel d →
  agg_exact m f a rel (foldl (hstep E S) d hs).
Proof. exact (λ Hwf Hna, hist_deferred b S rand depth E Hwf Hna imm m f a rel hs d). Qed.
Print Assumptions deferred_count_exact.
(** A child without a parent, a parent inserted later under another key, a parent deleted
    before its children. *)
Definition dops : list hop := [HOp (OInsert "parent" [(1, prow "a")]);
  HOp (OInsert "item" [(1, item (VInt 1) 1 0 4); (2, item (VInt 9) 1 0 2)]); HOp (OInsert "parent" [(2, prow "b"); (3, prow "c")]);
  HOp (OUpdate "item" [2] (λ r, <["parent_id" := VInt 3]> r)); HOp (ODelete "parent" [1])].
Definition unrefb (d : db) (k : Z) : bool := bool_decide (map_Forall (λ _ r, col r "parent_id" ≠ VInt k) (tab d "item")).
Lemma unrefb_spec d k : unrefb d k = true → unreferenced a_open GItem d k.
Proof. intros H%bool_decide_eq_true j r Hj. exact (H j r Hj). Qed.
Example deferred_count_ex b : b ≠ SQLite → mk_env b GS rand0 false 10 = Ok (env_of b GS false) ∧ agg_field GS GParent g_open a_open GItem ∧
  Forall (clean_hop GParent g_open) dops ∧ parents_first (env_of b GS false) GS GParent a_open GItem d0 dops ∧ agg_exact GParent g_open a_open GItem d0 ∧
  let d := foldl (hstep (env_of b GS false) GS) d0 dops in
  cellv d "parent" 3 "n_open" = Some (VInt 1) ∧ cellv d "parent" 2 "n_open" = Some (VInt 0) ∧
  cellv d "item" 1 "parent_id" = Some (VInt 1) ∧ cellv d "parent" 1 "n_open" = None.
Proof.
  intros Hb. split; [destruct b; [done|..]; vm_compute; reflexivity|]. split; [apply GS_open|]. split.
  { repeat (apply Forall_cons; split); [..|by apply Forall_nil]; try done; intros _ k r Hin;
      repeat (apply elem_of_cons in Hin as [[= -> ->]|Hin]); first [reflexivity|by apply elem_of_nil in Hin]. }
  split; [|split; [apply d0_exact|destruct b; [done|..]; vm_compute; split_and!; reflexivity]].
  assert (Hu : ∀ d rows, forallb (unrefb d) rows.*1 = true → first_ok GParent a_open GItem d (OInsert "parent" rows)).
  { intros d rows Hall _ rows1 k r rows2 ->. split; [|intros [=]%(f_equal m_name)]. apply unrefb_spec.
    rewrite forallb_forall in Hall. apply Hall, elem_of_list_In. rewrite fmap_app. apply elem_of_app. right. left. }
  intros hs1 o hs2 Heq. unfold dops in Heq. destruct hs1 as [|h1 hs1].
  { injection Heq as <- <-. apply Hu. destruct b; [done|..]; vm_compute; reflexivity. }
  injection Heq as <- Heq. destruct hs1 as [|h2 hs1]; [injection Heq as <- <-; intros Ht; discriminate Ht|].
  injection Heq as <- Heq. destruct hs1 as [|h3 hs1].
  { injection Heq as <- <-. apply Hu. destruct b; [done|..]; vm_compute; reflexivity. }
  injection Heq as <- Heq. destruct hs1 as [|h4 hs1]; [by injection Heq as <- <-|].
  injection Heq as <- Heq. destruct hs1 as [|h5 hs1]; [by injection Heq as <- <-|].
  injection Heq as <- Heq. by destruct hs1.
Qed.

(** ** C70 *)
(** Nothing is assumed about the database: however wrong the aggregate of row [k] is, and
    whether or not foreign keys are checked, it stays wrong by the same amount as long as
    the row is not deleted and no statement assigns to its aggregate column.  In particular no flush and no rebuild repairs an aggregate. *)
Theorem aggregate_error_constant b S rand imm depth E m f a rel k hs d r v :
  wf_schema S → names_apart S → mk_env b S rand imm depth = Ok E → agg_field S m f a rel →
  Forall (leaves_agg m f k) hs →
  getrow d (m_table m) k = Some r → col r (f_col f) = VInt v →
  ∃ r', getrow (foldl (hstep E S) d hs) (m_table m) k = Some r' ∧
    col r' (f_col f) = VInt (v + (agg_value (foldl (hstep E S) d hs) rel a k - agg_value d rel a k)).
Proof. exact (λ Hwf Hna, hist_error b S rand depth E Hwf Hna imm m f a rel k hs d r v). Qed.
Print Assumptions aggregate_error_constant.
(** The child that came before its parent is missing from the count; later children, saves,
    the deletion of another parent, a flush and a rebuild leave the count one too low. *)
Definition eops : list hop := [HOp (OInsert "item" [(2, item (VInt 1) 1 0 4); (3, item (VInt 1) 1 0 2)]); HOp (OSave "Parent" (Some 1) stale);
  HOp (OInsert "parent" [(2, prow "b")]); HOp (OUpdate "item" [3] (λ r, <["parent_id" := VInt 2]> r)); HOp (ODelete "parent" [2]);
  HFlush id_ord 5; HRebuild id_ord 5 None None].
Definition ed (b : backend) : db := foldl (step (env_of b GS false) GS) d0 gdef.
Example aggregate_error_ex b : b ≠ SQLite → mk_env b GS rand0 false 10 = Ok (env_of b GS false) ∧ agg_field GS GParent g_open a_open GItem ∧
  Forall (leaves_agg GParent g_open 1) eops ∧
  cellv (ed b) "parent" 1 "n_open" = Some (VInt 0) ∧ agg_value (ed b) GItem a_open 1 = 1 ∧
  let d := foldl (hstep (env_of b GS false) GS) (ed b) eops in
  cellv d "parent" 1 "n_open" = Some (VInt 1) ∧ agg_value d GItem a_open 1 = 2 ∧ cellv d "parent" 2 "n_open" = None.
Proof.
  intros Hb. split; [destruct b; [done|..]; vm_compute; reflexivity|]. split; [apply GS_open|]. split.
  { repeat (apply Forall_cons; split); [..|by apply Forall_nil]; try done; try (intros Ht; discriminate Ht);
      intros _ Hin%elem_of_list_singleton; discriminate Hin. }
  destruct b; [done|..]; vm_compute; split_and!; reflexivity.
Qed.
