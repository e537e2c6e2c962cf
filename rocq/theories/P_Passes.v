(** * How many passes flush() needs (C78). *)
From stdpp Require Import relations.
From Verif Require Import Base BaseLemmas Schema TrigSet Gen Exec Orm Flush Machine Spec SpecAgg SpecOrder GenLemmas Settle Sessions Hist Terminate Cursor Passes Check
  ExForum ExBad ExAgg CheckOrder ExTree.

(** ** C78 *)
(** Chains of values that are computed from each other have at most R steps (the ranks of
    the cells of callbacks are at most R), and chains of rows that every save rewrites
    at most M.  Every stale row is marked, as it is after any history (C02).  Then the
    loop of flush() has ended after R + M + 3 rounds, the last of which finds no
    marker: whatever the number of rows, the number of markers and the order in which
    they are processed. *)
Theorem flush_passes_bounded b S rand imm depth E rank ρ σ R M ord d :
  mk_env b S rand imm depth = Ok E → flushable S rank imm → value_acyclic S ρ d → calm b S σ →
  (∀ m f fn ds sk k, m ∈ s_models S → f ∈ m_fields m → f_kind f = KCallback fn ds sk →
     is_Some (getrow d (m_table m) k) → (ρ (m_table m) k (f_col f) ≤ R)%nat) →
  (∀ ct, (σ ct ≤ M)%nat) → (∀ x l mk, mk ∈ ord x l ↔ mk ∈ l) →
  links_ok S d → consistent_or_marked S d → no_self_relation S d →
  (flush E S ord (R + M + 3) d).2 ≠ Running.
Proof. exact (flush_bounded b S rand imm depth E rank ρ σ R M ord d). Qed.
Print Assumptions flush_passes_bounded.

(** In the trees of forums and posts the ranks are at most 3, and notes mark their
    posts: 7 rounds suffice for every order. *)
Definition p_ρ (t : string) (k : Z) (c : string) : nat :=
  if decide (c = "path") then Z.to_nat (k - 1) else
  if decide (c = "response_count") then Z.to_nat (3 - k) else
  if decide (c = "forum_path") then 3%nat else 0%nat.
Definition rev_ord (_ : db) (l : list marker) : list marker := reverse l.
Lemma rev_ord_elem x l mk : mk ∈ rev_ord x l ↔ mk ∈ l.
Proof. apply elem_of_reverse. Qed.
Definition rank_boundb (S : schema) (ρ : string → Z → string → nat) (R : nat) (d : db) : bool :=
  forallb (λ m, forallb (λ f, forallb (λ p : Z * row, bool_decide (ρ (m_table m) p.1 (f_col f) ≤ R)%nat) (rows_of d (m_table m))) (m_fields m)) (s_models S).
Lemma rank_boundb_spec S ρ R d : rank_boundb S ρ R d = true → ∀ m f fn ds sk k, m ∈ s_models S → f ∈ m_fields m → f_kind f = KCallback fn ds sk →
  is_Some (getrow d (m_table m) k) → (ρ (m_table m) k (f_col f) ≤ R)%nat.
Proof.
  intros H m f fn ds sk k Hm Hf _ [r Hr]. unfold rank_boundb in H. eapply forallb_forall in H; [|by apply elem_of_list_In].
  eapply forallb_forall in H; [|by apply elem_of_list_In, Hf]. apply rows_of_in, elem_of_list_In in Hr.
  eapply forallb_forall in H; [|exact Hr]. by apply bool_decide_eq_true in H.
Qed.
Example flush_passes_ex b :
  mk_env b TS rand0 true 10 = Ok (env_of b TS true) ∧ flushable TS t_rank true ∧ value_acyclic TS p_ρ (td b) ∧ calm b TS t_σ ∧
  (∀ m f fn ds sk k, m ∈ s_models TS → f ∈ m_fields m → f_kind f = KCallback fn ds sk →
     is_Some (getrow (td b) (m_table m) k) → (p_ρ (m_table m) k (f_col f) ≤ 3)%nat) ∧
  (∀ ct, (t_σ ct ≤ 1)%nat) ∧ finv TS (td b) ∧ d_dirty (td b) ≠ [] ∧
  (flush (env_of b TS true) TS rev_ord 4 (td b)).2 = Running ∧ (flush (env_of b TS true) TS rev_ord 7 (td b)).2 = Done.
Proof.
  split; [apply TE_ok|]. split; [apply TS_flushable|]. split_and!.
  - apply (value_acyclicb_spec _ _ t_rds); [|exact TS_reads]. destruct b; vm_compute; reflexivity.
  - apply td_calm.
  - apply rank_boundb_spec. destruct b; vm_compute; reflexivity.
  - intros ct. unfold t_σ. case_decide; lia.
  - apply td_inv.
  - destruct b; vm_compute; discriminate.
  - destruct b; vm_compute; reflexivity.
  - destruct b; vm_compute; reflexivity.
Qed.

(** The same for cursors that are still reading while rows are saved and markers deleted: a
    sequence of passes, each of which finds a marker and returns at least the markers it
    found, in any order and more than once, has at most R + M + 2 members. *)
Theorem any_cursor_passes_bounded b S rand imm depth E rank ρ σ R M n d d' :
  mk_env b S rand imm depth = Ok E → flushable S rank imm → value_acyclic S ρ d → calm b S σ →
  (∀ m f fn ds sk k, m ∈ s_models S → f ∈ m_fields m → f_kind f = KCallback fn ds sk →
     is_Some (getrow d (m_table m) k) → (ρ (m_table m) k (f_col f) ≤ R)%nat) →
  (∀ ct, (σ ct ≤ M)%nat) → links_ok S d → consistent_or_marked S d → no_self_relation S d →
  nsteps (round E S) n d d' → (n ≤ R + M + 2)%nat.
Proof. exact (rounds_bounded b S rand imm depth E rank ρ σ R M n d d'). Qed.
Print Assumptions any_cursor_passes_bounded.
(** The hypotheses hold in [flush_passes_ex], where four such passes can be made, and another
    cursor needs one (any_cursor_ex in P_Order.v). *)
Example any_cursor_passes_ex b : ∃ d', nsteps (round (env_of b TS true) TS) 4 (td b) d'.
Proof. apply (flush_running_rounds _ _ rev_ord); [apply rev_ord_elem|]. destruct b; vm_compute; reflexivity. Qed.

(** The bound cannot be lowered: B.g is computed from A.f, and C.h is declared to
    depend on B without reading it.  The ranks are at most 1 and nothing is restless;
    processing the newest marker first takes exactly 1 + 0 + 3 rounds. *)
Definition cb_g : callback := λ d _ r,
  match col r "a_id" with
  | VInt j => match getrow d "a" j with Some p => Ok (PVal (col p "f")) | None => Err (EUser 2) end
  | _ => Ok (PVal VNull)
  end.
Definition p_a : dep := Dep "A" (RelForward "a_id") [].
Definition p_b : dep := Dep "B" (RelForward "b_id") [].
Definition PS : schema := Schema
  [ mkmodel "A" "a" 30 [plain "x" "A"; cbf "f" "A" (cb_copy "x") [] []] [];
    mkmodel "B" "b" 31 [fkf "a" "A" "B"; cbf "g" "B" cb_g [p_a] []] [];
    mkmodel "C" "c" 32 [plain "x" "C"; fkf "b" "B" "C"; cbf "h" "C" (cb_copy "x") [p_b] []] [] ] false.
Definition p_rds (m : model) (f : field) : reads :=
  if decide (f_col f = "g") then Reads ["a_id"] [(p_a, ["f"])] else Reads ["x"] [].
Definition c_ρ (t : string) (k : Z) (c : string) : nat := if decide (c = "g") then 1%nat else 0%nat.
Definition p_ops : list op :=
  [ OSave "A" (Some 1) (rowof [("x", VInt 1)]); OSave "B" (Some 1) (rowof [("a_id", VInt 1)]); OSave "C" (Some 1) (rowof [("b_id", VInt 1); ("x", VInt 5)]) ].
Definition p_hist : list hop := (HOp <$> p_ops) ++ [HFlush id_ord 9; HOp (OUpdate "a" [1] (λ r, <["x" := VInt 2]> r))].
Definition p_d (b : backend) : db := foldl (hstep (env_of b PS true) PS) d0 p_hist.
Lemma PS_reads : reads_all PS p_rds.
Proof.
  intros m f fn ds sk Hm Hf Hk. simpl in Hm.
  repeat (apply elem_of_cons in Hm as [->|Hm]); [..|by apply elem_of_nil in Hm]; simpl in Hf;
  (repeat (apply elem_of_cons in Hf as [->|Hf]); [..|by apply elem_of_nil in Hf]); simpl in Hk; try discriminate Hk; injection Hk as <- <- <-;
  try apply cb_copy_reads.
  intros d d' k r r' Ho Hv. specialize (Hv _ _ (elem_of_list_here _ _)). unfold dep_view in Hv. simpl in Hv.
  unfold cb_g. rewrite (Ho "a_id") in * by (simpl; set_solver). destruct (col r' "a_id") as [|j|]; [done| |done]. injection Hv as Hv.
  destruct (getrow d "a" j), (getrow d' "a" j); try done. simpl in Hv. injection Hv as Hv. by rewrite Hv.
Qed.
Lemma PS_flushable : flushable PS (λ _, 0%nat) true.
Proof.
  apply (flushableb_spec _ _ _ p_rds); [by vm_compute| |exact PS_reads].
  intros m r Hm. simpl in Hm. repeat (apply elem_of_cons in Hm as [->|Hm]); [done..|by apply elem_of_nil in Hm].
Qed.
Lemma PE_ok b : mk_env b PS rand0 true 10 = Ok (env_of b PS true).
Proof. destruct b; vm_compute; reflexivity. Qed.
Lemma PS_no_self : no_self_dep PS.
Proof.
  intros m f fn ds sk dp Hm Hf Hk Hd. simpl in Hm.
  repeat (apply elem_of_cons in Hm as [->|Hm]); [..|by apply elem_of_nil in Hm]; simpl in Hf;
  (repeat (apply elem_of_cons in Hf as [->|Hf]); [..|by apply elem_of_nil in Hf]); simpl in Hk; try discriminate Hk; injection Hk as <- <- <-;
  first [by apply elem_of_nil in Hd|apply elem_of_list_singleton in Hd as ->; discriminate].
Qed.
Example flush_passes_tight b :
  mk_env b PS rand0 true 10 = Ok (env_of b PS true) ∧ flushable PS (λ _, 0%nat) true ∧ value_acyclic PS c_ρ (p_d b) ∧ calm b PS (λ _, 0%nat) ∧
  (∀ m f fn ds sk k, m ∈ s_models PS → f ∈ m_fields m → f_kind f = KCallback fn ds sk →
     is_Some (getrow (p_d b) (m_table m) k) → (c_ρ (m_table m) k (f_col f) ≤ 1)%nat) ∧
  finv PS (p_d b) ∧
  (flush (env_of b PS true) PS rev_ord 3 (p_d b)).2 = Running ∧ (flush (env_of b PS true) PS rev_ord 4 (p_d b)).2 = Done.
Proof.
  split; [apply PE_ok|]. split; [apply PS_flushable|]. split_and!.
  - apply (value_acyclicb_spec _ _ p_rds); [|exact PS_reads]. destruct b; vm_compute; reflexivity.
  - apply (calmb_spec _ _ _ (λ _, [])). destruct b; vm_compute; reflexivity.
  - apply rank_boundb_spec. destruct b; vm_compute; reflexivity.
  - apply (hist_inv b PS rand0 true 10 (env_of b PS true) (λ _, 0%nat) (PE_ok b) PS_flushable PS_no_self). by apply finv_empty.
  - destruct b; vm_compute; reflexivity.
  - destruct b; vm_compute; reflexivity.
Qed.

(** ** C79 *)
(** A marker whose content type has no model any more (the model was removed from the
    code): flush() raises, whatever else is marked and in whatever order, and the
    marker is still there, so that every later flush raises as well. *)
Theorem stale_marker_blocks S E ord n mk d : (∀ x l mk, mk ∈ ord x l ↔ mk ∈ l) → model_of_ct S mk.1 = None → mk ∈ d_dirty d →
  (∃ e, (flush E S ord (Datatypes.S n) d).2 = Raised e) ∧ mk ∈ d_dirty (flush E S ord (Datatypes.S n) d).1.
Proof. exact (flush_stale S E ord n mk d). Qed.
Print Assumptions stale_marker_blocks.
(** If the database returns that marker first, nothing is refreshed at all. *)
Theorem stale_marker_first S E ord n mk d : model_of_ct S mk.1 = None → d_dirty d ≠ [] → head (snapshot E ord d) = Some mk →
  flush E S ord (Datatypes.S n) d = (d, Raised EAttribute).
Proof. exact (flush_stale_first S E ord n mk d). Qed.
Print Assumptions stale_marker_first.
(** Removing a model while one of its rows is marked: the rows of the other models stay
    stale, however often flush() runs.  A is the first model of the schema above; C has
    been removed from the code. *)
Definition PS' : schema := Schema (take 2 (s_models PS)) false.
Definition s_hist : list hop := (HOp <$> p_ops) ++
  [HFlush id_ord 9; HOp (OUpdate "c" [1] (λ r, <["x" := VInt 6]> r)); HOp (OUpdate "a" [1] (λ r, <["x" := VInt 2]> r))].
Definition s_d (b : backend) : db := foldl (hstep (env_of b PS true) PS) d0 s_hist.
Theorem removed_model_refuted : ∃ S, ∀ b n, mk_env b S rand0 true 10 = Ok (env_of b S true) ∧
  (∃ mk, mk ∈ d_dirty (s_d b) ∧ model_of_ct S mk.1 = None) ∧ consistent_or_marked S (s_d b) ∧ ¬ consistent S (s_d b) ∧
  flush (env_of b S true) S id_ord (Datatypes.S n) (s_d b) = (s_d b, Raised EAttribute).
Proof.
  exists PS'. intros b n. split; [destruct b; vm_compute; reflexivity|]. split_and!.
  - exists (32, Some "1"). split; [apply (bool_decide_unpack _); destruct b; vm_compute; exact I|vm_compute; reflexivity].
  - destruct (hist_inv b PS rand0 true 10 (env_of b PS true) (λ _, 0%nat) (PE_ok b) PS_flushable PS_no_self s_hist d0 (finv_empty PS d0 eq_refl)) as (_ & C & _).
    intros m k r Hm Hr. apply (C m k r); [|done]. simpl in Hm |- *. repeat (apply elem_of_cons in Hm as [->|Hm]); [by left|by right; left|by apply elem_of_nil in Hm].
  - apply (staleb_spec _ _ (mkmodel "A" "a" 30 [plain "x" "A"; cbf "f" "A" (cb_copy "x") [] []] []) 1 1); [by left|]. destruct b; vm_compute; reflexivity.
  - apply (flush_stale_first PS' _ id_ord n (32, Some "1")); [vm_compute; reflexivity|destruct b; vm_compute; discriminate|destruct b; vm_compute; reflexivity].
Qed.
Print Assumptions removed_model_refuted.
