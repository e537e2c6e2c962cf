(** * Property theorems: limits of the change detection and of flush. *)
From Verif Require Import Base BaseLemmas Schema TrigSet Gen Exec Orm Flush Spec GenLemmas Check ExForum ExBad ExLimits Erase.

(** ** C22 (refuted) *)
(** A.f = 1 - B.g and B.g = A.f, both dependencies declared, every marker handled in
    the order of insertion: after any number of passes flush is still running. *)
Definition cy_at (b : backend) (i : nat) : db := Nat.iter i (cy_pass b) (cy_d b).
Definition cy_check (b : backend) (i : nat) : bool :=
  bool_decide (d_dirty (cy_at b i) ≠ []) &&
  bool_decide ((flush_pass (env_of b CY true) CY (snapshot (env_of b CY true) id_ord (cy_at b i)) (cy_at b i)).2 = Done).
Lemma cy_check_spec b i : cy_check b i = true →
  d_dirty (cy_at b i) ≠ [] ∧ flush_pass (env_of b CY true) CY (snapshot (env_of b CY true) id_ord (cy_at b i)) (cy_at b i) = (cy_pass b (cy_at b i), Done).
Proof.
  unfold cy_check. intros [H1%bool_decide_eq_true H2%bool_decide_eq_true]%andb_true_iff. split; [done|]. unfold cy_pass.
  destruct (flush_pass _ _ _ _). simpl in *. by rewrite H2.
Qed.
Lemma cy_diverges b n : (flush (env_of b CY true) CY id_ord n (cy_d b)).2 = Running.
Proof.
  apply (flush_cycle _ _ _ (cy_pass b) (cy_at b <$> [0;1;2;3;4]%nat)); [|by left].
  assert (Hc : cy_pass b (cy_at b 4) = cy_at b 1).
  { apply (bool_decide_unpack _). destruct b; vm_compute; exact I. }
  assert (Hk : ∀ i, i ∈ [0;1;2;3;4]%nat → cy_check b i = true).
  { intros i Hi. repeat (apply elem_of_cons in Hi as [->|Hi]; [destruct b; vm_compute; reflexivity|]). by apply elem_of_nil in Hi. }
  intros x (i & -> & Hi)%elem_of_list_fmap. destruct (cy_check_spec b i (Hk i Hi)) as [H1 H2]. split; [done|]. split; [done|].
  apply elem_of_list_fmap. repeat (apply elem_of_cons in Hi as [->|Hi]; [|]); [exists 1%nat|exists 2%nat|exists 3%nat|exists 4%nat|exists 1%nat|by apply elem_of_nil in Hi];
    (split; [done || exact Hc|set_solver]).
Qed.
Lemma cy_ok b : mk_env b CY rand0 true 10 = Ok (env_of b CY true).
Proof. destruct b; vm_compute; reflexivity. Qed.
Theorem flush_terminates_refuted : ∀ b, ∃ S d, mk_env b S rand0 true 10 = Ok (env_of b S true) ∧
  (∃ ops, d = foldl (step (env_of b S true) S) d0 ops) ∧ ∀ n, (flush (env_of b S true) S id_ord n d).2 = Running.
Proof. exact (λ b, ex_intro _ CY (ex_intro _ (cy_d b) (conj (cy_ok b) (conj (ex_intro _ cy_ops eq_refl) (cy_diverges b))))). Qed.
Print Assumptions flush_terminates_refuted.

(** ** C40 (refuted) *)
(** The installed triggers do not depend on the denormalized ManyToManyFields at all. *)
Theorem m2m_denorm_has_no_triggers b S : installed b (plain_schema S) = installed b S.
Proof. exact (installed_plain S b). Qed.
Print Assumptions m2m_denorm_has_no_triggers.
Example m2m_denorm_ex b : installed b MM = Ok [] ∧ mm_denorm mm_members ≠ None.
Proof. split; [destruct b; vm_compute; reflexivity|discriminate]. Qed.
(** The links are not what the function returns, nothing is marked, flush does nothing. *)
Definition mm_d (b : backend) : db := foldl (step (env_of b MM true) MM) d0 mm_ops.
Theorem m2m_denorm_refreshed_refuted : ∀ b, ∃ S d d' m mm fn ds k r keys,
  mk_env b S rand0 true 10 = Ok (env_of b S true) ∧
  (∃ ops, d = foldl (step (env_of b S true) S) d0 ops) ∧
  m ∈ s_models S ∧ mm ∈ m_m2m m ∧ mm_denorm mm = Some (fn, ds) ∧ ds ≠ [] ∧
  flush (env_of b S true) S id_ord 5 d = (d', Done) ∧
  getrow d' (m_table m) k = Some r ∧ fn d' (Some k) r = Ok keys ∧ ¬ (VInt <$> keys ≡ₚ linked d' mm k).
Proof.
  intros b. exists MM, (mm_d b), (flush (env_of b MM true) MM id_ord 5 (mm_d b)).1, mm_team, mm_members, fn_members, [Dep "Person" (RelBackward "team_id") []], 1.
  exists (default ∅ (getrow (flush (env_of b MM true) MM id_ord 5 (mm_d b)).1 "team" 1)), [1; 2].
  split; [destruct b; vm_compute; reflexivity|]. split; [by exists mm_ops|]. split; [by left|]. split; [by left|]. split; [done|]. split; [done|].
  split; [apply flush_pair; destruct b; vm_compute; reflexivity|].
  split; [destruct b; vm_compute; reflexivity|]. split; [destruct b; vm_compute; reflexivity|].
  intros H%Permutation_length. revert H. destruct b; vm_compute; discriminate.
Qed.
Print Assumptions m2m_denorm_refreshed_refuted.

(** ** C47, C48, C55, C56 (refuted) *)
(** [flush] of a reachable database stops, and column [f] of some row is not what its
    function returns. *)
Definition left_stale (b : backend) (S : schema) (m : model) (f : field) : Prop := ∃ ops1 ops2 k r fn ds sk d',
  mk_env b S rand0 true 10 = Ok (env_of b S true) ∧
  flush (env_of b S true) S id_ord 5 (hist2 b S ops1 ops2) = (d', Done) ∧
  m ∈ s_models S ∧ f ∈ m_fields m ∧ f_kind f = KCallback fn ds sk ∧ getrow d' (m_table m) k = Some r ∧
  ∃ v, fn d' (Some k) r = Ok (PVal v) ∧ v ≠ col r (f_col f).
Definition staleb2 (m : model) (i : nat) (k : Z) (d : db) : bool :=
  match m_fields m !! i, getrow d (m_table m) k with
  | Some f, Some r => match f_kind f with
      | KCallback fn _ _ => match fn d (Some k) r with Ok (PVal v) => negb (bool_decide (v = col r (f_col f))) | _ => false end
      | _ => false end
  | _, _ => false end.
Lemma left_stale_intro b S m i f k ops1 ops2 : m ∈ s_models S → m_fields m !! i = Some f →
  match mk_env b S rand0 true 10 with Ok _ => true | Err _ => false end = true →
  (flush (env_of b S true) S id_ord 5 (hist2 b S ops1 ops2)).2 = Done →
  staleb2 m i k (flush (env_of b S true) S id_ord 5 (hist2 b S ops1 ops2)).1 = true → left_stale b S m f.
Proof.
  intros Hm Hf HE Hd Hs. pose proof (flush_pair _ _ _ _ _ Hd) as Hp. revert Hp Hs. clear Hd. generalize (flush (env_of b S true) S id_ord 5 (hist2 b S ops1 ops2)).1. intros d' Hp.
  unfold staleb2. rewrite Hf. destruct (getrow d' (m_table m) k) as [r|] eqn:Hr; [|done]. destruct (f_kind f) as [| |fn ds sk| |] eqn:Hk; try done.
  destruct (fn d' (Some k) r) as [[v|]|] eqn:Hv; try done. intros Hn%negb_true_iff%bool_decide_eq_false.
  exists ops1, ops2, k, r, fn, ds, sk, d'. split; [|split_and!; try done; [by eapply elem_of_list_lookup_2|by exists v]].
  unfold env_of. by destruct (mk_env b S rand0 true 10).
Qed.
Ltac stale i f k o1 o2 := intros b; apply (left_stale_intro b _ _ i f k o1 o2); [set_solver|reflexivity|destruct b; vm_compute; reflexivity|destruct b; vm_compute; reflexivity|destruct b; vm_compute; reflexivity].

(** C47: a ForeignKey that refers to another column than the primary key. *)
Definition tf_f : field := cbf "t" "Doc" cb_slug [Dep "Tag" (RelForward "tag_id") []] [].
Lemma tf_stale b : left_stale b TF tf_doc tf_f.
Proof. revert b. stale 1%nat tf_f 1 tf_ops tf_upd. Qed.
(** The function only reads the rows whose column [tf] the key refers to. *)
Theorem to_field_key_tracked_refuted : ∀ b, ∃ S m o f fn dp fk tf,
  f_kind f = KCallback fn [dp] [] ∧ dep_rel dp = RelForward fk ∧ find_model S (dep_other dp) = Some o ∧
  (∀ d d' pk r r', col r fk = col r' fk →
     filter (λ p : Z * row, col p.2 tf = col r fk) (tab d (m_table o)) = filter (λ p : Z * row, col p.2 tf = col r fk) (tab d' (m_table o)) →
     fn d pk r = fn d' pk r') ∧
  left_stale b S m f.
Proof.
  intros b. exists TF, tf_doc, tf_tag, tf_f, cb_slug, (Dep "Tag" (RelForward "tag_id") []), "tag_id", "slug".
  split; [done|]. split; [done|]. split; [done|]. split; [|apply tf_stale].
  intros d d' pk r r' Hr Ht. unfold cb_slug. rewrite <- Hr. cbn [tf_tag m_table mkmodel] in Ht. by rewrite Ht.
Qed.
Print Assumptions to_field_key_tracked_refuted.

(** C48: the field reads the object its row belongs to through a generic key, and the
    dependency is declared. *)
Definition gb_f : field := cbf "t" "Tag" cb_target [Dep "Forum" (RelGenBackward "ct_id" "oid") []] [].
Lemma gb_stale b : left_stale b GB gb_tag gb_f.
Proof. revert b. stale 2%nat gb_f 1 gb_ops gb_upd. Qed.
(** The function only reads the generic key and the row it refers to. *)
Theorem generic_backward_tracked_refuted : ∀ b, ∃ S m o f fn dp ctc oidc,
  f_kind f = KCallback fn [dp] [] ∧ dep_rel dp = RelGenBackward ctc oidc ∧ find_model S (dep_other dp) = Some o ∧
  (∀ d d' pk r r', col r ctc = col r' ctc → col r oidc = col r' oidc →
     (∀ k, col r oidc = VInt k → getrow d (m_table o) k = getrow d' (m_table o) k) → fn d pk r = fn d' pk r') ∧
  left_stale b S m f.
Proof.
  intros b. exists GB, gb_tag, gb_forum, gb_f, cb_target, (Dep "Forum" (RelGenBackward "ct_id" "oid") []), "ct_id", "oid".
  split; [done|]. split; [done|]. split; [done|]. split; [|apply gb_stale].
  intros d d' pk r r' H1 H2 H3. unfold cb_target. rewrite <- H1, <- H2. destruct (col r "oid") as [|k|]; try done.
  pose proof (H3 k eq_refl) as H. cbn [gb_forum m_table mkmodel] in H. cbn. by rewrite H.
Qed.
Print Assumptions generic_backward_tracked_refuted.

(** C55: on SQLite the running update trigger of the table does not fire for the count
    it changes itself. *)
Definition sc_f : field := cbf "y" "Node" (cb_copy "kids") [] [].
Lemma sc_stale : left_stale SQLite SC sc_node sc_f.
Proof. apply (left_stale_intro _ _ _ 2%nat sc_f 1 sc_ops sc_upd); [set_solver|reflexivity|vm_compute; reflexivity|vm_compute; reflexivity|vm_compute; reflexivity]. Qed.
Lemma sc_covered : all_covered SC.
Proof.
  intros m f fn ds sk Hm Hf Hk. apply elem_of_list_singleton in Hm as ->.
  repeat (apply elem_of_cons in Hf as [->|Hf]; [try discriminate Hk|]); [|by apply elem_of_nil in Hf]. injection Hk as <- <- <-.
  exists (Reads ["kids"] []). split; [apply cb_copy_reads| |].
  - apply declaredb_spec. vm_compute. reflexivity.
  - apply trackedb_spec. vm_compute. reflexivity.
Qed.
Theorem self_count_tracked_refuted : ∃ S m f g a, wf_schema S ∧ all_covered S ∧ g ∈ m_fields m ∧
  f_kind g = KAgg a ∧ ag_rel a = m_name m ∧ (∃ fn, f_kind f = KCallback fn [] [] ∧ reads_only S m fn (Reads [f_col g] [])) ∧
  left_stale SQLite S m f.
Proof.
  exists SC, sc_node, sc_f, (aggf "kids" "Node" (Agg "Node" "parent_id" [] [] None [])), (Agg "Node" "parent_id" [] [] None []).
  split; [apply wf_schemab_spec; vm_compute; reflexivity|]. split; [exact sc_covered|]. split; [set_solver|].
  split; [done|]. split; [done|]. split; [exists (cb_copy "kids"); split; [done|apply cb_copy_reads]|exact sc_stale].
Qed.
Print Assumptions self_count_tracked_refuted.
(** The same history is handled on PostgreSQL; MySQL rejects the statement. *)
Example self_count_ex : cellv (flush (env_of Postgres SC true) SC id_ord 5 (sc_d Postgres)).1 "node" 1 "y" = Some (VInt 1) ∧
  match run_op (env_of MySQL SC true) SC (OInsert "node" [(1, sc_row VNull); (2, sc_row (VInt 1))]) d0 with Err ETableInUse => True | _ => False end.
Proof. vm_compute. split; [reflexivity|exact I]. Qed.

(** C56: a column of the parent table of a multi-table child. *)
Definition mi_f : field := cbf "y" "Bar" cb_inh [] [].
Lemma mi_stale b : left_stale b MI mi_bar mi_f.
Proof. revert b. stale 2%nat mi_f 1 mi_ops mi_upd. Qed.
(** The function only reads an inherited column of its own row. *)
Theorem inherited_column_tracked_refuted : ∀ b, ∃ S m p f g fn,
  f_kind f = KCallback fn [] [] ∧ g ∈ m_fields m ∧ find_model S (f_owner g) = Some p ∧ m_name p ≠ m_name m ∧
  (∀ d d' k r r', (λ x, col x (f_col g)) <$> getrow d (m_table p) k = (λ x, col x (f_col g)) <$> getrow d' (m_table p) k →
     fn d (Some k) r = fn d' (Some k) r') ∧
  left_stale b S m f.
Proof.
  intros b. exists MI, mi_bar, mi_place, mi_f, (plain "title" "Place"), cb_inh.
  split; [done|]. split; [set_solver|]. split; [done|]. split; [done|]. split; [|apply mi_stale].
  intros d d' k r r' H. unfold cb_inh. simpl in *.
  destruct (getrow d "place" k), (getrow d' "place" k); simpl in *; congruence.
Qed.
Print Assumptions inherited_column_tracked_refuted.
