(** * Claims on the table of markers (C124, C125). *)
From Verif Require Import Base BaseLemmas Schema MarkTable.
Open Scope list_scope.

(** ** C124 *)
(** Both ways of migrating from nothing end with the same table, the empty one that Base.v assumes. *)
Theorem migrations_agree : ∃ t, django_0001 None = Ok (Some t) ∧ (let* s := south_0001 None in south_0002 s) = Ok (Some t) ∧
  mt_oid t = Text ∧ mt_unique t = false ∧ mt_rows t = [].
Proof. exists (MTable Text false []). repeat split. Qed.
Print Assumptions migrations_agree.
(** Whatever happened to the table between the two South migrations, the second one runs, keeps
    every marker in its place and leaves the same structure. *)
Theorem south_0002_keeps b s ops t : south_0001 None = Ok (Some s) → t = foldl (mstep b) s ops →
  ∃ t', south_0002 (Some t) = Ok (Some t') ∧ mt_rows t' = mt_rows t ∧ mt_oid t' = Text ∧ mt_unique t' = false.
Proof.
  intros [= <-] ->. set (t := foldl _ _ _). assert (Hu : ∀ ops t0, mt_unique t0 = true → mt_unique (foldl (mstep b) t0 ops) = true).
  { clear. intros ops. induction ops as [|o ops IH]; intros t0 H; [done|]. simpl. apply IH. by destruct o. }
  specialize (Hu ops (MTable PosInt true []) eq_refl). fold t in Hu. destruct t as [ty u rows]. simpl in Hu. subst u. by eexists.
Qed.
Print Assumptions south_0002_keeps.
(** On the table so made a statement of a trigger adds all its rows at the end, on every backend,
    and the constraints stay as they are. *)
Theorem migrated_table_appends b t ops l : django_0001 None = Ok (Some t) →
  mt_rows (mstep b (foldl (mstep b) t ops) (MIns l)) = mt_rows (foldl (mstep b) t ops) ++ l ∧
  mt_unique (mstep b (foldl (mstep b) t ops) (MIns l)) = false.
Proof.
  intros [= <-]. destruct (run_plain b (MTable Text false []) ops eq_refl) as [Hu _]. cbn [mstep]. unfold ins. cbn [mt_rows mt_unique]. by rewrite Hu.
Qed.
Print Assumptions migrated_table_appends.
Example migrations_ex : (let* s := south_0001 None in
    match s with Some t => south_0002 (Some (foldl (mstep Postgres) t [MIns [(1, Some "1"); (1, Some "2")]; MIns [(1, Some "1")]; MDel (1, Some "2")])) | None => Err EValue end) =
  Ok (Some (MTable Text false [(1, Some "1")])) ∧
  mstep SQLite (MTable Text false [(1, Some "1")]) (MIns [(1, Some "1"); (2, None)]) = MTable Text false [(1, Some "1"); (1, Some "1"); (2, None)].
Proof. split; vm_compute; reflexivity. Qed.

(** ** C125 *)
(** "The second South migration can be undone": only while no marker is there twice. *)
Theorem south_0002_undone t : mt_unique t = false →
  (∃ t', south_0002_back (Some t) = Ok t') ↔ ∀ i j m, mt_rows t !! i = Some m → mt_rows t !! j = Some m → m.2 ≠ None → i = j.
Proof.
  intros Hu. destruct t as [ty u rows]. simpl in Hu. subst u. unfold south_0002_back, create_unique. cbn [mt_rows mt_oid].
  assert (Hiff : no_dups rows ↔ ∀ i j m, rows !! i = Some m → rows !! j = Some m → m.2 ≠ None → i = j).
  { clear. unfold no_dups. induction rows as [|a rows IH]; [split; [intros _ i j m H; done|intros _; constructor]|]. rewrite filter_cons. split.
    - intros Hd i j m Hi Hj Hm. destruct (decide (a.2 ≠ None)) as [Ha|Ha].
      + apply NoDup_cons in Hd as [Hn Hd]. destruct i as [|i], j as [|j]; simpl in Hi, Hj; [done|..].
        * injection Hi as ->. exfalso. apply Hn, elem_of_list_filter. split; [done|]. by eapply elem_of_list_lookup_2.
        * injection Hj as ->. exfalso. apply Hn, elem_of_list_filter. split; [done|]. by eapply elem_of_list_lookup_2.
        * f_equal. by eapply IH.
      + destruct i as [|i], j as [|j]; simpl in Hi, Hj; [done| by injection Hi as -> | by injection Hj as -> |]. f_equal. by eapply IH.
    - intros H. assert (Hr : NoDup (filter (λ m : marker, m.2 ≠ None) rows)).
      { apply IH. intros i j m Hi Hj Hm. assert (Datatypes.S i = Datatypes.S j) as [= ?]; [|done]. by eapply (H (Datatypes.S i) (Datatypes.S j) m). }
      destruct (decide (a.2 ≠ None)) as [Ha|Ha]; [|done]. apply NoDup_cons. split; [|done]. intros [_ Hin]%elem_of_list_filter.
      apply elem_of_list_lookup in Hin as [i Hi]. by specialize (H 0%nat (Datatypes.S i) a eq_refl Hi Ha). }
  rewrite <- Hiff. destruct (decide (no_dups rows)) as [Hd|Hd]; cbn [rbind alter_column].
  - split; [done|]. intros _. by eexists.
  - split; [by intros [? ?]|done].
Qed.
Print Assumptions south_0002_undone.
Theorem south_0002_undo_refuted : ∃ t ops b, django_0001 None = Ok (Some t) ∧ south_0002_back (Some (foldl (mstep b) t ops)) = Err EIntegrity.
Proof. exists (MTable Text false []), [MIns [(1, Some "1")]; MIns [(1, Some "1")]], SQLite. split; vm_compute; reflexivity. Qed.
Print Assumptions south_0002_undo_refuted.
(** "With the constraint the same rows are marked": refuted on Postgres.  A statement that marks
    two rows, one of which is marked already, marks nothing. *)
Theorem unique_loses_markers_refuted : ∃ s t ops m, south_0001 None = Ok (Some s) ∧ django_0001 None = Ok (Some t) ∧
  m ∈ mt_rows (foldl (mstep Postgres) t ops) ∧ m ∉ mt_rows (foldl (mstep Postgres) s ops).
Proof.
  exists (MTable PosInt true []), (MTable Text false []), [MIns [(1, Some "2")]; MIns [(1, Some "1"); (1, Some "2")]], (1, Some "1").
  split; [vm_compute; reflexivity|]. split; [vm_compute; reflexivity|]. split; vm_compute; set_solver.
Qed.
Print Assumptions unique_loses_markers_refuted.
(** Such a statement, and only such a statement, marks nothing. *)
Theorem postgres_statement_lost t l : mt_unique t = true →
  mt_rows (mstep Postgres t (MIns l)) = mt_rows t ++ l ∨
  (mt_rows (mstep Postgres t (MIns l)) = mt_rows t ∧ ∃ l1 m l2, l = l1 ++ m :: l2 ∧ m.2 ≠ None ∧ m ∈ mt_rows t ++ l1).
Proof.
  intros Hu. cbn [mstep]. unfold ins. cbn [mt_rows]. rewrite Hu. destruct (ins_plain (mt_rows t) l) as [r|] eqn:E; simpl.
  - left. by apply plain_rows in E.
  - right. split; [done|]. by apply plain_none.
Qed.
Print Assumptions postgres_statement_lost.
(** What holds: the same rows are marked on SQLite and MySQL, and on Postgres as long as every
    statement marks one row.  No marker is there twice. *)
Theorem unique_same_markers b s t ops : south_0001 None = Ok (Some s) → django_0001 None = Ok (Some t) →
  (b = Postgres → ∀ l, MIns l ∈ ops → length l = 1%nat) →
  (∀ m, m ∈ mt_rows (foldl (mstep b) s ops) ↔ m ∈ mt_rows (foldl (mstep b) t ops)) ∧
  (∀ m, m.2 ≠ None → (length (filter (λ x, x = m) (mt_rows (foldl (mstep b) s ops))) ≤ 1)%nat).
Proof.
  intros [= <-] [= <-] Hp. split.
  - apply same_markers; [done|]. apply Forall_forall. intros [l|m] Ho; simpl; [|done]. intros Hb. specialize (Hp Hb l Ho). destruct l as [|m [|? ?]]; simpl in Hp; try lia. by exists m.
  - intros m Hm. assert (Hd : no_dups (mt_rows (foldl (mstep b) (MTable PosInt true []) ops))) by (apply run_dups; [done|constructor]).
    revert Hd. generalize (mt_rows (foldl (mstep b) (MTable PosInt true []) ops)). clear -Hm. unfold no_dups. intros rows. induction rows as [|a rows IH]; [intros _; simpl; lia|].
    rewrite !filter_cons. destruct (decide (a = m)) as [->|Hne].
    + rewrite decide_True by done. intros [Hn _]%NoDup_cons. rewrite decide_True by done. cbn [length]. match goal with |- (Datatypes.S (length ?L) ≤ 1)%nat => assert (L = []) as Hnil end; [|rewrite Hnil; simpl; lia].
      apply elem_of_nil_inv. intros x [-> Hx]%elem_of_list_filter. by apply Hn, elem_of_list_filter.
    + destruct (decide (a.2 ≠ None)); [intros [_ Hd]%NoDup_cons|intros Hd]; rewrite decide_False by done; by apply IH.
Qed.
Print Assumptions unique_same_markers.
Example unique_ex : (λ b, mt_rows (foldl (mstep b) (MTable PosInt true []) [MIns [(1, Some "2")]; MIns [(1, None)]; MIns [(1, Some "1")]; MIns [(1, Some "2")]; MIns [(1, None)]])) <$> [SQLite; Postgres; MySQL] =
  [[(1, None); (1, Some "1"); (1, Some "2"); (1, None)]; [(1, Some "2"); (1, None); (1, Some "1"); (1, None)]; [(1, Some "2"); (1, None); (1, Some "1"); (1, None)]].
Proof. vm_compute. reflexivity. Qed.
