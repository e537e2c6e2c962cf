(** * Claims on filters that follow foreign keys (C133, C134). *)
From Verif Require Import Base BaseLemmas Schema SpanFilter.

(** ** C133 *)
(** A lookup on a third table: no row of the counted model can be written, whatever its keys are. *)
Theorem span_other_raises flt P s : LOth P ∈ flt →
  (∀ i x, kids s !! i = None → kid_ok s x = true → srun flt (KidIns i x) s = Err ESyntax) ∧
  (∀ i o x, kids s !! i = Some o → o ≠ x → kid_ok s x = true → srun flt (KidUpd i x) s = Err ESyntax) ∧
  (∀ i o, kids s !! i = Some o → srun flt (KidDel i) s = Err ESyntax).
Proof.
  intros HP. pose proof (other_no_scope flt P HP) as Hn. split_and!.
  - intros i x Hi Hx. cbn [srun]. rewrite Hi, Hx. unfold sbump. by rewrite Hn.
  - intros i o x Hi Ho Hx. cbn [srun]. rewrite Hi, Hx, bool_decide_eq_false_2 by done. unfold sbump. by rewrite Hn.
  - intros i o Hi. cbn [srun]. rewrite Hi. unfold sbump. by rewrite Hn.
Qed.
Print Assumptions span_other_raises.
Definition positive : Z → bool := λ v, bool_decide (0 < v).
Definition a_kid : kid := Kid (Some 1) (Some 5) 3.
Definition span_ops : list sop := [ParIns 1 1; OthIns 5 1].
Example span_other_ex : let s := shist [LOth positive] span_ops in
  kids s !! 1 = None ∧ kid_ok s a_kid = true ∧ look_true s a_kid (LOth positive) = true ∧ kid_ok s (Kid None None 3) = true.
Proof. vm_compute. done. Qed.
(** A lookup on the aggregate's own model: the count is not changed when that column is, and it can keep
    rows from being deleted. *)
Theorem span_parent_refuted : let flt := [LPar positive] in
  (let s := shist flt (span_ops ++ [KidIns 1 a_kid; ParUpd 1 0]) in
   pars s !! 1 = Some (Par 0 1) ∧ books flt s 1 = 0 ∧ pars (sstep flt s (KidDel 1)) !! 1 = Some (Par 0 1)) ∧
  (let s := shist flt (span_ops ++ [ParUpd 1 0; KidIns 1 a_kid; ParUpd 1 1]) in
   pars s !! 1 = Some (Par 1 0) ∧ books flt s 1 = 1 ∧ srun flt (KidDel 1) s = Err ECheck).
Proof. cbv zeta. split; (split; [vm_compute; reflexivity|split; vm_compute; reflexivity]). Qed.
Print Assumptions span_parent_refuted.

(** ** C134 *)
(** As long as no statement changes what the lookups say about a parent, the counts are right. *)
Theorem span_count flt ops : steady_all flt sst0 ops → let s := shist flt ops in
  (∀ k p, pars s !! k = Some p → p_cnt p = books flt s k) ∧ ∀ o, srun flt o s ≠ Err ECheck.
Proof.
  intros Hs s. assert (Hr : right flt s) by (apply shist_right; [done|apply right0]). split; [intros k p; by apply right_books|intros o; by apply right_no_check].
Qed.
Print Assumptions span_count.
(** In particular with lookups on the columns of the counted model. *)
Theorem span_count_own flt ops : Forall is_own flt → let s := shist flt ops in
  (∀ k p, pars s !! k = Some p → p_cnt p = books flt s k) ∧ ∀ o, srun flt o s ≠ Err ECheck.
Proof. intros Hf. apply span_count. by apply own_steady. Qed.
Print Assumptions span_count_own.
Definition big : Z → bool := λ v, bool_decide (5 < v).
(** Books 7, 8 and 2 of author 1 and 9 of author 2, whose column is 0; book 2 goes to author 1, then book 3 becomes 6. *)
Definition span_more : list sop :=
  [ParIns 1 1; ParIns 2 0; ParIns 4 3; KidIns 1 (Kid (Some 1) None 7); KidIns 2 (Kid (Some 4) None 8); KidIns 3 (Kid (Some 1) None 2); KidIns 4 (Kid (Some 2) None 9);
   ParUpd 1 4; KidUpd 2 (Kid (Some 1) None 8); KidUpd 3 (Kid (Some 1) None 6); KidDel 1; KidIns 6 (Kid None None 7)].
Example span_count_ex : steady_all [LPar positive; LOwn big] sst0 span_more ∧ let s := shist [LPar positive; LOwn big] span_more in
  pars s !! 1 = Some (Par 4 2) ∧ pars s !! 2 = Some (Par 0 0) ∧ pars s !! 4 = Some (Par 3 0) ∧
  pars (shist [LOwn big] span_more) !! 2 = Some (Par 0 1) ∧ Forall is_own [LOwn big].
Proof.
  split.
  - cbn [steady_all span_more]. repeat (split; [first [done|cbn [steady]]|]); [|done]. intros P p HP Hp. apply elem_of_cons in HP as [[= ->]|HP]; [|apply elem_of_list_singleton in HP; done].
    vm_compute in Hp. injection Hp as <-. done.
  - cbv zeta. split_and!; try (vm_compute; reflexivity). by repeat constructor.
Qed.
(** And the rows can be written: a statement that keeps the foreign keys writes just its row. *)
Theorem span_writes flt ops o : steady_all flt sst0 ops → (∀ P, LOth P ∉ flt) → let s := shist flt ops in
  match o with
  | KidIns i x => kids s !! i = None ∧ kid_ok s x = true
  | KidUpd i x => is_Some (kids s !! i) ∧ kid_ok s x = true
  | KidDel i => is_Some (kids s !! i)
  | _ => False
  end →
  ∃ s', srun flt o s = Ok s' ∧ oths s' = oths s ∧ p_col <$> pars s' = p_col <$> pars s ∧
  kids s' = match o with KidIns i x | KidUpd i x => <[i := x]> (kids s) | KidDel i => delete i (kids s) | _ => kids s end.
Proof.
  intros Hs Hf s Hw. destruct (srun_cases flt o s (scope_all flt Hf) Hw) as [He|(s' & H1 & H2 & H3 & H4)].
  - by destruct (proj2 (span_count flt ops Hs) o).
  - exists s'. split_and!; done.
Qed.
Print Assumptions span_writes.
Example span_writes_ex : let s := shist [LPar positive; LOwn big] span_more in
  is_Some (kids s !! 4) ∧ kid_ok s (Kid (Some 1) None 9) = true ∧ pars (sstep [LPar positive; LOwn big] s (KidUpd 4 (Kid (Some 1) None 9))) !! 1 = Some (Par 4 3).
Proof. vm_compute. split; [eauto|done]. Qed.
