(** * Claims on sums over decimal columns (C131, C132). *)
From Verif Require Import Base BaseLemmas Schema DecSum.

(** ** C131 *)
(** One item worth 1/2: whenever another of its columns is changed the sum grows by 1. *)
Theorem dec_sum_refuted b u h n : b ≠ SQLite → 0 < u → 2 * h = u → Z.of_nat n < 2147483647 →
  let s := dhist b u (touch h n) in
  items s = {[1 := Item (Some 1) h (Z.of_nat n)]} ∧ sums s = {[1 := (Z.of_nat n + 1) * u]} ∧ total (λ x, x) s 1 = h.
Proof. intros Hb Hu Hh Hn s. unfold s. rewrite (touch_state b Hb u Hu h n Hh Hn). cbn [items sums]. split; [done|]. split; [done|]. unfold total. cbn [items]. rewrite <- insert_empty, map_fold_insert_L; [|intros; lia|apply lookup_empty]. cbn [i_fk i_val]. rewrite decide_True by done. rewrite map_fold_empty. lia. Qed.
Print Assumptions dec_sum_refuted.
(** Values below 1/2 are lost, however many there are. *)
Theorem dec_sum_lost b u v n : b ≠ SQLite → 0 < u → 0 ≤ v → 2 * v < u →
  let s := dhist b u (many v n) in sums s !! 1 = Some 0 ∧ total (λ x, x) s 1 = Z.of_nat n * v.
Proof. intros Hb Hu Hv Hv2 s. destruct (many_state b Hb u Hu v n Hv Hv2) as (H1 & H2 & _). fold s in H1, H2. rewrite H1. split; [apply lookup_singleton|done]. Qed.
Print Assumptions dec_sum_lost.
(** On SQLite, saving the parent cuts the fraction off; the items can then not be deleted.  0.6 + 0.6. *)
Definition cut_ops : list dop := [PIns 1; IIns 1 (Item (Some 1) 6 0); IIns 2 (Item (Some 1) 6 0)].
Theorem dec_sum_sqlite_refuted :
  sums (dhist SQLite 10 cut_ops) !! 1 = Some 12 ∧
  let s := dhist SQLite 10 (cut_ops ++ [PSave 1]) in sums s !! 1 = Some 10 ∧ total (λ x, x) s 1 = 12 ∧
  drun SQLite 10 (IDel 2) (dstep SQLite 10 s (IDel 1)) = Raise DCheck.
Proof. split; [vm_compute; reflexivity|]. cbv zeta. split_and!; vm_compute; reflexivity. Qed.
Print Assumptions dec_sum_sqlite_refuted.
(** On MySQL an item worth 0.4 can not be deleted, nor its value be changed to 0. *)
Theorem dec_sum_mysql_refuted : let s := dhist MySQL 10 (many 4 1) in
  sums s !! 1 = Some 0 ∧ items s !! 0 = Some (Item (Some 1) 4 0) ∧
  drun MySQL 10 (IDel 0) s = Raise DRange ∧ drun MySQL 10 (IUpd 0 (Item (Some 1) 0 0)) s = Raise DRange.
Proof. cbv zeta. split_and!; vm_compute; reflexivity. Qed.
Print Assumptions dec_sum_mysql_refuted.
(** The increment comes first: a value can not be changed although the sum before and after fits (whole numbers). *)
Theorem dec_sum_limit_refuted b : b ≠ SQLite → ∃ i o x, let s := dhist b 1 [PIns 1; IIns i o] in
  items s !! i = Some o ∧ sums s !! 1 = Some (i_val o) ∧ i_fk o = Some 1 ∧ i_fk x = Some 1 ∧
  0 ≤ i_val x < i_val o ∧ in_range b 1 (i_val o) = true ∧ drun b 1 (IUpd i x) s = Raise DRange.
Proof.
  intros Hb. exists 1, (Item (Some 1) (match b with MySQL => 4294967295 | _ => 2147483647 end) 0), (Item (Some 1) 1 0).
  destruct b; [by destruct Hb| |]; cbv zeta; (split; [vm_compute; reflexivity|]; split; [vm_compute; reflexivity|]; split; [done|]; split; [done|]; split; [cbn [i_val]; lia|]; split; vm_compute; reflexivity).
Qed.
Print Assumptions dec_sum_limit_refuted.
Example dec_sum_ex : sums (dhist Postgres 10 (touch 5 3)) !! 1 = Some 40 ∧ sums (dhist MySQL 100 (many 49 6)) !! 1 = Some 0.
Proof. split; vm_compute; reflexivity. Qed.

(** ** C132 *)
(** PostgreSQL and MySQL: the sum of the rounded values, and one more for every time a value that ends in a half was
    taken off it (by an update or a delete). *)
Theorem dec_sum_formula b u ops : b ≠ SQLite → 0 < u → ∀ k c, sums (dhist b u ops) !! k = Some c →
  c = total (up u) (dhist b u ops) k + u * halves b u ops dst0 k.
Proof. intros Hb Hu k c. by apply formula. Qed.
Print Assumptions dec_sum_formula.
(** So it is off by at most 1/2 per item and 1 per such statement. *)
Theorem dec_sum_close b u ops : b ≠ SQLite → 0 < u → let s := dhist b u ops in ∀ k c, sums s !! k = Some c →
  2 * Z.abs (c - total (λ x, x) s k) ≤ u * total (λ _, 1) s k + 2 * u * halves b u ops dst0 k.
Proof. intros Hb Hu s k c. by apply formula_close. Qed.
Print Assumptions dec_sum_close.
(** SQLite: it is right until the parent is saved, and then lower by less than 1 per save. *)
Theorem dec_sum_sqlite u ops : 0 < u → let s := dhist SQLite u ops in ∀ k c, sums s !! k = Some c →
  total (λ x, x) s k - u * saves ops k ≤ c ≤ total (λ x, x) s k.
Proof. intros Hu s k c. by apply sqlite_bounds. Qed.
Print Assumptions dec_sum_sqlite.
(** Whole numbers: it is right everywhere. *)
Theorem dec_sum_whole b u ops : 0 < u → Forall (whole u) ops → ∀ k c, sums (dhist b u ops) !! k = Some c → c = total (λ x, x) (dhist b u ops) k.
Proof. intros Hu. by apply whole_exact. Qed.
Print Assumptions dec_sum_whole.
(** On PostgreSQL values that are not negative never violate the check. *)
Theorem dec_sum_no_check u ops o : 0 < u → Forall not_negative ops → not_negative o → drun Postgres u o (dhist Postgres u ops) ≠ Raise DCheck.
Proof. intros Hu. by apply pg_no_check. Qed.
Print Assumptions dec_sum_no_check.
(** 0.4, 1.5 and 2.6 for parent 1, then 1.5 is moved to parent 2 and 2.6 deleted. *)
Definition dec_ops : list dop :=
  [PIns 1; PIns 2; IIns 1 (Item (Some 1) 4 0); IIns 2 (Item (Some 1) 15 0); IIns 3 (Item (Some 1) 26 0); IUpd 2 (Item (Some 2) 15 0); PSave 1; IDel 3].
Example dec_sum_formula_ex : let s := dhist Postgres 10 dec_ops in
  sums s !! 1 = Some 10 ∧ total (up 10) s 1 = 0 ∧ halves Postgres 10 dec_ops dst0 1 = 1 ∧ sums s !! 2 = Some 20 ∧ halves Postgres 10 dec_ops dst0 2 = 0 ∧
  sums (dhist SQLite 10 dec_ops) !! 2 = Some 15 ∧ sums (dhist SQLite 10 dec_ops) !! 1 = Some 4 ∧ saves dec_ops 1 = 1 ∧ sums (dhist SQLite 10 (take 6 dec_ops)) !! 1 = Some 30.
Proof. cbv zeta. split_and!; vm_compute; reflexivity. Qed.
Example dec_sum_whole_ex : Forall (whole 1) dec_ops ∧ Forall not_negative dec_ops ∧ ∀ b, sums (dhist b 1 dec_ops) !! 1 = Some 4 ∧ sums (dhist b 1 dec_ops) !! 2 = Some 15.
Proof.
  split; [repeat constructor; cbn; try apply Z.divide_1_l|]. split; [repeat constructor; cbn; lia|]. intros b. destruct b; split; vm_compute; reflexivity.
Qed.
