(** * Claims on the locks of the daemon (C140, C141). *)
From Verif Require Import Base BaseLemmas Schema DaemonLocks.
From Verif Require Daemon.

(** ** C140 *)
(** Whatever the interval, a row that a round has saved stays locked until the daemon wakes up. *)
Theorem asleep_with_locks i sv fg n k b u r : 0 < i → (k < n)%nat → Z.of_nat k * i ≤ u < (Z.of_nat k + 1) * i → r ∈ sv k →
  waits b (daemon_after i sv fg n) u r = (Z.of_nat k + 1) * i - u.
Proof.
  intros Hi Hk Hu Hr. rewrite (waits_round i sv fg n k) by done. replace (keeps_out b r (Period 0 0 (sv k))) with true; [done|].
  symmetry. destruct b; cbn [keeps_out p_rows]; [apply negb_true_iff, bool_decide_eq_false; intros E; rewrite E in Hr; by apply elem_of_nil in Hr|by apply bool_decide_eq_true..].
Qed.
Print Assumptions asleep_with_locks.
Definition saves_one : nat → list Z := λ k, if bool_decide (k = 1%nat) then [7] else [].
Example asleep_with_locks_ex : 7 ∈ saves_one 1 ∧ Z.of_nat 1 * 10 ≤ 11 < (Z.of_nat 1 + 1) * 10.
Proof. split; [left|lia]. Qed.
(** On PostgreSQL a writer of the row waits 9 of 10 seconds although the daemon does nothing; on SQLite writers of any other row, too, and they give up. *)
Theorem asleep_refuted : ∃ i sv u, (∀ fg b, waits b (daemon_after i sv fg 3) u 7 = 9) ∧
  ∀ fg, waits Postgres (daemon_after i sv fg 3) u 8 = 0 ∧ gives_up SQLite 5 (daemon_after i sv fg 3) u 8 = true.
Proof.
  exists 10, saves_one, 11. split; [intros fg b; rewrite (asleep_with_locks 10 saves_one fg 3 1) by (lia || left); done|].
  intros fg. destruct fg; split; vm_compute; reflexivity.
Qed.
Print Assumptions asleep_refuted.

(** ** C141 *)
(** The wait in general: until the next commit if the round has saved the row (on SQLite any row), else none. *)
Theorem daemon_wait i sv fg n k b u r : 0 < i → (k < n)%nat → Z.of_nat k * i ≤ u < (Z.of_nat k + 1) * i →
  waits b (daemon_after i sv fg n) u r =
  (if bool_decide (b = SQLite ∧ sv k ≠ [] ∨ b ≠ SQLite ∧ r ∈ sv k) then (Z.of_nat k + 1) * i - u else 0).
Proof.
  intros Hi Hk Hu. rewrite (waits_round i sv fg n k) by done.
  replace (keeps_out b r (Period 0 0 (sv k))) with (bool_decide (b = SQLite ∧ sv k ≠ [] ∨ b ≠ SQLite ∧ r ∈ sv k)); [done|].
  destruct b; cbn [keeps_out p_rows]; [rewrite <- bool_decide_not|..]; apply bool_decide_ext; naive_solver.
Qed.
Print Assumptions daemon_wait.
(** So nobody waits longer than the interval, and a round without markers keeps nobody out. *)
Theorem wait_bounded i sv fg n b u r : 0 < i → 0 ≤ u < Z.of_nat n * i → 0 ≤ waits b (daemon_after i sv fg n) u r ≤ i.
Proof.
  intros Hi Hu. destruct (round_of i u Hi) as [k Hk]; [lia|]. assert (k < n)%nat by nia. rewrite (daemon_wait i sv fg n k) by done.
  destruct (bool_decide _); lia.
Qed.
Print Assumptions wait_bounded.
Example wait_bounded_ex : waits MySQL (daemon_after 10 saves_one true 3) 10 7 = 10 ∧ waits MySQL (daemon_after 10 saves_one true 3) 9 7 = 0 ∧ 0 ≤ 10 < Z.of_nat 3 * 10.
Proof. split; [vm_compute; reflexivity|]. split; [vm_compute; reflexivity|lia]. Qed.
(** Between two rounds the daemon holds nothing; with an interval of at most 5 seconds no writer on SQLite gives up; elsewhere none does. *)
Theorem daemon_awake i sv fg n : l_held (daemon_after i sv fg n) = [] ∧ l_flushes (daemon_after i sv fg n) = n ∧
  (∀ b t u r, b ≠ SQLite → gives_up b t (daemon_after i sv fg n) u r = false) ∧
  ∀ b u r, 0 < i ≤ 5 → 0 ≤ u < Z.of_nat n * i → gives_up b 5 (daemon_after i sv fg n) u r = false.
Proof.
  split; [by rewrite daemon_after_eq|]. split; [by rewrite daemon_after_eq|].
  split; [intros b t u r Hb; apply bool_decide_eq_false; by intros [? _]|]. intros b u r Hi Hu. apply bool_decide_eq_false. intros [_ Hw].
  pose proof (wait_bounded i sv fg n b u r ltac:(lia) Hu). lia.
Qed.
Print Assumptions daemon_awake.
(** However the command ends without an error, by an interrupt or because it was told to run once, nothing stays locked. *)
Theorem daemon_ends_free i sv running fg ro s : (Daemon.handle running fg ro s).2 = Daemon.FExit ∨ (Daemon.handle running fg ro s).2 = Daemon.FReturn →
  l_held (dtime i sv (Daemon.handle running fg ro s).1) = [].
Proof. exact (ends_free i sv running fg ro s). Qed.
Print Assumptions daemon_ends_free.
Example daemon_ends_free_ex : let s := [Daemon.RFine; Daemon.RIntFlush] in (Daemon.handle (Daemon.Ret false) true false s).2 = Daemon.FExit ∧
  l_held (dtime 10 (λ _, [7]) (Daemon.handle (Daemon.Ret false) true false s).1) = [] ∧
  l_held (dtime 10 (λ _, [7]) (Daemon.handle (Daemon.Ret false) true false [Daemon.RErrFlush]).1) = [7].
Proof. vm_compute. done. Qed.
