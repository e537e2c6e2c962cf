(** * The locks of the daemon (management/commands/denorm_daemon.py:14-21, 71-94).

    The command switches autocommit off, and every round is flush(), sleep(interval), commit() (lines 86-89; [Daemon.loop]).  So all rows
    that flush() has saved stay locked while the daemon sleeps; SQLite locks the whole database as soon as one row is written.

    Simplifications: flush() and commit() take no time; the rows that a flush writes are given ([sv k]
    for flush number [k]; denorms.py:593-635: it saves the marked rows and deletes their markers); a waiting writer goes ahead at the
    commit; SQLite's timeout is a number of seconds (5 by default in Python's sqlite3). *)
From Verif Require Import Base BaseLemmas Schema.
From Verif Require Daemon.
Local Open Scope Z_scope.

(** A time with nothing but sleep, and the rows locked in it. *)
Record period := Period { p_from : Z; p_to : Z; p_rows : list Z }.
(** The clock, whether autocommit is on, the rows written since the last commit, the number of flushes so far, and the sleeps so far. *)
Record dl := Dl { l_now : Z; l_auto : bool; l_held : list Z; l_flushes : nat; l_past : list period }.
Definition dl0 : dl := Dl 0 true [] 0 [].
(** What denorm_daemon.py:16-19 and 83-91 do to the locks: a transaction keeps the rows it has written locked until it is committed; setting
    autocommit on commits (Django). *)
Definition dact (i : Z) (sv : nat → list Z) (s : dl) (a : Daemon.act) : dl :=
  match a with
  | Daemon.AAutocommit on => Dl (l_now s) on (if on then [] else l_held s) (l_flushes s) (l_past s)
  | Daemon.ADaemonize => s
  | Daemon.AFlush => Dl (l_now s) (l_auto s) (if l_auto s then [] else l_held s ++ sv (l_flushes s)) (S (l_flushes s)) (l_past s)
  | Daemon.ASleep => Dl (l_now s + i) (l_auto s) (l_held s) (l_flushes s) (l_past s ++ [Period (l_now s) (l_now s + i) (l_held s)])
  | Daemon.ACommit => Dl (l_now s) (l_auto s) [] (l_flushes s) (l_past s)
  end.
Definition dtime (i : Z) (sv : nat → list Z) (t : list Daemon.act) : dl := foldl (dact i sv) dl0 t.
(** The daemon after [n] rounds without interrupt (denorm_daemon.py:71-94). *)
Definition daemon_after (i : Z) (sv : nat → list Z) (fg : bool) (n : nat) : dl :=
  dtime i sv (Daemon.handle (Daemon.Ret false) fg false (replicate n Daemon.RFine)).1.
(** Does the period [p] keep a writer of row [r] out?  Row locks on PostgreSQL and MySQL, one lock of the database on SQLite. *)
Definition keeps_out (b : backend) (r : Z) (p : period) : bool :=
  match b with SQLite => negb (bool_decide (p_rows p = [])) | _ => bool_decide (r ∈ p_rows p) end.
(** How long a writer of row [r] that comes at the time [u] waits. *)
Definition waits (b : backend) (s : dl) (u r : Z) : Z :=
  match list_find (λ p, p_from p ≤ u ∧ u < p_to p ∧ keeps_out b r p = true) (l_past s) with Some (_, p) => p_to p - u | None => 0 end.
(** On SQLite the writer gives up ("database is locked"). *)
Definition gives_up (b : backend) (timeout : Z) (s : dl) (u r : Z) : bool := bool_decide (b = SQLite ∧ timeout < waits b s u r).

(** ** Lemmas *)
(** The sleeps of [n] rounds. *)
Definition rounds_past (i : Z) (sv : nat → list Z) (n : nat) : list period := (λ k : nat, Period (Z.of_nat k * i) ((Z.of_nat k + 1) * i) (sv k)) <$> seq 0 n.
Lemma round_step i sv s n : l_now s = Z.of_nat n * i → l_auto s = false → l_held s = [] → l_flushes s = n →
  foldl (dact i sv) s [Daemon.AFlush; Daemon.ASleep; Daemon.ACommit] =
  Dl (Z.of_nat (S n) * i) false [] (S n) (l_past s ++ [Period (Z.of_nat n * i) ((Z.of_nat n + 1) * i) (sv n)]).
Proof.
  intros Hn Ha Hh Hf. cbn [foldl dact l_now l_auto l_held l_flushes l_past]. rewrite Hn, Ha, Hh, Hf. cbn [app].
  f_equal; [lia|]. f_equal. f_equal. f_equal. lia.
Qed.
Lemma rounds_from i sv m : ∀ n s, l_now s = Z.of_nat n * i → l_auto s = false → l_held s = [] → l_flushes s = n →
  foldl (dact i sv) s (concat (replicate m [Daemon.AFlush; Daemon.ASleep; Daemon.ACommit])) =
  Dl (Z.of_nat (n + m) * i) false [] (n + m) (l_past s ++ ((λ k : nat, Period (Z.of_nat k * i) ((Z.of_nat k + 1) * i) (sv k)) <$> seq n m)).
Proof.
  induction m as [|m IH]; intros n s Hn Ha Hh Hf.
  - cbn [replicate concat foldl seq fmap list_fmap]. rewrite app_nil_r. replace (n + 0)%nat with n by lia. destruct s. cbn in *. by subst.
  - change (concat (replicate (S m) ?x)) with (x ++ concat (replicate m x)). rewrite foldl_app, (round_step i sv s n) by done.
    rewrite (IH (S n)) by done. cbn [l_past seq fmap list_fmap]. rewrite <- app_assoc. cbn [app].
    replace (n + S m)%nat with (S n + m)%nat by lia. done.
Qed.
Lemma loop_fine n : Daemon.loop false (replicate n Daemon.RFine) = (concat (replicate n [Daemon.AFlush; Daemon.ASleep; Daemon.ACommit]), Daemon.FRunning).
Proof. induction n as [|n IH]; [done|]. cbn [replicate Daemon.loop concat]. rewrite IH. done. Qed.
Lemma daemon_after_eq i sv fg n : daemon_after i sv fg n = Dl (Z.of_nat n * i) false [] n (rounds_past i sv n).
Proof.
  unfold daemon_after, dtime. cbn [Daemon.handle]. rewrite loop_fine. cbn [fst snd]. rewrite app_nil_r.
  replace (foldl (dact i sv) dl0 _) with (foldl (dact i sv) (Dl 0 false [] 0 []) (concat (replicate n [Daemon.AFlush; Daemon.ASleep; Daemon.ACommit]))).
  - rewrite (rounds_from i sv n 0) by done. done.
  - destruct fg; done.
Qed.
(** Periods do not overlap, so the one that is found is that of the time. *)
Lemma waits_round i sv fg n k b u r : 0 < i → (k < n)%nat → Z.of_nat k * i ≤ u < (Z.of_nat k + 1) * i →
  waits b (daemon_after i sv fg n) u r = if keeps_out b r (Period 0 0 (sv k)) then (Z.of_nat k + 1) * i - u else 0.
Proof.
  intros Hi Hk Hu. rewrite daemon_after_eq. unfold waits. cbn [l_past].
  destruct (list_find _ (rounds_past i sv n)) as [[j p]|] eqn:E.
  - apply list_find_Some in E as (Hj & (H1 & H2 & H3) & _). unfold rounds_past in Hj. rewrite list_lookup_fmap in Hj.
    destruct (seq 0 n !! j) as [j'|] eqn:Es; [|done]. apply lookup_seq in Es as [-> Hlt]. cbn in Hj. injection Hj as <-. cbn [p_from p_to] in *.
    assert (k = j) as -> by nia. assert (keeps_out b r (Period 0 0 (sv j)) = true) as -> by (by destruct b). done.
  - destruct (keeps_out b r (Period 0 0 (sv k))) eqn:Hr; [|done]. exfalso. apply list_find_None in E. rewrite Forall_forall in E.
    apply (E (Period (Z.of_nat k * i) ((Z.of_nat k + 1) * i) (sv k))).
    + unfold rounds_past. apply elem_of_list_fmap. exists k. split; [done|]. apply elem_of_seq. lia.
    + cbn [p_from p_to]. split_and!; [lia|lia|]. by destruct b.
Qed.
Lemma round_of i u : 0 < i → 0 ≤ u → ∃ k, Z.of_nat k * i ≤ u < (Z.of_nat k + 1) * i.
Proof.
  intros Hi Hu. exists (Z.to_nat (u / i)). rewrite Z2Nat.id by (apply Z.div_pos; lia). pose proof (Z.mul_div_le u i Hi). pose proof (Z.mul_succ_div_gt u i Hi). nia.
Qed.
(** However it ends. *)
Lemma loop_exit ro s : (Daemon.loop ro s).2 = Daemon.FExit → ∃ t, (Daemon.loop ro s).1 = t ++ [Daemon.ACommit].
Proof.
  induction s as [|r s IH]; [by destruct ro|]. destruct ro; [done|]. cbn [Daemon.loop].
  destruct r; cbn [fst snd]; try done; intros Hf.
  - apply IH in Hf as [t ->]. exists ([Daemon.AFlush; Daemon.ASleep; Daemon.ACommit] ++ t). by rewrite app_assoc.
  - by exists [Daemon.AFlush].
  - by exists [Daemon.AFlush; Daemon.ASleep].
  - by exists [Daemon.AFlush; Daemon.ASleep; Daemon.ACommit].
Qed.
Lemma ends_free i sv running fg ro s : (Daemon.handle running fg ro s).2 = Daemon.FExit ∨ (Daemon.handle running fg ro s).2 = Daemon.FReturn →
  l_held (dtime i sv (Daemon.handle running fg ro s).1) = [].
Proof.
  destruct running as [[|]|e]; cbn [Daemon.handle fst snd]; [done| |by intros [?|?]]. intros [Hf|Hf]; rewrite Hf.
  - apply loop_exit in Hf as [t ->]. rewrite app_nil_r, !app_comm_cons, app_assoc. unfold dtime. rewrite foldl_app. done.
  - unfold dtime. rewrite !app_assoc, app_comm_cons, foldl_app. done.
Qed.
