(** * C41 - C44: the daemon command and daemonize(). *)
From Verif Require Import Base Daemon.
Open Scope nat_scope.
Open Scope list_scope.

(** ** C41 *)
(** Without -o every round is flush, sleep, commit, for any number of rounds ... *)
Theorem daemon_rounds (n : nat) (s : list rnd) : loop false (replicate n RFine ++ s) =
  (concat (replicate n [AFlush; ASleep; ACommit]) ++ (loop false s).1, (loop false s).2).
Proof. induction n as [|n IH]; [cbn [replicate app concat]; by destruct (loop false s)|]. cbn [replicate app loop concat]. rewrite IH. done. Qed.
Print Assumptions daemon_rounds.
(** ... and a round that is interrupted ends the loop; what flush has done is committed,
    except when flush or the commit itself fails: those exceptions leave the command, and
    nothing is committed after a flush that raised. *)
Theorem daemon_last_round (r : rnd) (s : list rnd) : r <> RFine ->
  flushes (loop false (r :: s)).1 = 1 /\ (loop false (r :: s)).2 <> FRunning /\ (loop false (r :: s)).2 <> FReturn /\
  ((loop false (r :: s)).2 = FExit -> exists t, (loop false (r :: s)).1 = AFlush :: t ++ [ACommit]) /\
  ((loop false (r :: s)).2 = FRaise <-> r = RErrFlush \/ r = RErrCommit) /\ (r = RErrFlush -> ACommit ∉ (loop false (r :: s)).1).
Proof.
  destruct r; intros H; [done|..]; (split; [vm_compute; reflexivity|split; [done|split; [done|]]]); csimpl;
    (split; [intros E; try done|split; [split; [intros E; auto; done|intros [E|E]; done]|intros E; try done; set_solver]]).
  - by exists [].
  - by exists [ASleep].
  - by exists [ASleep; ACommit].
Qed.
Print Assumptions daemon_last_round.
Example daemon_rounds_ex : handle (Ret false) true false [RFine; RFine; RIntSleep] =
  ([AAutocommit false; AFlush; ASleep; ACommit; AFlush; ASleep; ACommit; AFlush; ASleep; ACommit], FExit).
Proof. reflexivity. Qed.

(** With -o nothing is ever flushed. *)
Theorem run_once_never_flushes (running : outcome bool) (foreground : bool) (s : list rnd) :
  flushes (handle running foreground true s).1 = 0.
Proof. destruct running as [[|]|]; [done| |done]. destruct foreground, s; done. Qed.
Print Assumptions run_once_never_flushes.
Theorem run_once_flushes_refuted : exists (s : list rnd), flushes (handle (Ret false) true true s).1 <> 1.
Proof. exists [RFine]. vm_compute. discriminate. Qed.
Print Assumptions run_once_flushes_refuted.

(** The whole command: it flushes only if no other daemon is running, goes into the
    background first unless told otherwise, and switches autocommit off before anything
    and on again when it returns. *)
Theorem daemon_command (running : outcome bool) (foreground run_once : bool) (s : list rnd) (t : list act) (f : fin) :
  handle running foreground run_once s = (t, f) ->
  (exists t', t = AAutocommit false :: t') /\
  (running <> Ret false -> flushes t = 0 /\ ADaemonize ∉ t) /\
  (running = Ret false -> if foreground then ADaemonize ∉ t else exists t', t = AAutocommit false :: ADaemonize :: t' /\ ADaemonize ∉ t') /\
  (f = FReturn -> exists t', t = t' ++ [ACommit; AAutocommit true]).
Proof. exact (handle_trace running foreground run_once s t f). Qed.
Print Assumptions daemon_command.
Example daemon_command_ex : handle (Ret false) false false [RFine; RErrFlush] =
  ([AAutocommit false; ADaemonize; AFlush; ASleep; ACommit; AFlush], FRaise) /\
  handle (Ret true) false false [RFine] = ([AAutocommit false; ACommit; AAutocommit true], FReturn).
Proof. split; reflexivity. Qed.

(** ** C42 *)
(** Before Python 3.7: refused exactly when the process named in the file exists or
    belongs to someone else.  (A file that must not be read counts as taken on 3.4.) *)
Theorem start_refused_iff (v : py) (f : pidfile) (kill : Z -> option Z) : has_os_errno v = true -> f <> PFUnreadable EPERM ->
  pid_exists v f kill = Ret true <-> exists p, f = PFText (Some p) /\ (kill p = None \/ kill p = Some EPERM).
Proof.
  intros Hv Hf. unfold pid_exists, open_error, os_error. rewrite Hv. split.
  - destruct f as [|e|[p|]].
    + destruct (py2 v); [by rewrite bool_decide_true|by rewrite bool_decide_false].
    + destruct (py2 v); [case_bool_decide; done|]. case_bool_decide as He; [subst; done|done].
    + destruct (kill p) as [e|] eqn:Hk; [|eauto]. case_bool_decide as He; [subst; eauto|done].
    + done.
  - intros (p & -> & [Hk|Hk]); rewrite Hk; [done|]. by rewrite bool_decide_true.
Qed.
Print Assumptions start_refused_iff.
(** No pid file, or one naming a dead process: the daemon starts. *)
Theorem start_allowed (v : py) (kill : Z -> option Z) (p : Z) : has_os_errno v = true -> (exists e, kill p = Some e /\ e <> EPERM) ->
  pid_exists v PFMissing kill = Ret false /\ pid_exists v (PFText (Some p)) kill = Ret false.
Proof.
  intros Hv (e & Hk & He). unfold pid_exists, open_error, os_error. rewrite Hv, Hk. rewrite (bool_decide_false (e = EPERM)) by done.
  split; [|done]. destruct (py2 v); [by rewrite bool_decide_true|by rewrite bool_decide_false].
Qed.
Print Assumptions start_allowed.
Example start_ex : pid_exists Py27 (PFText (Some 77%Z)) (fun _ => None) = Ret true /\ pid_exists Py34 (PFText (Some 77%Z)) (fun _ => Some 3%Z) = Ret false.
Proof. split; reflexivity. Qed.

(** Python 3.7 and later: without a pid file the command dies with an AttributeError. *)
Theorem start_without_pidfile_refuted : exists v, forall kill, pid_exists v PFMissing kill <> Ret false.
Proof. exists Py37. intros kill. discriminate. Qed.
Print Assumptions start_without_pidfile_refuted.
(** An empty or garbled pid file stops the command with a ValueError on every version. *)
Theorem start_garbled_pidfile_refuted : exists f, forall v kill, pid_exists v f kill = Exc ExValue.
Proof. exists (PFText None). reflexivity. Qed.
Print Assumptions start_garbled_pidfile_refuted.

(** Python 2, starts in the background, each completed before the next one begins: at
    most one daemon runs, and it is the one named in the pid file. *)
Theorem one_daemon_sequential (v : py) (fg : nat -> bool) (s s' : dst) : py2 v = true -> d_alive s = ∅ -> dseq v fg s s' ->
  forall p q, p ∈ d_alive s' -> q ∈ d_alive s' -> p = q /\ d_file s' = Some p.
Proof.
  intros Hv Ha Hs p q Hp Hq. assert (H : forall p, p ∈ d_alive s' -> d_file s' = Some p) by (apply (dseq_one v fg s); [done..|set_solver]).
  pose proof (H _ Hp). pose proof (H _ Hq). split; congruence.
Qed.
Print Assumptions one_daemon_sequential.
Definition ex_d0 : dst := Dst None ∅ {[0 := PhInit; 1 := PhInit]}.
Definition bg (_ : nat) : bool := false.
Definition fgr (_ : nat) : bool := true.
(** Daemon 100 starts and dies, then daemon 101 starts. *)
Example one_daemon_ex : exists s', dseq Py27 bg ex_d0 s' /\ 101%Z ∈ d_alive s' /\ d_file s' = Some 101%Z.
Proof.
  eexists. split.
  - eapply (ds_start _ _ _ 0 100%Z); [vm_compute; reflexivity|vm_compute; reflexivity|vm_compute; reflexivity|].
    eapply (ds_die _ _ _ 100%Z); [vm_compute; reflexivity|].
    eapply (ds_start _ _ _ 1 101%Z); [vm_compute; reflexivity|vm_compute; reflexivity|vm_compute; reflexivity|]. apply ds_nil.
  - split; [vm_compute; reflexivity|reflexivity].
Qed.
(** Two starts at the same time both run (check, check, start, start). *)
Theorem one_daemon_refuted : exists es s' p q, druns Py27 bg ex_d0 es = Some s' /\ p <> q /\ p ∈ d_alive s' /\ q ∈ d_alive s' /\
  d_ph s' !! 0 = Some (PhRunning p) /\ d_ph s' !! 1 = Some (PhRunning q).
Proof.
  exists [DCheck 0; DCheck 1; DStart 0 100; DStart 1 101; DWrite 0; DWrite 1]. eexists. exists 100%Z, 101%Z.
  split; [vm_compute; reflexivity|]. split; [lia|]. vm_compute. auto.
Qed.
Print Assumptions one_daemon_refuted.
(** In the foreground no pid file is written: a later start is not refused. *)
Theorem one_daemon_foreground_refuted : exists es s' p q, druns Py27 fgr ex_d0 (DCheck 0 :: DStart 0 p :: es) = Some s' /\ p <> q /\ es = [DCheck 1; DStart 1 q] /\
  p ∈ d_alive s' /\ q ∈ d_alive s'.
Proof.
  exists [DCheck 1; DStart 1 101]. eexists. exists 100%Z, 101%Z. split; [vm_compute; reflexivity|]. split; [lia|]. vm_compute. auto.
Qed.
Print Assumptions one_daemon_foreground_refuted.
(** On Python 3 the pid file is never written at all. *)
Theorem one_daemon_python3_refuted : exists es s' p q, druns Py34 bg ex_d0 es = Some s' /\ p <> q /\
  es = [DCheck 0; DStart 0 p; DWrite 0; DCheck 1; DStart 1 q; DWrite 1] /\ p ∈ d_alive s' /\ q ∈ d_alive s' /\ d_file s' = None.
Proof.
  eexists. eexists. exists 100%Z, 101%Z. split; [|split; [lia|split; [reflexivity|]]]; vm_compute; auto.
Qed.
Print Assumptions one_daemon_python3_refuted.

(** ** C43 *)
(** If standard input is a terminal or closed, the three standard streams end up on the
    null device and no terminal below the limit stays open; other files are kept. *)
Theorem streams_are_null (hard : option nat) (soft : nat) (t t' : fdtable) : 0 < maxfd hard -> redirect hard soft t = Some t' ->
  t !! 0 = None \/ t !! 0 = Some Tty ->
  t' !! 0 = Some NullDev /\ t' !! 1 = Some NullDev /\ t' !! 2 = Some NullDev /\
  (forall fd, fd < maxfd hard -> t' !! fd <> Some Tty) /\ (forall fd n, 2 < fd -> t !! fd = Some (OtherFile n) -> t' !! fd = Some (OtherFile n)).
Proof.
  intros Hm H H0. pose proof (redirect_spec _ _ _ _ H) as Hs. cbv zeta in Hs. destruct Hs as (A0 & A1 & A2 & A3 & A4).
  assert (Hk : match t !! 0 with Some Tty => if bool_decide (0 < maxfd hard) then NullDev else Tty | Some k => k | None => NullDev end = NullDev).
  { destruct H0 as [-> | ->]; [done|]. by rewrite bool_decide_true. }
  rewrite Hk in A0, A1, A2. split; [done|]. split; [done|]. split; [done|]. split.
  - intros fd Hfd. destruct fd as [|[|[|fd]]]; [by rewrite A0|by rewrite A1|by rewrite A2|]. apply A3; lia.
  - intros fd n Hfd Ht. destruct (A4 fd Hfd) as [E|[[E1 E2]|[E1 _]]]; congruence.
Qed.
Print Assumptions streams_are_null.
(** What happens in general: 1 and 2 become copies of 0, whatever 0 is. *)
Theorem streams_follow_stdin (hard : option nat) (soft : nat) (t t' : fdtable) (n : nat) : redirect hard soft t = Some t' ->
  t !! 0 = Some (OtherFile n) -> t' !! 0 = Some (OtherFile n) /\ t' !! 1 = Some (OtherFile n) /\ t' !! 2 = Some (OtherFile n).
Proof.
  intros H H0. pose proof (redirect_spec _ _ _ _ H) as Hs. cbv zeta in Hs. rewrite H0 in Hs. tauto.
Qed.
Print Assumptions streams_follow_stdin.
Example streams_ex : exists t', redirect (Some 4096) 1024 {[0 := Tty; 1 := Tty; 2 := Tty; 3 := OtherFile 7; 5 := Tty]} = Some t' /\
  t' !! 0 = Some NullDev /\ t' !! 1 = Some NullDev /\ t' !! 2 = Some NullDev /\ t' !! 3 = Some (OtherFile 7) /\ t' !! 5 = None.
Proof. eexists. split; [vm_compute; reflexivity|]. vm_compute. auto. Qed.
(** Standard input is a pipe: output goes to that pipe afterwards. *)
Theorem streams_are_null_refuted : exists hard soft t t', redirect hard soft t = Some t' /\ t' !! 1 <> Some NullDev.
Proof. exists (Some 4096), 1024, {[0 := OtherFile 1; 1 := Tty; 2 := Tty]}. eexists. split; [vm_compute; reflexivity|]. vm_compute. discriminate. Qed.
Print Assumptions streams_are_null_refuted.
(** No hard limit: a terminal on a descriptor from 1024 on stays open. *)
Theorem no_terminal_left_refuted : exists soft t t' fd, redirect None soft t = Some t' /\ t' !! fd = Some Tty.
Proof.
  exists 4096, {[0 := Tty; 1024 := Tty]}.
  destruct (redirect None 4096 {[0 := Tty; 1024 := Tty]}) as [t'|] eqn:E.
  - exists t', 1024. split; [done|]. revert E. vm_compute. intros E. injection E as <-. reflexivity.
  - exfalso. revert E. vm_compute. discriminate.
Qed.
Print Assumptions no_terminal_left_refuted.

(** ** C44 *)
Definition returned (l : list (bool * pout)) : list bool := fst <$> filter (fun p => p.2 = Returned) l.
(** On POSIX at most one process returns and it is no session leader; one does exactly
    when every call of the surviving line succeeds. *)
Theorem one_process_returns (v : py) (noClose pidfile leader : bool) (fk : nat -> bool) (ok : sys -> bool) :
  returned (exec_prog fk ok 0 leader (daemonize v true noClose pidfile)) =
  if fk 0 && ok SSetsid && fk 1 && ok SChdir && (noClose || ok SRedirect) then [false] else [].
Proof.
  unfold daemonize. cbn [negb exec_prog].
  destruct (fk 0), (ok SSetsid), noClose, pidfile, (py2 v); cbn [exec_prog app andb]; try done;
    destruct (fk 1); cbn [exec_prog app andb]; try done; destruct (ok SChdir); cbn [exec_prog app andb orb]; try done;
    destruct (ok SRedirect), (ok SWritePid); done.
Qed.
Print Assumptions one_process_returns.
(** Without a pid file (or on Python 2, if it can be written) all others exit. *)
Theorem others_exit (v : py) (noClose pidfile leader : bool) (fk : nat -> bool) (ok : sys -> bool) :
  fk 0 = true -> fk 1 = true -> (forall s, ok s = true) -> pidfile = false \/ py2 v = true ->
  exec_prog fk ok 0 leader (daemonize v true noClose pidfile) = [(leader, Exited); (true, Exited); (false, Returned)].
Proof.
  intros H0 H1 Hok Hv. unfold daemonize. cbn [negb exec_prog]. rewrite H0, H1, !Hok. destruct noClose, pidfile, (py2 v); cbn [exec_prog app]; rewrite ?Hok; try done; destruct Hv; done.
Qed.
Print Assumptions others_exit.
(** A failing fork is reported as DaemonException by the process that tried it. *)
Theorem fork_failure_reported (v : py) (noClose pidfile leader : bool) (fk : nat -> bool) (ok : sys -> bool) :
  (fk 0 = false -> exec_prog fk ok 0 leader (daemonize v true noClose pidfile) = [(leader, Raised ExDaemon)]) /\
  (fk 0 = true -> ok SSetsid = true -> fk 1 = false ->
     exec_prog fk ok 0 leader (daemonize v true noClose pidfile) = [(leader, Exited); (true, Raised ExDaemon)]).
Proof.
  unfold daemonize. cbn [negb exec_prog]. split; [intros ->; done|]. intros -> -> H1. cbn [exec_prog app]. rewrite H1. done.
Qed.
Print Assumptions fork_failure_reported.
Example daemonize_ex : exec_prog (fun _ => true) (fun _ => true) 0 true (daemonize Py27 true true true) = [(true, Exited); (true, Exited); (false, Returned)].
Proof. reflexivity. Qed.
(** With a pid file on Python 3 the first child does not exit: a NameError sends it on
    through the code that called daemonize(). *)
Theorem others_exit_refuted : exists v fk ok p, (forall n, fk n = true) /\ (forall s, ok s = true) /\
  p ∈ exec_prog fk ok 0 true (daemonize v true true true) /\ p = (true, Raised ExName).
Proof. exists Py34, (fun _ => true), (fun _ => true), (true, Raised ExName). split; [done|]. split; [done|]. split; [|done]. vm_compute. right. left. Qed.
Print Assumptions others_exit_refuted.
