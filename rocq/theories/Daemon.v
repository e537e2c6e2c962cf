(** * denorm_daemon (management/commands/denorm_daemon.py) and daemonize (daemon.py).
    Self-contained: the database is not needed here, only the order of calls, the pid
    file, the descriptor table and the processes. *)
From Verif Require Import Base.
Open Scope nat_scope.
Open Scope list_scope.

(** Python versions: tox.ini tests 2.6, 2.7 and 3.4; [Py37] stands for 3.7 and later. *)
Inductive py := Py26 | Py27 | Py34 | Py37.
Definition py2 (v : py) : bool := match v with Py26 | Py27 => true | _ => false end.
(** [os.errno] (an accident of the os module) disappeared in 3.7. *)
Definition has_os_errno (v : py) : bool := match v with Py37 => false | _ => true end.

Inductive exn := ExValue | ExAttribute | ExIO | ExName | ExDaemon.
Inductive outcome (A : Type) := Ret (x : A) | Exc (e : exn).
Arguments Ret {A} x.
Arguments Exc {A} e.
Definition EPERM : Z := 1%Z.
Definition ENOENT : Z := 2%Z.

(** ** pid_exists, denorm_daemon.py:57-69 *)
Inductive pidfile := PFMissing | PFUnreadable (errno : Z) | PFText (parsed : option Z).
Definition os_error (v : py) (errno : Z) : outcome bool :=
  if has_os_errno v then Ret (bool_decide (errno = EPERM)) else Exc ExAttribute.
(** [open] raises IOError, which is OSError itself since Python 3.3 and is then caught by
    the first handler. *)
Definition open_error (v : py) (errno : Z) : outcome bool :=
  if py2 v then (if bool_decide (errno = ENOENT) then Ret false else Exc ExIO) else os_error v errno.
(** [kill p] is the error of os.kill(p, 0), if any. *)
Definition pid_exists (v : py) (f : pidfile) (kill : Z -> option Z) : outcome bool :=
  match f with
  | PFMissing => open_error v ENOENT
  | PFUnreadable e => open_error v e
  | PFText None => Exc ExValue
  | PFText (Some p) => match kill p with None => Ret true | Some e => os_error v e end
  end.

(** ** handle, denorm_daemon.py:14-21 and 71-94 *)
Inductive act := AAutocommit (on : bool) | ADaemonize | AFlush | ASleep | ACommit.
(** What happens during one round: nothing special, a KeyboardInterrupt during flush,
    during sleep or during commit, or another exception. *)
Inductive rnd := RFine | RIntFlush | RIntSleep | RIntCommit | RErrFlush | RErrCommit.
Inductive fin := FReturn | FExit | FRaise | FRunning.
(** Lines 85-94; the script says what happens in each round, when it is used up the loop
    is still running. *)
Fixpoint loop (run_once : bool) (script : list rnd) : list act * fin :=
  if run_once then ([], FReturn) else
  match script with
  | [] => ([], FRunning)
  | RFine :: s =>
      let body := [AFlush; ASleep; ACommit] in
      if run_once then (body, FReturn) else let p := loop run_once s in (body ++ p.1, p.2)
  | RIntFlush :: _ => ([AFlush; ACommit], FExit)
  | RIntSleep :: _ => ([AFlush; ASleep; ACommit], FExit)
  | RIntCommit :: _ => ([AFlush; ASleep; ACommit; ACommit], FExit)
  | RErrFlush :: _ => ([AFlush], FRaise)
  | RErrCommit :: _ => ([AFlush; ASleep; ACommit], FRaise)
  end.
(** [running] is what pid_exists said. *)
Definition handle (running : outcome bool) (foreground run_once : bool) (script : list rnd) : list act * fin :=
  let pre := AAutocommit false in
  let fini := [ACommit; AAutocommit true] in
  match running with
  | Exc _ => ([pre], FRaise)
  | Ret true => (pre :: fini, FReturn)
  | Ret false =>
      let p := loop run_once script in
      (pre :: (if foreground then [] else [ADaemonize]) ++ p.1 ++ (match p.2 with FReturn => fini | _ => [] end), p.2)
  end.
#[global] Instance act_eq : EqDecision act.
Proof. solve_decision. Defined.
Definition flushes (t : list act) : nat := length (filter (fun a => a = AFlush) t).
Lemma loop_no_daemonize ro s : ADaemonize ∉ (loop ro s).1.
Proof.
  destruct ro; [destruct s; csimpl; set_solver|]. induction s as [|r s IH]; [csimpl; set_solver|]. destruct r; csimpl; set_solver.
Qed.
Lemma handle_trace running fg ro s t f : handle running fg ro s = (t, f) ->
  (exists t', t = AAutocommit false :: t') /\
  (running <> Ret false -> flushes t = 0 /\ ADaemonize ∉ t) /\
  (running = Ret false -> if fg then ADaemonize ∉ t else exists t', t = AAutocommit false :: ADaemonize :: t' /\ ADaemonize ∉ t') /\
  (f = FReturn -> exists t', t = t' ++ [ACommit; AAutocommit true]).
Proof.
  unfold handle. pose proof (loop_no_daemonize ro s) as Hl. destruct running as [[|]|e]; intros [= <- <-]; (split; [eauto|]).
  - split; [intros _; split; [reflexivity|set_solver]|]. split; [done|]. intros _. by exists [AAutocommit false].
  - assert (Hd : ADaemonize ∉ (loop ro s).1 ++ (match (loop ro s).2 with FReturn => [ACommit; AAutocommit true] | _ => [] end)).
    { rewrite not_elem_of_app. split; [done|]. destruct (loop ro s).2; set_solver. }
    split; [done|]. split.
    + intros _. destruct fg; [set_solver|]. eexists. split; [reflexivity|exact Hd].
    + intros ->. exists (AAutocommit false :: (if fg then [] else [ADaemonize]) ++ (loop ro s).1). cbn [app]. by rewrite <- app_assoc.
  - split; [intros _; split; [reflexivity|set_solver]|]. split; done.
Qed.

(** ** Two or more starts sharing one pid file.  [d_alive]: running daemons. *)
Inductive phase := PhInit | PhChecked | PhForked (p : Z) | PhRunning (p : Z) | PhRefused.
Record dst := Dst { d_file : option Z; d_alive : gset Z; d_ph : gmap nat phase }.
Inductive dev :=
  | DCheck (i : nat)            (* pid_exists of start i; the processes named in the file are daemons or gone *)
  | DStart (i : nat) (p : Z)    (* start i goes on as process p (its own, or the second child of daemonize) *)
  | DWrite (i : nat)            (* daemon.py:152-154: the first child writes the pid file *)
  | DDie (p : Z).               (* a daemon is killed *)
Definition dstep (v : py) (fg : nat -> bool) (s : dst) (e : dev) : option dst :=
  match e with
  | DCheck i =>
      match d_ph s !! i with
      | Some PhInit =>
          let held := match d_file s with Some p => bool_decide (p ∈ d_alive s) | None => false end in
          Some (Dst (d_file s) (d_alive s) (<[i := if held then PhRefused else PhChecked]> (d_ph s)))
      | _ => None end
  | DStart i p =>
      if bool_decide (p ∈ d_alive s) then None else
      match d_ph s !! i with
      | Some PhChecked => Some (Dst (d_file s) ({[p]} ∪ d_alive s) (<[i := if fg i then PhRunning p else PhForked p]> (d_ph s)))
      | _ => None end
  | DWrite i =>
      match d_ph s !! i with
      (* file() is a NameError in Python 3 *)
      | Some (PhForked p) => Some (Dst (if py2 v then Some p else d_file s) (d_alive s) (<[i := PhRunning p]> (d_ph s)))
      | _ => None end
  | DDie p => Some (Dst (d_file s) (d_alive s ∖ {[p]}) (d_ph s))
  end.
Fixpoint druns (v : py) (fg : nat -> bool) (s : dst) (es : list dev) : option dst :=
  match es with [] => Some s | e :: es => s ← dstep v fg s e; druns v fg s es end.
(** Complete starts one after the other, and deaths. *)
Inductive dseq (v : py) (fg : nat -> bool) : dst -> dst -> Prop :=
  | ds_nil s : dseq v fg s s
  | ds_die s p s1 s' : dstep v fg s (DDie p) = Some s1 -> dseq v fg s1 s' -> dseq v fg s s'
  | ds_refused s i s1 s' : dstep v fg s (DCheck i) = Some s1 -> d_ph s1 !! i = Some PhRefused -> dseq v fg s1 s' -> dseq v fg s s'
  | ds_start s i p s1 s2 s3 s' : dstep v fg s (DCheck i) = Some s1 -> dstep v fg s1 (DStart i p) = Some s2 ->
      dstep v fg s2 (DWrite i) = Some s3 -> dseq v fg s3 s' -> dseq v fg s s'.

Lemma dseq_one v fg s s' : py2 v = true -> dseq v fg s s' ->
  (forall p, p ∈ d_alive s -> d_file s = Some p) -> (forall p, p ∈ d_alive s' -> d_file s' = Some p).
Proof.
  intros Hv. induction 1 as [s|s p s1 s' H1 Hr IH|s i s1 s' H1 H2 Hr IH|s i p s1 s2 s3 s' H1 H2 H3 Hr IH]; intros Hi; [done|..]; apply IH; clear IH Hr.
  - csimpl in H1. injection H1 as <-. csimpl. set_solver.
  - csimpl in H1. destruct (d_ph s !! i) as [[]|]; try done. injection H1 as <-. done.
  - csimpl in H1. destruct (d_ph s !! i) as [[]|]; try done. injection H1 as <-. csimpl in *.
    case_bool_decide as Hp; [done|]. rewrite lookup_insert in H2.
    destruct (d_file s) as [q|] eqn:Hf.
    + case_bool_decide as Hq; [done|]. injection H2 as <-. csimpl in *. rewrite lookup_insert in H3.
      destruct (fg i); [done|]. injection H3 as <-. csimpl. rewrite Hv. intros p' Hp'.
      apply elem_of_union in Hp' as [Hp'|Hp']; [set_solver|]. specialize (Hi _ Hp'). simplify_eq. done.
    + injection H2 as <-. csimpl in *. rewrite lookup_insert in H3. destruct (fg i); [done|]. injection H3 as <-. csimpl. rewrite Hv.
      intros p' Hp'. apply elem_of_union in Hp' as [Hp'|Hp']; [set_solver|]. specialize (Hi _ Hp'). done.
Qed.

(** ** _redirectFileDescriptors, daemon.py:191-219 *)
Inductive fdk := Tty | NullDev | OtherFile (n : nat).
#[global] Instance fdk_eq : EqDecision fdk.
Proof. solve_decision. Defined.
Notation fdtable := (gmap nat fdk).
(** POSIX: the lowest descriptor that is not open. *)
Definition lowest (t : fdtable) : nat := default 0 (head (filter (fun n => t !! n = None) (seq 0 (S (size t))))).
(** The hard limit, [None] for RLIM_INFINITY (lines 193-195). *)
Definition maxfd (hard : option nat) : nat := default 1024 hard.
(** [None]: OSError, because the soft limit is reached. *)
Definition redirect (hard : option nat) (soft : nat) (t : fdtable) : option fdtable :=
  let t1 := filter (fun p => ~ (p.1 < maxfd hard /\ p.2 = Tty)) t in
  let n := lowest t1 in
  if bool_decide (n < soft /\ 2 < soft) then
    let t2 := <[n := NullDev]> t1 in
    k ← t2 !! 0; Some (<[2 := k]> (<[1 := k]> t2))
  else None.

Lemma lowest_free t : t !! lowest t = None.
Proof.
  unfold lowest. destruct (filter _ _) as [|n l] eqn:E; csimpl.
  - exfalso. assert (H : (set_seq 0 (S (size t)) : gset nat) ⊆ dom t).
    { intros n Hn. apply elem_of_set_seq in Hn. apply elem_of_dom. destruct (t !! n) eqn:Ht; [eauto|exfalso].
      assert (Hin : n ∈ filter (fun n => t !! n = None) (seq 0 (S (size t)))) by (apply elem_of_list_filter; split; [done|apply elem_of_seq; lia]).
      rewrite E in Hin. set_solver. }
    apply subseteq_size in H. rewrite size_set_seq, size_dom in H. lia.
  - assert (Hin : n ∈ filter (fun n => t !! n = None) (seq 0 (S (size t)))) by (rewrite E; left).
    apply elem_of_list_filter in Hin. tauto.
Qed.
Lemma lowest_0 t : t !! 0 = None -> lowest t = 0.
Proof. intros H. unfold lowest. csimpl. rewrite filter_cons_True by done. done. Qed.
Lemma lowest_min t n : n < lowest t -> t !! n <> None.
Proof.
  unfold lowest. intros Hn Ht. revert Hn. generalize (S (size t)) as m. intros m.
  assert (H : forall m a, a <= n -> default 0 (head (filter (fun n => t !! n = None) (seq a m))) <= n).
  { clear m. induction m as [|m IH]; intros a Ha; csimpl; [lia|]. destruct (decide (t !! a = None)) as [Hd|Hd].
    - rewrite filter_cons_True by done. csimpl. lia.
    - rewrite filter_cons_False by done. apply IH. destruct (decide (a = n)); [subst; done|lia]. }
  specialize (H m 0). lia.
Qed.
Lemma redirect_spec hard soft t t' : redirect hard soft t = Some t' ->
  let k := match t !! 0 with Some Tty => if bool_decide (0 < maxfd hard) then NullDev else Tty | Some k => k | None => NullDev end in
  t' !! 0 = Some k /\ t' !! 1 = Some k /\ t' !! 2 = Some k /\
  (forall fd, 2 < fd -> fd < maxfd hard -> t' !! fd <> Some Tty) /\
  (forall fd, 2 < fd -> t' !! fd = t !! fd \/ (t' !! fd = Some NullDev /\ t !! fd = None) \/
     (t !! fd = Some Tty /\ fd < maxfd hard /\ (t' !! fd = None \/ t' !! fd = Some NullDev))).
Proof.
  unfold redirect. set (t1 := filter _ t). set (n := lowest t1). intros H. cbv zeta in H.
  case_bool_decide as Hs; [|done]. pose proof (lowest_free t1) as Hfree. fold n in Hfree.
  assert (Ht1 : forall fd, t1 !! fd = match t !! fd with Some k => if bool_decide (fd < maxfd hard /\ k = Tty) then None else Some k | None => None end).
  { intros fd. subst t1. destruct (t !! fd) as [k|] eqn:E.
    - case_bool_decide as Hd.
      + apply map_filter_lookup_None. right. intros k' Hk'. simplify_eq. csimpl. tauto.
      + apply map_filter_lookup_Some. split; [done|]. csimpl. tauto.
    - apply map_filter_lookup_None. by left. }
  set (k := match t !! 0 with Some Tty => if bool_decide (0 < maxfd hard) then NullDev else Tty | Some k => k | None => NullDev end). cbv zeta.
  assert (Hk : <[n := NullDev]> t1 !! 0 = Some k).
  { destruct (t1 !! 0) as [k1|] eqn:E1.
    - assert (n <> 0) by (intros Hn; rewrite Hn in Hfree; congruence). rewrite lookup_insert_ne by done. rewrite E1. f_equal.
      rewrite Ht1 in E1. unfold k. destruct (t !! 0) as [k0|]; [|done]. case_bool_decide as Hd; [done|]. injection E1 as ->.
      destruct k1; try done. rewrite bool_decide_false; tauto.
    - assert (n = 0) as -> by (by apply lowest_0). rewrite lookup_insert. f_equal. rewrite Ht1 in E1. unfold k.
      destruct (t !! 0) as [k0|]; [|done]. case_bool_decide as Hd; [|done]. destruct Hd as [Hd ->]. rewrite bool_decide_true by done. done. }
  rewrite Hk in H. csimpl in H. injection H as <-.
  split; [rewrite !lookup_insert_ne by done; done|]. split; [rewrite lookup_insert_ne by done; apply lookup_insert|].
  split; [apply lookup_insert|].
  assert (Hrest : forall fd, 2 < fd -> <[2 := k]> (<[1 := k]> (<[n := NullDev]> t1)) !! fd = <[n := NullDev]> t1 !! fd).
  { intros fd Hfd. rewrite !lookup_insert_ne by lia. done. }
  split; intros fd Hfd; rewrite Hrest by done.
  - intros Hm. destruct (decide (fd = n)) as [->|Hn]; [rewrite lookup_insert; done|]. rewrite lookup_insert_ne by done. rewrite Ht1.
    destruct (t !! fd) as [k0|]; [|done]. case_bool_decide as Hd; [done|]. intros ?. simplify_eq. tauto.
  - destruct (decide (fd = n)) as [->|Hn].
    + rewrite lookup_insert. rewrite Ht1 in Hfree. destruct (t !! n) as [k0|]; [|auto]. case_bool_decide as Hd; [|done]. destruct Hd as [? ->]. auto 10.
    + rewrite lookup_insert_ne by done. rewrite Ht1. destruct (t !! fd) as [k0|]; [|auto]. case_bool_decide as Hd; [|auto]. destruct Hd as [? ->]. auto 10.
Qed.

(** ** daemonize, daemon.py:108-188, as the tree of processes it creates *)
Inductive sys := SSetsid | SWritePid | SChdir | SRedirect.
Inductive prog :=
  | PReturn                            (* daemonize() returns *)
  | PExit                              (* os._exit(0) *)
  | PRaise (e : exn)                   (* the exception leaves daemonize() *)
  | PFork (parent child fail : prog)
  | PSys (s : sys) (ok fail : prog).
(** OSError is turned into DaemonException (172-177, 184-188). *)
Definition daemonize (v : py) (posix noClose pidfile : bool) : prog :=
  if negb posix then PReturn else
  let failed := PRaise ExDaemon in
  let second :=
    if noClose then PReturn else PSys SRedirect PReturn failed in
  let first :=
    if pidfile then
      (* 154: file() is not defined in Python 3; in Python 2 its IOError is not an OSError *)
      if py2 v then PSys SWritePid PExit (PRaise ExIO) else PRaise ExName
    else PExit in
  PFork PExit (PSys SSetsid (PFork first (PSys SChdir second failed) failed) failed) failed.
Inductive pout := Returned | Exited | Raised (e : exn).
#[global] Instance exn_eq : EqDecision exn.
Proof. solve_decision. Defined.
#[global] Instance pout_eq : EqDecision pout.
Proof. solve_decision. Defined.
(** [fk n]: does the n-th fork work; [ok s]: does the call work.  One entry per process:
    is it a session leader, and how does it leave daemonize(). *)
Fixpoint exec_prog (fk : nat -> bool) (ok : sys -> bool) (n : nat) (leader : bool) (p : prog) : list (bool * pout) :=
  match p with
  | PReturn => [(leader, Returned)]
  | PExit => [(leader, Exited)]
  | PRaise e => [(leader, Raised e)]
  | PFork parent child fail =>
      if fk n then exec_prog fk ok (S n) leader parent ++ exec_prog fk ok (S n) false child else exec_prog fk ok (S n) leader fail
  | PSys s o f =>
      if ok s then exec_prog fk ok n (match s with SSetsid => true | _ => leader end) o else exec_prog fk ok n leader f
  end.
