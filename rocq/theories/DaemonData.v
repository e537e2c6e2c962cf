(** * What the daemon does to the data.

    Daemon.v has the calls of denorm_daemon.py in their order; here they act on the
    database.  The command runs with autocommit off (denorm_daemon.py:14-21), so a
    flush is visible to others, and kept, only after [transaction.commit()]
    (lines 88-92); when the command ends by another exception, the connection is
    closed without a commit and the database rolls the flush back. *)
From stdpp Require Import relations.
From Verif Require Import Base BaseLemmas Schema TrigSet Gen Exec Orm Flush Machine Spec Engine GenLemmas Marking Conditions Invariant Settle Sessions Frame Hist Passes SaveModes.
From Verif Require Daemon.

(** One round (lines 85-94) of Daemon.v's script, from what is committed before it to
    what is committed after it.  A KeyboardInterrupt may stop flush between any two
    database accesses (Machine.v).  Simplification: nobody else commits while the
    transaction is open (see [process_view] below for that). *)
Inductive round_data (E : env) (S : schema) : Daemon.rnd → db → db → Prop :=
  | rd_fine ord n d d' : flush E S ord n d = (d', Done) → round_data E S Daemon.RFine d d'              (* :87-89 *)
  | rd_int_flush d d' ph : rtc (fstep E S) (d, PTop) (d', ph) → round_data E S Daemon.RIntFlush d d'    (* :90-92 *)
  | rd_int_sleep ord n d d' : flush E S ord n d = (d', Done) → round_data E S Daemon.RIntSleep d d'
  | rd_int_commit ord n d d' : flush E S ord n d = (d', Done) → round_data E S Daemon.RIntCommit d d'
  | rd_err_flush ord n d d' e : flush E S ord n d = (d', Raised e) → round_data E S Daemon.RErrFlush d d
  | rd_err_commit ord n d d' : flush E S ord n d = (d', Done) → round_data E S Daemon.RErrCommit d d.
(** A round of some daemon, or an operation of another session between the rounds. *)
Definition daemon_step (E : env) (S : schema) (d d' : db) : Prop :=
  (∃ x, round_data E S x d d') ∨ (∃ o, run_op E S o d = Ok d').
(** Rounds in which nobody presses Ctrl-C while flush is running. *)
Definition whole_round (E : env) (S : schema) (d d' : db) : Prop := ∃ x, x ≠ Daemon.RIntFlush ∧ round_data E S x d d'.

Lemma failed_round E S x d d' : round_data E S x d d' → x ∈ [Daemon.RErrFlush; Daemon.RErrCommit] → d' = d.
Proof. intros Hr Hx. destruct Hr; try done; by repeat (apply elem_of_cons in Hx as [Hx|Hx]; [done|]); apply elem_of_nil in Hx. Qed.

Section safe.
Context (b : backend) (S : schema) (rand : nat → Z) (imm : bool) (depth : nat) (E : env) (rank : string → nat).
Context (HE : mk_env b S rand imm depth = Ok E) (Hfl : flushable S rank imm).
Lemma round_inv x d d' : round_data E S x d d' → finv S d → finv S d'.
Proof.
  destruct 1 as [ord n d d' H|d d' ph H|ord n d d' H|ord n d d' H|ord n d d' e H|ord n d d' H]; intros Hi; try done; try (by eapply fflush_inv).
  by eapply (fsteps_crash b S rand imm depth E rank HE Hfl).
Qed.
Lemma daemon_steps_inv d d' : rtc (λ x y, daemon_step E S x y ∧ no_self_relation S y) d d' → finv S d → finv S d'.
Proof.
  induction 1 as [|d d1 d' [[[x Hr]|[o Ho]] N] _ IH]; [done|..]; intros Hi; apply IH; [by eapply round_inv|].
  destruct Hi as (L & C & _). destruct (fop_inv b S rand imm depth E rank HE Hfl o d d1 Ho L C). by split_and!.
Qed.
Lemma round_done x d d' : round_data E S x d d' → finv S d → x ∈ [Daemon.RFine; Daemon.RIntSleep; Daemon.RIntCommit] → consistent S d' ∧ d_dirty d' = [].
Proof.
  intros H (L & C & N) Hx. destruct H as [ord n d d' H|d d' ph H|ord n d d' H|ord n d d' H|ord n d d' e H|ord n d d' H];
    try (by set_solver); (split; [by eapply fflush_consistent|by eapply flush_done_clean]).
Qed.
End safe.

(** ** A row whose function raises, whatever else is stored *)
Definition poison (m : model) (k : Z) (r0 : row) : Prop := ∃ f fn ds sk e, f ∈ m_fields m ∧ f_kind f = KCallback fn ds sk ∧
  ∀ d r, (∀ c, plain_col m c → col r c = col r0 c) → fn d (Some k) r = Err e.
Section poison.
Context (b : backend) (S : schema) (rand : nat → Z) (imm : bool) (depth : nat) (E : env).
Context (Hwf : wf_schema S) (HE : mk_env b S rand imm depth = Ok E).
Context (m : model) (k : Z) (r0 : row) (Hm : m ∈ s_models S) (Ht : ∀ r, m_truthy m r = true) (Hp : poison m k r0).
Definition poisoned (d : db) : Prop := marker_of m k ∈ d_dirty d ∧ ∃ r, getrow d (m_table m) k = Some r ∧ ∀ c, plain_col m c → col r c = col r0 c.
Lemma poison_presave d r q : getrow d (m_table m) k ≠ None → (∀ c, plain_col m c → col r c = col r0 c) → presave_all E m false (Some k) d r ≠ Ok q.
Proof.
  intros Hr Hc H. destruct Hp as (f & fn & ds & sk & e & Hf & Hk & Hfn). unfold presave_all in H.
  destruct (getrow d (m_table m) k) as [rd|] eqn:Hrd; [|done]. clear Hr.
  pose proof (wf_cols _ _ (wf_models _ Hwf _ Hm)) as Hnd. apply elem_of_list_split in Hf as (l1 & l2 & Hl).
  rewrite Hl, foldM_app in H. inv_bind H. rewrite foldM_cons in H. inv_bind H. unfold presave_field in H1. rewrite Hk in H1.
  rewrite Hfn in H1; [done|]. intros c (g & Hg & <- & Hgk). rewrite <- Hc by (exists g; done).
  eapply (presave_keep E m k rd l1 (d, r)); [exact H0|done|].
  intros g' Hg' Heq. left. assert (g' = g) as ->; [|done]. eapply NoDup_fmap_eq; [exact Hnd| |done|done]. rewrite Hl. set_solver.
Qed.
Lemma poison_process d d' : poisoned d → process E S (marker_of m k) d ≠ Ok d'.
Proof.
  intros (_ & r & Hr & Hc) H. unfold process in H. inv_bind H. unfold process_save in H0. inv_bind H0. destruct a0 as [[[m' k'] r']|].
  - destruct (content_object_some _ _ _ _ _ _ H1) as (Hm' & Hr' & Heq). apply marker_of_inj with (S := S) in Heq as [<- <-]; [|done..].
    rewrite Hr in Hr'. injection Hr' as <-. rewrite Ht in H0. inv_bind H0. unfold save_existing in H2. inv_bind H2. inv_bind H2. 
    eapply poison_presave; [| |exact H4]; [|done].
    apply m2m_pre_save_kept with (b := b) (S := S) (rand := rand) (imm := imm) (depth := depth) in H3; [|done..]. destruct H3 as [H3 _]. specialize (H3 m Hm k).
    rewrite Hr in H3. by destruct (getrow a1 (m_table m) k).
  - apply content_object_none in H1; [congruence|done..].
Qed.
Lemma poison_kept mk d d' : process E S mk d = Ok d' → poisoned d → poisoned d'.
Proof.
  intros H Hd. destruct (decide (mk = marker_of m k)) as [->|Hne]; [by apply poison_process in H|].
  destruct Hd as (Hin & r & Hr & Hc). split; [by eapply process_keeps; [exact H|apply not_eq_sym|]|].
  destruct (process_kept _ _ _ _ _ _ Hwf HE _ _ _ H) as [Hk _]. specialize (Hk m Hm k). rewrite Hr in Hk.
  destruct (getrow d' (m_table m) k) as [r'|]; [|done]. exists r'. split; [done|]. intros c Hpc. rewrite <- Hk by done. by apply Hc.
Qed.
Lemma poison_pass l : ∀ d, poisoned d → poisoned (flush_pass E S l d).1.
Proof.
  induction l as [|mk l IH]; intros d Hd; [done|]. simpl. destruct (process E S mk d) as [d1|e] eqn:H; [|done]. apply IH. by eapply poison_kept.
Qed.
Lemma poison_flush ord n : ∀ d, poisoned d → (flush E S ord n d).2 ≠ Done.
Proof.
  induction n as [|n IH]; intros d Hd; simpl; [done|]. rewrite decide_False by (destruct Hd as [Hin _]; intros H; rewrite H in Hin; by apply elem_of_nil in Hin).
  pose proof (poison_pass (snapshot E ord d) d Hd) as Hp'. destruct (flush_pass E S (snapshot E ord d) d) as [d1 [| |]]; [by apply IH|done..].
Qed.
Lemma poison_round x d d' : poisoned d → round_data E S x d d' → x ≠ Daemon.RIntFlush → x = Daemon.RErrFlush ∧ d' = d.
Proof.
  intros Hd H Hx. destruct H as [ord n d d' H|d d' ph H|ord n d d' H|ord n d d' H|ord n d d' e H|ord n d d' H]; try done;
    pose proof (poison_flush ord n d Hd) as Hf; by rewrite H in Hf.
Qed.
Lemma poison_rounds d d' : rtc (whole_round E S) d d' → poisoned d → d' = d.
Proof. induction 1 as [|d d1 d' (x & Hx & Hr) _ IH]; [done|]. intros Hd. destruct (poison_round x d d1 Hd Hr Hx) as [_ ->]. by apply IH. Qed.
Lemma poison_stops d d' : poisoned d → rtc (whole_round E S) d d' →
  d' = d ∧ (∀ ord n, (flush E S ord n d').2 ≠ Done) ∧ ∀ x d'', round_data E S x d' d'' → x ≠ Daemon.RIntFlush → x = Daemon.RErrFlush.
Proof.
  intros Hd Hs. rewrite (poison_rounds d d' Hs Hd). split; [done|]. split; [intros; by apply poison_flush|].
  intros x d'' Hr Hx. exact (proj1 (poison_round x d d'' Hd Hr Hx)).
Qed.
End poison.

(** ** Other sessions commit while the transaction is open *)
(** The body of flush when its SELECTs see the database as it was when the transaction
    began ([view], REPEATABLE READ, MySQL's default), while UPDATE and DELETE apply to the
    rows as they are now.  For models without denormalized ManyToManyFields. *)
Definition with_counters (d v : db) : db := Db (d_tabs d) (d_dirty d) (d_rnd v) (d_now v).
Definition process_view (E : env) (S : schema) (view : db) (mk : marker) (d : db) : res db :=
  let* o := content_object S view mk in
  match o with
  | Some (m, k, r) =>
      if m_truthy m r
      then let* p := presave_all E m false (Some k) view r in
           let* d1 := exec E (m_table m) [upd_all k p.2] (with_counters d p.1) in Ok (unmark d1 mk)
      else Ok (unmark d mk)
  | None => Ok (unmark d mk)
  end.
Lemma process_view_same E S mk d : no_m2m_denorm S → wf_schema S → process_view E S d mk d = process E S mk d.
Proof.
  intros Hn Hwf. unfold process_view, process, process_save. destruct (content_object S d mk) as [[[[m k] r]|]|e] eqn:Ho; simpl; [|done..].
  destruct (m_truthy m r); [|done]. destruct (content_object_some S _ _ _ _ _ Ho) as (Hm & _).
  unfold save_existing. rewrite no_m2m_pre_save. 2: { unfold has_m2m_denorm. apply not_true_is_false. intros H%existsb_exists. destruct H as (mm & Hmm & H). apply elem_of_list_In in Hmm. by rewrite (Hn _ _ Hm Hmm) in H. }
  cbn [rbind]. destruct (presave_all E m false (Some k) d r) as [p|e] eqn:Hp; [|done]. cbn [rbind].
  assert (with_counters d p.1 = p.1) as ->.
  { apply presave_all_db in Hp as [T D]. unfold with_counters. rewrite <- T, <- D. by destruct p.1. }
  by destruct (exec E (m_table m) [upd_all k p.2] p.1).
Qed.
