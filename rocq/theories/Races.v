(** * Several sessions: what interleavings of flush runs and writers can and cannot break. *)
From stdpp Require Import relations.
From Verif Require Import Base BaseLemmas Schema TrigSet Gen Exec Orm Flush Machine Spec Engine GenLemmas Marking Invariant Settle Sessions Frame.

(** The steps of Machine.v, with the cursor only yielding markers that exist when they
    are fetched.  (A real cursor may also yield markers deleted in the meantime, so
    this is used for refutations only.) *)
Definition real_step (E : env) (S : schema) (x y : db * fphase) : Prop :=
  fstep E S x y ∧ match x.2, y.2 with PLoop, PFetched mk _ => mk ∈ d_dirty x.1 | _, _ => True end.

(** One step of a schedule: an operation of a writing session or a step of a flush run. *)
Inductive sact := SOp (o : op) | SStart (i : nat) | SFetch (i : nat) (mk : marker) | SSave (i : nat) | SDel (i : nat) | SPass (i : nat) | SDone (i : nat).
Inductive sstep (E : env) (S : schema) : sact → db * list fphase → db * list fphase → Prop :=
  | ss_op d ps o d' : run_op E S o d = Ok d' → sstep E S (SOp o) (d, ps) (d', ps)
  | ss_flush a i d ps ph d' ph' : ps !! i = Some ph → real_step E S (d, ph) (d', ph') →
      a = match ph, ph' with
          | PTop, PEnd => SDone i | PTop, _ => SStart i | PLoop, PFetched mk _ => SFetch i mk | PLoop, _ => SPass i
          | PFetched _ _, _ => SSave i | _, _ => SDel i end →
      sstep E S a (d, ps) (d', <[i := ph']> ps).
Inductive srun (E : env) (S : schema) : list sact → db * list fphase → db * list fphase → Prop :=
  | sr_nil x : srun E S [] x x
  | sr_cons a l x y z : sstep E S a x y → srun E S l y z → srun E S (a :: l) x z.
Definition is_op (a : sact) : bool := match a with SOp _ => true | _ => false end.

(** Executing a schedule. *)
Definition sexec1 (E : env) (S : schema) (a : sact) (x : db * list fphase) : option (db * list fphase) :=
  let d := x.1 in
  match a with
  | SOp o => match run_op E S o d with Ok d' => Some (d', x.2) | Err _ => None end
  | SStart i => match x.2 !! i with Some PTop => Some (d, <[i := PLoop]> x.2) | _ => None end
  | SDone i => match x.2 !! i with Some PTop => if decide (d_dirty d = []) then Some (d, <[i := PEnd]> x.2) else None | _ => None end
  | SPass i => match x.2 !! i with Some PLoop => Some (d, <[i := PTop]> x.2) | _ => None end
  | SFetch i mk => match x.2 !! i, content_object S d mk with
      | Some PLoop, Ok o => if decide (mk ∈ d_dirty d) then Some (d, <[i := PFetched mk o]> x.2) else None | _, _ => None end
  | SSave i => match x.2 !! i with
      | Some (PFetched mk (Some (m, k, r))) => if m_truthy m r then match save E m (Some k) r d with Ok p => Some (p.1.1, <[i := PSaved mk]> x.2) | Err _ => None end
                                               else Some (d, <[i := PSaved mk]> x.2)
      | Some (PFetched mk None) => Some (d, <[i := PSaved mk]> x.2)
      | _ => None end
  | SDel i => match x.2 !! i with Some (PSaved mk) => Some (unmark d mk, <[i := PLoop]> x.2) | _ => None end
  end.
Fixpoint sexec (E : env) (S : schema) (l : list sact) (x : db * list fphase) : option (db * list fphase) :=
  match l with [] => Some x | a :: l' => match sexec1 E S a x with Some y => sexec E S l' y | None => None end end.
Lemma sexec1_sound E S a x y : sexec1 E S a x = Some y → sstep E S a x y.
Proof.
  destruct x as [d ps]. unfold sexec1. cbn [fst snd]. destruct a as [o|i|i mk|i|i|i|i].
  - destruct (run_op E S o d) eqn:H; [|done]. intros [= <-]. by constructor.
  - destruct (ps !! i) as [[]|] eqn:Hi; try done. intros [= <-]. eapply ss_flush; [done| |done]. split; [constructor|done].
  - destruct (ps !! i) as [[]|] eqn:Hi; try done. destruct (content_object S d mk) eqn:Ho; [|done]. case_decide; [|done]. intros [= <-].
    eapply ss_flush; [done| |done]. split; [by constructor|done].
  - destruct (ps !! i) as [[| |mk [[[m k] r]|]| |]|] eqn:Hi; try done.
    + destruct (m_truthy m r) eqn:Ht.
      * destruct (save E m (Some k) r d) eqn:Hs; [|done]. intros [= <-]. eapply ss_flush; [done| |done]. split; [by constructor|done].
      * intros [= <-]. eapply ss_flush; [done| |done]. split; [constructor; naive_solver|done].
    + intros [= <-]. eapply ss_flush; [done| |done]. split; [by constructor|done].
  - destruct (ps !! i) as [[]|] eqn:Hi; try done. intros [= <-]. eapply ss_flush; [done| |done]. split; [constructor|done].
  - destruct (ps !! i) as [[]|] eqn:Hi; try done. intros [= <-]. eapply ss_flush; [done| |done]. split; [constructor|done].
  - destruct (ps !! i) as [[]|] eqn:Hi; try done. case_decide; [|done]. intros [= <-]. eapply ss_flush; [done| |done]. split; [by constructor|done].
Qed.
Lemma sexec_sound E S l x y : sexec E S l x = Some y → srun E S l x y.
Proof.
  revert x. induction l as [|a l IH]; intros x; simpl; [intros [= ->]; constructor|]. destruct (sexec1 E S a x) eqn:H; [|done].
  intros H'. econstructor; [by apply sexec1_sound|by apply IH].
Qed.
(** Conclude from a computed property of the final state. *)
Lemma sexec_ex E S l x (P : db → list fphase → bool) :
  match sexec E S l x with Some y => P y.1 y.2 | None => false end = true →
  ∃ d ps, srun E S l x (d, ps) ∧ P d ps = true.
Proof. destruct (sexec E S l x) as [[d ps]|] eqn:H; [|done]. intros HP. exists d, ps. split; [by apply sexec_sound|done]. Qed.

Section races.
Context (b : backend) (S : schema) (rand : nat → Z) (imm : bool) (depth : nat) (E : env).
Context (HE : mk_env b S rand imm depth = Ok E).

(** ** Any number of flush runs without a writer keep user data *)
Section kept.
Context (Hwf : wf_schema S).
Lemma save_existing_kept_old m k r0 r d p : m ∈ s_models S → getrow d (m_table m) k = Some r0 →
  (∀ c, plain_col m c → col r c = col r0 c) →
  save_existing E m k r d = Ok p → user_data_kept S d p.1.
Proof.
  intros Hm Hr Hsame H. unfold save_existing in H. inv_bind H. inv_bind H. inv_bind H. injection H as <-. simpl.
  rename a into d1, a0 into q, a1 into d2, H0 into Hpre, H1 into Hq, H2 into Hx.
  eapply m2m_pre_save_kept in Hpre; [|done..]. destruct Hpre as [P1 P2].
  pose proof (P1 _ Hm k) as Hrow. rewrite Hr in Hrow. destruct (getrow d1 (m_table m) k) as [r1|] eqn:Hr1; [|done].
  pose proof (presave_all_db _ _ _ _ _ _ _ Hq) as [Tq _].
  assert (Hplain : ∀ c, plain_col m c → col q.2 c = col r c).
  { intros c (g & Hg & <- & Hk). change r with ((d1, r).2) at 1.
    eapply (presave_keep E m k r1 (m_fields m) (d1, r)); [exact Hq|done|].
    intros g' Hg' Heq. left. assert (g' = g) as ->; [|done].
    eapply NoDup_fmap_eq; [apply (wf_cols _ _ (wf_models _ Hwf _ Hm))|done..]. }
  eapply kept_trans; [split; [exact P1|exact P2]|].
  eapply kept_trans; [by apply kept_tabs|].
  assert (Hr2 : getrow q.1 (m_table m) k = Some r1) by (unfold getrow, tab; by rewrite Tq).
  unfold exec in Hx. apply run_stmt_single in Hx. unfold run_batch in Hx. inv_bind Hx. destruct a as [d3 evs]. simpl in Hx.
  assert (Hsk : skel E d3 d2).
  { eapply foldM_rel; [apply skel_refl|apply skel_trans| |exact Hx]. intros ? ? ? _. apply fire_skel. }
  eapply kept_trans; [|by eapply skel_kept].
  rewrite apply_all_cons in Hx0. inv_bind Hx0. destruct a as [d4 evs1]. simpl in Hx0. injection Hx0 as <- <-.
  unfold upd_all in Hx1. simpl in Hx1. rewrite Hr2 in Hx1. simpl in Hx1.
  destruct (_ || _) in Hx1; [|done]. injection Hx1 as <- <-. split.
  - intros m' Hm' k'. rewrite getrow_put. case_decide as Hd.
    + destruct Hd as [Heq ->]. assert (m' = m) as -> by (eapply NoDup_fmap_eq; [apply (wf_tables _ Hwf)|done..]).
      rewrite Hr2. intros c Hc. rewrite Hplain, Hsame by done. symmetry. by apply Hrow.
    + by destruct (getrow q.1 (m_table m') k').
  - intros t Ht _ k'. rewrite getrow_put_ne by (intros [-> _]; by eapply Ht). by destruct (getrow q.1 t k').
Qed.

(** The instance a flush run holds agrees with the stored row in the user's columns. *)
Definition fresh_copy (d : db) (ph : fphase) : Prop :=
  match ph with
  | PFetched _ (Some (m, k, r)) => m ∈ s_models S ∧ ∃ r0, getrow d (m_table m) k = Some r0 ∧ ∀ c, plain_col m c → col r c = col r0 c
  | _ => True
  end.
Lemma fresh_copy_kept d d' ph : user_data_kept S d d' → fresh_copy d ph → fresh_copy d' ph.
Proof.
  intros [K _]. destruct ph as [| |mk [[[m k] r]|]| |]; try done. intros (Hm & r0 & Hr & Hc). split; [done|].
  specialize (K m Hm k). rewrite Hr in K. destruct (getrow d' (m_table m) k) as [r1|]; [|done]. exists r1. split; [done|].
  intros c Hp. rewrite Hc by done. by apply K.
Qed.
Lemma fstep_kept d ph d' ph' : fstep E S (d, ph) (d', ph') → fresh_copy d ph → user_data_kept S d d' ∧ fresh_copy d' ph'.
Proof.
  intros H Hf. inversion H; subst; try (split; [apply kept_refl|done]).
  - split; [apply kept_refl|]. destruct o as [[[m k] r]|]; [|done]. match goal with Hx : content_object _ _ _ = _ |- _ => destruct (content_object_some _ _ _ _ _ _ Hx) as (Hm & Hr & _) end.
    split; [done|]. exists r. done.
  - destruct Hf as (Hm & r0 & Hr & Hc). split; [|done].
    match goal with Hx : save _ _ _ _ _ = Ok _ |- _ => rewrite (save_stored _ _ _ _ _ _ Hr) in Hx; inv_bind Hx; injection Hx as <- end.
    by eapply save_existing_kept_old.
  - split; [by apply kept_tabs|done].
Qed.
(** Steps of flush runs only. *)
Inductive flush_only : db * list fphase → db * list fphase → Prop :=
  | fo_step d ps i ph d' ph' : ps !! i = Some ph → fstep E S (d, ph) (d', ph') → flush_only (d, ps) (d', <[i := ph']> ps).
Lemma flush_only_kept x y : rtc flush_only x y → Forall (fresh_copy x.1) x.2 → user_data_kept S x.1 y.1.
Proof.
  induction 1 as [x|x z y Hs _ IH]; [intros _; apply kept_refl|]. intros Hf. destruct Hs as [d ps i ph d' ph' Hi Hs]. simpl in *.
  destruct (fstep_kept _ _ _ _ Hs) as [K F]; [by eapply Forall_lookup_1|].
  eapply kept_trans; [exact K|]. apply IH. apply Forall_insert; [|done]. eapply Forall_impl; [done|]. intros ph0. by apply fresh_copy_kept.
Qed.
Lemma flush_only_kept_all d ps d' ps' :
  (∀ mk m k r, PFetched mk (Some (m, k, r)) ∈ ps →
     m ∈ s_models S ∧ ∃ r0, getrow d (m_table m) k = Some r0 ∧ ∀ c, plain_col m c → col r c = col r0 c) →
  rtc flush_only (d, ps) (d', ps') → user_data_kept S d d'.
Proof.
  intros Hp Hr. apply (flush_only_kept _ _ Hr). apply Forall_forall. intros [| |mk [[[m k] r]|]| |] Hph; try done. by eapply Hp.
Qed.
Lemma flush_only_gone d ps d' ps' m k :
  (∀ mk m k r, PFetched mk (Some (m, k, r)) ∈ ps →
     m ∈ s_models S ∧ ∃ r0, getrow d (m_table m) k = Some r0 ∧ ∀ c, plain_col m c → col r c = col r0 c) →
  m ∈ s_models S → getrow d (m_table m) k = None →
  rtc flush_only (d, ps) (d', ps') → getrow d' (m_table m) k = None.
Proof.
  intros Hp Hm Hn Hr. destruct (flush_only_kept_all _ _ _ _ Hp Hr) as [K _]. specialize (K m Hm k). rewrite Hn in K.
  by destruct (getrow d' (m_table m) k).
Qed.
End kept.

(** ** Flush runs whose loop bodies do not overlap with anything else *)
Section atomic.
Context (rank : string → nat) (Hfl : flushable S rank imm) (Hns : no_self_dep S).
Inductive atomic_step : db * list fphase → db * list fphase → Prop :=
  | as_op d ps o d' : Forall between ps → run_op E S o d = Ok d' → atomic_step (d, ps) (d', ps)
  | as_flush d ps i ph d' ph' : ps !! i = Some ph → (∀ j ph2, ps !! j = Some ph2 → j ≠ i → between ph2) →
      fstep E S (d, ph) (d', ph') → atomic_step (d, ps) (d', <[i := ph']> ps).
Lemma phase_between d ph : between ph → phase_inv S d ph.
Proof. by destruct ph. Qed.
Lemma atomic_inv x y : rtc atomic_step x y → finv S x.1 → Forall (phase_inv S x.1) x.2 → finv S y.1 ∧ Forall (phase_inv S y.1) y.2.
Proof.
  induction 1 as [x|x z y Hs _ IH]; intros Hi Hp; [done|].
  assert (finv S z.1 ∧ Forall (phase_inv S z.1) z.2) as []; [|by apply IH].
  destruct Hs as [d ps o d' Hb Ho|d ps i ph d' ph' Hl Hb Hs]; simpl in *.
  - destruct Hi as (L & C & N). destruct (fop_inv _ _ _ _ _ _ _ HE Hfl _ _ _ Ho L C). split.
    + split_and!; [done|done|]. by apply no_self_dep_rel.
    + eapply Forall_impl; [exact Hb|]. intros ph. by apply phase_between.
  - destruct (fstep_inv _ _ _ _ _ _ _ HE Hfl _ _ _ _ Hs Hi) as [I' P']; [by eapply (Forall_lookup_1 _ _ _ _ Hp)|]. split; [done|].
    apply Forall_lookup_2. intros j ph2 Hj. destruct (decide (j = i)) as [->|Hne].
    + rewrite list_lookup_insert in Hj by (by eapply lookup_lt_Some). by injection Hj as <-.
    + rewrite list_lookup_insert_ne in Hj by done. apply phase_between. by eapply Hb.
Qed.
End atomic.
Lemma srun_only l x y : existsb is_op l = false → srun E S l x y → rtc flush_only x y.
Proof.
  intros Hl. induction 1 as [x|a l x y z Hs _ IH]; [done|]. simpl in Hl. apply orb_false_iff in Hl as [Ha Hl].
  eapply rtc_l; [|by apply IH]. destruct Hs as [|a i d ps ph d' ph' Hi [Hs _]]; [done|]. by econstructor.
Qed.
Lemma lone_atomic d ph d' ph' : rtc (fstep E S) (d, ph) (d', ph') → rtc atomic_step (d, [ph; PTop]) (d', [ph'; PTop]).
Proof.
  intros H. remember (d, ph) as x eqn:Hx. remember (d', ph') as y eqn:Hy. revert d ph Hx d' ph' Hy.
  induction H as [x|x [d1 ph1] y Hs Hr IH]; intros d ph -> d' ph' Hy; [by injection Hy as -> ->|].
  eapply rtc_l; [|by eapply IH]. apply (as_flush d [ph; PTop] 0 ph d1 ph1); [done| |done].
  intros [|[|j]] ph2 Hj Hne; [done| |done]. by injection Hj as <-.
Qed.
End races.
