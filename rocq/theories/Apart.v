(** * Runs of flush and writers that keep off the rows other runs are working on. *)
From stdpp Require Import relations.
From Verif Require Import Base BaseLemmas Schema TrigSet Gen Exec Orm Flush Machine Spec Engine GenLemmas Marking Conditions Invariant Settle Sessions Hist Frame Races.

(** A change from [d] to [d'] that does not concern the row a run in phase [ph] is
    working on: a row that the run has loaded stays as it is (denorms.py:629-630), and no marker
    that the run is about to delete (denorms.py:632-635) is added. *)
Definition apart (S : schema) (d d' : db) (ph : fphase) : Prop :=
  match ph with
  | PFetched mk _ => content_object S d' mk = content_object S d mk
  | PSaved mk => ¬ ∃ ms, d_dirty d' = d_dirty d ++ ms ∧ mk ∈ ms
  | _ => True
  end.

(** Any number of runs of flush and of writers, each statement apart from the row every
    other run is working on. *)
Inductive apart_step (E : env) (S : schema) : db * list fphase → db * list fphase → Prop :=
  | ap_op d ps o d' : run_op E S o d = Ok d' → Forall (apart S d d') ps → apart_step E S (d, ps) (d', ps)
  | ap_flush d ps i ph d' ph' : ps !! i = Some ph → fstep E S (d, ph) (d', ph') →
      (∀ j ph2, ps !! j = Some ph2 → j ≠ i → apart S d d' ph2) → apart_step E S (d, ps) (d', <[i := ph']> ps).

Section apart.
Context (b : backend) (S : schema) (rand : nat → Z) (imm : bool) (depth : nat) (E : env) (rank : string → nat).
Context (HE : mk_env b S rand imm depth = Ok E) (Hfl : flushable S rank imm) (Hns : no_self_dep S).

(** A settled row stays settled under a change that does not mark it. *)
Lemma settled_kept mk d d' :
  (∀ m k f fn ds sk rd, m ∈ s_models S → f ∈ m_fields m → f_kind f = KCallback fn ds sk → declared_reads S m ds rd → vnoticed S m rd k d d') →
  ¬ newly d d' mk → mk_settled S mk d → mk_settled S mk d'.
Proof.
  intros Hv Hn Hs m k r' Hm <- Hr'. pose proof (flushable_covered S imm rank Hfl) as Hcov.
  destruct (getrow d (m_table m) k) as [r|] eqn:Hr.
  - eapply (row_kept S Hcov m k d d' r r'); [done| |done|done|done|].
    + intros. by eapply Hv.
    + intros f Hf. by eapply Hs.
  - intros f Hf. destruct (f_kind f) as [| |fn ds sk|a|ds] eqn:Hk; try by (unfold row_consistent; rewrite Hk).
    destruct (Hcov _ _ _ _ _ Hm Hf Hk) as [rd Hc]. exfalso. apply Hn.
    eapply Hv; [exact Hm|exact Hf|exact Hk|by eapply declared_plus| |]; unfold row_view; rewrite ?Hr, Hr'; done.
Qed.
Lemma op_vnoticed o d d' : links_ok S d → run_op E S o d = Ok d' →
  ∀ m k f fn ds sk rd, m ∈ s_models S → f ∈ m_fields m → f_kind f = KCallback fn ds sk → declared_reads S m ds rd → vnoticed S m rd k d d'.
Proof.
  intros L Ho m k f fn ds sk rd Hm Hf Hk Hd. destruct (mk_env_gen _ _ _ _ _ _ HE) as [l Hl].
  pose proof (fl_names_ok b S rand imm depth E rank HE Hfl l Hl). pose proof (fl_ac b S rand imm depth E rank HE Hfl). destruct Hfl.
  eapply (run_op_vgood b S rand imm depth E l) with (rank := rank); eauto.
Qed.
Lemma save_vnoticed m' k' r d p : links_ok S d → save_existing E m' k' r d = Ok p →
  ∀ m k f fn ds sk rd, m ∈ s_models S → f ∈ m_fields m → f_kind f = KCallback fn ds sk → declared_reads S m ds rd → vnoticed S m rd k d p.1.
Proof.
  intros L Ho m k f fn ds sk rd Hm Hf Hk Hd. destruct (mk_env_gen _ _ _ _ _ _ HE) as [l Hl].
  pose proof (fl_names_ok b S rand imm depth E rank HE Hfl l Hl). pose proof (fl_ac b S rand imm depth E rank HE Hfl). destruct Hfl.
  eapply (save_existing_vgood b S rand imm depth E l) with (rank := rank); eauto.
Qed.
Lemma unmark_settled mk mk' d : mk_settled S mk d → mk_settled S mk (unmark d mk').
Proof.
  intros Hs m k r Hm Hmk Hr f Hf. change (getrow d (m_table m) k = Some r) in Hr.
  destruct (f_kind f) as [| |fn ds sk|a|ds] eqn:Hk; try by (unfold row_consistent; rewrite Hk).
  destruct (fl_settled _ _ _ Hfl _ _ _ _ _ Hm Hf Hk) as (rd & Hcv & _). eapply row_consistent_dirty; eauto.
Qed.

Lemma apart_inv x y : rtc (apart_step E S) x y → finv S x.1 → Forall (phase_inv S x.1) x.2 → finv S y.1 ∧ Forall (phase_inv S y.1) y.2.
Proof.
  induction 1 as [x|x z y Hs _ IH]; intros Hi Hp; [done|].
  assert (finv S z.1 ∧ Forall (phase_inv S z.1) z.2) as []; [|by apply IH].
  destruct Hs as [d ps o d' Ho Hb|d ps i ph d' ph' Hl Hs Hb]; simpl in *.
  - destruct Hi as (L & C & N). destruct (fop_inv _ _ _ _ _ _ _ HE Hfl _ _ _ Ho L C) as [L' C']. split.
    + split_and!; [done|done|]. by apply no_self_dep_rel.
    + apply Forall_forall. intros ph Hph. pose proof (proj1 (Forall_forall _ _) Hp ph Hph) as Hpi.
      pose proof (proj1 (Forall_forall _ _) Hb ph Hph) as Ha. destruct ph as [| |mk o'|mk|]; try done; simpl in *.
      * by rewrite Ha.
      * eapply settled_kept; [exact (op_vnoticed o d d' L Ho)|exact Ha|exact Hpi].
  - destruct (fstep_inv _ _ _ _ _ _ _ HE Hfl _ _ _ _ Hs Hi) as [I' P']; [by eapply (Forall_lookup_1 _ _ _ _ Hp)|]. split; [done|].
    apply Forall_lookup_2. intros j ph2 Hj. destruct (decide (j = i)) as [->|Hne].
    { rewrite list_lookup_insert in Hj by (by eapply lookup_lt_Some). by injection Hj as <-. }
    rewrite list_lookup_insert_ne in Hj by done. pose proof (Forall_lookup_1 _ _ _ _ Hp Hj) as Hpi.
    pose proof (Hb _ _ Hj Hne) as Ha. destruct ph2 as [| |mk o'|mk|]; try done; simpl in *; [by rewrite Ha|].
    inversion Hs; subst; try done; [|by apply unmark_settled].
    pose proof (Forall_lookup_1 _ _ _ _ Hp Hl) as Hph. simpl in Hph.
    match goal with Hx : save _ _ _ _ _ = Ok _ |- _ => rewrite (save_stored _ _ _ _ _ _ (content_object_row _ _ _ _ _ _ Hph)) in Hx; inv_bind Hx; injection Hx as <- end.
    eapply settled_kept; [|exact Ha|exact Hpi]. eapply save_vnoticed; [apply Hi|done].
Qed.
Lemma apart_safe d d' ps ps' : links_ok S d → consistent_or_marked S d → Forall (λ ph, ph = PTop) ps →
  rtc (apart_step E S) (d, ps) (d', ps') → finv S d'.
Proof.
  intros L C Hp Hr. destruct (apart_inv _ _ Hr) as [Hi _]; [..|done].
  - split_and!; [done|done|]. by apply no_self_dep_rel.
  - eapply Forall_impl; [exact Hp|]. by intros ? ->.
Qed.
Lemma apart_flush d d' ps ps' : links_ok S d → consistent_or_marked S d → Forall (λ ph, ph = PTop) ps →
  rtc (apart_step E S) (d, ps) (d', ps') →
  links_ok S d' ∧ consistent_or_marked S d' ∧
  ∀ ord n d'', flush E S ord n d' = (d'', Done) → consistent S d'' ∧ d_dirty d'' = [].
Proof.
  intros L C Hp Hr. pose proof (apart_safe _ _ _ _ L C Hp Hr) as Hi. destruct Hi as (L' & C' & N') eqn:Heq.
  split; [done|]. split; [done|]. intros ord n d'' Hf. split; [|by eapply flush_done_clean].
  by eapply (fflush_consistent b S rand imm depth E rank HE Hfl).
Qed.
End apart.

(** ** Checking a schedule *)
Definition same_object (S : schema) (d d' : db) (mk : marker) : bool :=
  match content_object S d mk, content_object S d' mk with
  | Ok (Some (_, k, r)), Ok (Some (_, k', r')) => bool_decide (k = k') && bool_decide (r = r')
  | Ok None, Ok None => true
  | _, _ => false
  end.
Lemma same_object_spec S d d' mk : same_object S d d' mk = true → content_object S d' mk = content_object S d mk.
Proof.
  unfold same_object, content_object. destruct (model_of_ct S mk.1) as [m|]; [|done]. destruct mk.2 as [s|]; [|done].
  destruct (list_find _ (map_to_list (tab d (m_table m)))) as [[i [k r]]|], (list_find _ (map_to_list (tab d' (m_table m)))) as [[i' [k' r']]|]; try done.
  intros [->%bool_decide_eq_true ->%bool_decide_eq_true]%andb_true_iff. done.
Qed.
Definition apartb (S : schema) (d d' : db) (ph : fphase) : bool :=
  match ph with
  | PFetched mk _ => same_object S d d' mk
  | PSaved mk => bool_decide (mk ∉ drop (length (d_dirty d)) (d_dirty d'))
  | _ => true
  end.
Lemma apartb_spec S d d' ph : apartb S d d' ph = true → apart S d d' ph.
Proof.
  destruct ph as [| |mk o|mk|]; simpl; try done; [apply same_object_spec|]. intros Hn%bool_decide_eq_true (ms & Hd & Hin).
  apply Hn. by rewrite Hd, drop_app.
Qed.
(** The run that an action belongs to. *)
Definition runs (a : sact) (i : nat) : bool :=
  match a with SOp _ => false | SStart j | SFetch j _ | SSave j | SDel j | SPass j | SDone j => Nat.eqb i j end.
Definition all_apart (S : schema) (a : sact) (d d' : db) (ps : list fphase) : bool :=
  forallb id (imap (λ i ph, runs a i || apartb S d d' ph) ps).
Lemma all_apart_spec S a d d' ps i ph : all_apart S a d d' ps = true → ps !! i = Some ph → runs a i = false → apart S d d' ph.
Proof.
  unfold all_apart. intros Ha Hi Hr. rewrite forallb_forall in Ha. apply apartb_spec.
  specialize (Ha (runs a i || apartb S d d' ph)). rewrite Hr in Ha. apply Ha.
  apply elem_of_list_In, elem_of_list_lookup. exists i. rewrite list_lookup_imap, Hi. simpl. by rewrite Hr.
Qed.
Fixpoint aexec (E : env) (S : schema) (l : list sact) (x : db * list fphase) : option (db * list fphase) :=
  match l with
  | [] => Some x
  | a :: l' => match sexec1 E S a x with
      | Some y => if all_apart S a x.1 y.1 x.2 then aexec E S l' y else None
      | None => None end
  end.
Lemma aexec_sound E S l x y : aexec E S l x = Some y → rtc (apart_step E S) x y.
Proof.
  revert x. induction l as [|a l IH]; intros x; simpl; [by intros [= ->]|]. destruct (sexec1 E S a x) as [z|] eqn:H; [|done].
  destruct (all_apart S a x.1 z.1 x.2) eqn:Ha; [|done]. intros Hl. eapply rtc_l; [|by apply IH].
  apply sexec1_sound in H. destruct H as [d ps o d' Ho|a i d ps ph d' ph' Hi [Hs _] Hx].
  - apply ap_op with o; [done|]. apply Forall_lookup_2. intros j ph Hj. by eapply (all_apart_spec _ (SOp o)).
  - eapply ap_flush; [done|done|]. intros j ph2 Hj Hne. eapply all_apart_spec; [exact Ha|done|].
    rewrite Hx. by destruct ph, ph'; apply Nat.eqb_neq.
Qed.
Lemma aexec_ex E S l x (P : db → list fphase → bool) :
  match aexec E S l x with Some y => P y.1 y.2 | None => false end = true →
  ∃ d ps, rtc (apart_step E S) x (d, ps) ∧ P d ps = true.
Proof. destruct (aexec E S l x) as [[d ps]|] eqn:H; [|done]. intros HP. exists d, ps. split; [by eapply aexec_sound|done]. Qed.
