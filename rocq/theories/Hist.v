(** * Histories of user operations, flushes and rebuilds in one session. *)
From stdpp Require Import relations.
From Verif Require Import Base BaseLemmas Schema TrigSet Gen Exec Orm Flush Machine Spec Engine GenLemmas Marking Conditions Invariant Settle Sessions Frame.

(** One step of a history: an operation (rolled back if it fails), denorm.flush()
    (denorms.py:593-635) or denorm.rebuildall() (denorms.py:536-566), the latter two
    keeping what they did before an exception (autocommit). *)
Inductive hop :=
  | HOp (o : op)
  | HFlush (ord : db → list marker → list marker) (n : nat)
  | HRebuild (ord : db → list marker → list marker) (n : nat) (model_name field_name : option string).
Definition hstep (E : env) (S : schema) (d : db) (h : hop) : db :=
  match h with
  | HOp o => step E S d o
  | HFlush ord n => (flush E S ord n d).1
  | HRebuild ord n mn fn => (rebuildall E S ord n mn fn d).1
  end.

Section hist.
Context (b : backend) (S : schema) (rand : nat → Z) (imm : bool) (depth : nat) (E : env) (rank : string → nat).
Context (HE : mk_env b S rand imm depth = Ok E) (Hfl : flushable S rank imm).

Lemma finv_mark d l : finv S d → finv S (mark d l).
Proof.
  intros (L & C & N). split_and!; [done| |done]. intros m k r Hm Hr. destruct (C m k r Hm Hr) as [Hin|Hc]; [left; apply elem_of_app; by left|right].
  intros f Hf. specialize (Hc f Hf). destruct (f_kind f) as [| |fn ds sk|a|ds] eqn:Hk; try by (unfold row_consistent; rewrite Hk).
  destruct (fl_settled _ _ _ Hfl _ _ _ _ _ Hm Hf Hk) as (rd & Hcv & _). eapply row_consistent_dirty; eauto.
Qed.
Lemma step_inv o d : links_ok S d → consistent_or_marked S d → links_ok S (step E S d o) ∧ consistent_or_marked S (step E S d o).
Proof.
  intros L C. unfold step. destruct (run_op E S o d) eqn:Ho; [|done]. by eapply fop_inv.
Qed.
Lemma hstep_inv (Hns : no_self_dep S) h d : finv S d → finv S (hstep E S d h).
Proof.
  intros Hi. destruct h as [o|ord n|ord n mn fn]; simpl.
  - destruct Hi as (L & C & N). destruct (step_inv o d L C). split_and!; [done|done|]. by apply no_self_dep_rel.
  - destruct (flush E S ord n d) eqn:Hf. by eapply fflush_inv.
  - destruct (rebuildall E S ord n mn fn d) eqn:Hf. eapply fflush_inv; [done|done|exact Hf|]. by apply finv_mark.
Qed.
Lemma hist_inv (Hns : no_self_dep S) hs d : finv S d → finv S (foldl (hstep E S) d hs).
Proof. revert d. induction hs as [|h hs IH]; intros d Hi; [done|]. simpl. apply IH. by apply hstep_inv. Qed.
Lemma finv_empty d : d_tabs d = ∅ → finv S d.
Proof.
  intros Hd. assert (Hn : ∀ t k, getrow d t k = None) by (intros; unfold getrow, tab; by rewrite Hd, lookup_empty).
  split_and!.
  - intros m f dp o t c rc _ _ _ _ _ lk lr Hlr. by rewrite Hn in Hlr.
  - intros m k r _ Hr. by rewrite Hn in Hr.
  - intros m f fn ds sk dp k r _ _ _ _ Hr. by rewrite Hn in Hr.
Qed.

Lemma hist_flush (Hns : no_self_dep S) hs d ord n d' : finv S d →
  flush E S ord n (foldl (hstep E S) d hs) = (d', Done) → consistent S d' ∧ d_dirty d' = [].
Proof.
  intros Hi Hf. split; [|by eapply flush_done_clean]. eapply fflush_consistent; [done|done|exact Hf|]. by apply hist_inv.
Qed.
Lemma ops_flush ops d ord n d' : links_ok S d → consistent_or_marked S d → no_self_relation S (foldl (step E S) d ops) →
  flush E S ord n (foldl (step E S) d ops) = (d', Done) → consistent S d' ∧ d_dirty d' = [].
Proof.
  intros L C N Hf. split; [|by eapply flush_done_clean]. eapply fflush_consistent; [done|done|exact Hf|].
  destruct (fsteps_inv b S rand imm depth E rank HE Hfl ops d L C). split_and!; done.
Qed.
Lemma rebuild_repairs_all d ord n d' : links_ok S d → no_self_relation S d →
  (∀ m k r, m ∈ s_models S → getrow d (m_table m) k = Some r → m_visible m r = true) →
  rebuildall E S ord n None None d = (d', Done) → consistent S d' ∧ d_dirty d' = [].
Proof.
  intros L N V Hf. split; [|by eapply flush_done_clean].
  eapply fflush_consistent; [done|done|exact Hf|]. apply rebuild_inv; [apply (fl_wf _ _ _ Hfl)|done..].
Qed.
Lemma crash_safe d d' ph : finv S d → rtc (fstep E S) (d, PTop) (d', ph) →
  consistent_or_marked S d' ∧ ∀ ord n d'', flush E S ord n d' = (d'', Done) → consistent S d'' ∧ d_dirty d'' = [].
Proof.
  intros Hi Hr. assert (Hp : phase_inv S d PTop) by done.
  destruct (fsteps_crash _ _ _ _ _ _ _ HE Hfl _ _ _ _ Hr Hi Hp) as [Hi' _].
  split; [apply Hi'|]. intros ord n d'' Hf. split; [|by eapply flush_done_clean]. by eapply fflush_consistent.
Qed.
Lemma writer_safe (Hns : no_self_dep S) d d' ph : finv S d → rtc (wstep S E) (d, PTop) (d', ph) →
  consistent_or_marked S d' ∧ ∀ ord n d'', flush E S ord n d' = (d'', Done) → consistent S d'' ∧ d_dirty d'' = [].
Proof.
  intros Hi Hr. destruct (wsteps_inv _ _ _ _ _ _ _ HE Hfl Hns _ _ Hr) as [Hi' _]; [done|done|].
  split; [apply Hi'|]. intros ord n d'' Hf. split; [|by eapply flush_done_clean]. by eapply fflush_consistent.
Qed.
End hist.

(** Whatever the cursors return, a run that ends has refreshed everything. *)
Lemma run_end_dirty E S x y : rtc (fstep E S) x y → y.2 = PEnd → x.2 ≠ PEnd → d_dirty y.1 = [].
Proof.
  induction 1 as [x|x z y Hs Hr IH]; intros He Hn; [done|]. destruct z as [d' ph'].
  assert (ph' = PEnd ∨ ph' ≠ PEnd) as [->|Hne] by (destruct ph'; auto); [|by apply IH].
  assert (y = (d', PEnd)) as ->.
  { inversion Hr as [|? z1 ? Hs1]; subst; [done|]. inversion Hs1. }
  inversion Hs; subst. done.
Qed.
Lemma run_end_consistent b S rand imm depth E rank d d' :
  mk_env b S rand imm depth = Ok E → flushable S rank imm →
  links_ok S d → consistent_or_marked S d → no_self_relation S d →
  rtc (fstep E S) (d, PTop) (d', PEnd) → consistent S d' ∧ d_dirty d' = [].
Proof.
  intros HE Hfl L C N Hr. assert (Hd : d_dirty d' = []) by (by apply (run_end_dirty E S (d, PTop) (d', PEnd) Hr)).
  destruct (crash_safe b S rand imm depth E rank HE Hfl d d' PEnd) as [C' _]; [done|done|]. split; [|done].
  intros m k r f Hm Hf Hrow. destruct (C' m k r Hm Hrow) as [Hin|Hc]; [|by apply Hc]. rewrite Hd in Hin. by apply elem_of_nil in Hin.
Qed.
