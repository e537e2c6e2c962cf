(** * Claims on saves that are interleaved with other sessions (C86). *)
From stdpp Require Import relations.
From Verif Require Import Base BaseLemmas Schema TrigSet Gen Exec Orm Flush Spec SpecAgg SpecOrder SpecSave GenLemmas Conditions Settle Hist AggOps AggDrift AggProps Check ExForum ExBad ExAgg CheckOrder ExTree CheckSave ExSave SaveModes SaveModesAgg ExModes SaveRace ExRace.

(** An uninterrupted save() is a run of the small steps. *)
Theorem save_is_steps E S P hs i m k r d p :
  m ∈ s_models S → hs !! i = Some None → (∀ mm, mm ∈ m_m2m m → mm_denorm mm = None) →
  save E m (Some k) r d = Ok p → rtc (race_step E S P) (d, hs) (p.1.1, hs).
Proof. exact (λ Hm Hi Hmm H, save_steps E S P hs i m k r d p Hm Hi H Hmm). Qed.
Print Assumptions save_is_steps.
Example save_is_steps_ex b : QForum ∈ s_models (QS false) ∧ (q_start b).2 !! 0%nat = Some None ∧ (∀ mm, mm ∈ m_m2m QForum → mm_denorm mm = None) ∧
  save (QX b) QForum (Some 2) (q_inst b false) (qd b false) = Ok (q_saved b false).
Proof. split; [by left|]. split; [done|]. split; [by intros mm ?%elem_of_nil|]. unfold QX. exact (q_saved_ok b false). Qed.

(** ** Callback fields *)
(** However many saves, operations and flush bodies interleave, the rows that are not right
    are marked: the next flush puts everything right.  A save may well write a value that was
    outdated when it was written. *)
Theorem concurrent_saves_then_flush b S rand imm depth E rank s s' ord n d' :
  mk_env b S rand imm depth = Ok E → flushable S rank imm →
  links_ok S s.1 → consistent_or_marked S s.1 → no_self_relation S s.1 →
  rtc (λ x y, race_step E S (λ _, True) x y ∧ no_self_relation S y.1) s s' →
  flush E S ord n s'.1 = (d', Done) → consistent S d' ∧ d_dirty d' = [].
Proof. exact (λ HE Hfl L C N Hs, race_flush b S rand imm depth E rank HE Hfl s s' ord n d' Hs (conj L (conj C N))). Qed.
Print Assumptions concurrent_saves_then_flush.
(** Forums 1 and 2 are renamed at the same time: forum 2 ends with the path of the old title
    of forum 1, which the flush puts right. *)
Example concurrent_saves_then_flush_ex b : mk_env b (QS false) rand0 true 10 = Ok (QX b) ∧ flushable (QS false) q_rank true ∧
  links_ok (QS false) (q_start b).1 ∧ consistent_or_marked (QS false) (q_start b).1 ∧ no_self_relation (QS false) (q_start b).1 ∧
  rtc (λ x y, race_step (QX b) (QS false) (λ _, True) x y ∧ no_self_relation (QS false) y.1) (q_start b) (q_after b) ∧
  (flush (QX b) (QS false) id_ord 10 (q_after b).1).2 = Done ∧
  cellv (q_after b).1 "forum" 2 "path" = Some (VText "/a/w/") ∧
  cellv (flush (QX b) (QS false) id_ord 10 (q_after b).1).1 "forum" 2 "path" = Some (VText "/w/w/").
Proof.
  split; [apply QE_ok|]. split; [apply QS_flushable|]. split; [apply QS_nolinks|].
  split; [apply q_start_marked|]. split; [apply q_start_noself|]. split.
  - eapply rtc_subrel; [|by apply (q_after_steps b (λ _, True))]. intros x y (A & _ & B). done.
  - destruct b; vm_compute; repeat split; reflexivity.
Qed.

(** ** Aggregates *)
(** "Makes sure we never overwrite the count with an outdated value" (fields.py:161): as long
    as nobody changes the true value of a row between the SELECT and the UPDATE of a save of
    that row, every aggregate is exact at every moment, whatever is saved, in however many
    sessions. *)
Theorem concurrent_saves_keep_aggregates b S rand depth E m f a rel s s' :
  wf_schema S → names_apart S → mk_env b S rand true depth = Ok E → agg_field S m f a rel →
  fk_valid m a rel s.1 → agg_exact m f a rel s.1 → (∀ i h, s.2 !! i = Some h → h = None) →
  rtc (λ x y, race_step E S (clean_op m f) x y ∧ apart m a rel x y) s s' →
  fk_valid m a rel s'.1 ∧ agg_exact m f a rel s'.1.
Proof. exact (λ Hwf Hna HE Haf, race_exact b S rand depth E Hwf Hna m f a rel s s' HE Haf). Qed.
Print Assumptions concurrent_saves_keep_aggregates.
(** Two forums saved at the same time while posts arrive in the third one, and in forum 2 as
    soon as it is saved. *)
Example concurrent_saves_keep_aggregates_ex b : wf_schema (QS false) ∧ names_apart (QS false) ∧
  mk_env b (QS false) rand0 true 10 = Ok (QX b) ∧ agg_field (QS false) QForum q_cf q_count QPost ∧
  fk_valid QForum q_count QPost (q_start b).1 ∧ agg_exact QForum q_cf q_count QPost (q_start b).1 ∧
  (∀ i h, (q_start b).2 !! i = Some h → h = None) ∧
  rtc (λ x y, race_step (QX b) (QS false) (clean_op QForum q_cf) x y ∧ apart QForum q_count QPost x y) (q_start b) (q_after b) ∧
  cellv (q_start b).1 "forum" 2 "post_count" = Some (VInt 2) ∧ cellv (q_start b).1 "forum" 3 "post_count" = Some (VInt 1) ∧
  cellv (q_after b).1 "forum" 2 "post_count" = Some (VInt 3) ∧ cellv (q_after b).1 "forum" 3 "post_count" = Some (VInt 3).
Proof.
  destruct (QS_flushable). split; [done|]. split; [done|]. split; [apply QE_ok|]. split; [apply QS_count|].
  split; [apply q_start_fk|]. split; [apply q_start_exact|].
  split; [exact (q_start_idle b)|]. split.
  - eapply rtc_subrel; [|exact (q_after_steps b (clean_op QForum q_cf) I I)]. intros x y (A & B & _). done.
  - destruct b; vm_compute; repeat split; reflexivity.
Qed.
(** What happens otherwise: the value read in [d1] is written in [d2]; the error of the stored
    value becomes the error it had when it was read, minus the change of the true value
    between the two. *)
Theorem concurrent_save_error b S rand imm depth E m f a rel k r d1 q d2 d3 r1 v :
  wf_schema S → names_apart S → mk_env b S rand imm depth = Ok E → agg_field S m f a rel →
  getrow d1 (m_table m) k = Some r1 → col r1 (f_col f) = VInt v → presave_all E m false (Some k) d1 r = Ok q →
  is_Some (getrow d2 (m_table m) k) → exec E (m_table m) [upd_all k q.2] d2 = Ok d3 →
  ∃ r3, getrow d3 (m_table m) k = Some r3 ∧
    col r3 (f_col f) = VInt (agg_value d3 rel a k + (v - agg_value d1 rel a k) - (agg_value d2 rel a k - agg_value d1 rel a k)).
Proof. exact (λ Hwf Hna, race_error b S rand imm depth E Hwf Hna m f a rel k r d1 q d2 d3 r1 v). Qed.
Print Assumptions concurrent_save_error.
(** Read before, written after the arrival of a post. *)
Example concurrent_save_error_ex b : wf_schema (QS false) ∧ names_apart (QS false) ∧
  mk_env b (QS false) rand0 true 10 = Ok (QX b) ∧ agg_field (QS false) QForum q_cf q_count QPost ∧
  getrow (qd b false) (m_table QForum) 2 = Some (q_row b false) ∧ col (q_row b false) (f_col q_cf) = VInt 2 ∧
  presave_all (QX b) QForum false (Some 2) (qd b false) (q_loads b 2) = Ok (q_read b) ∧
  is_Some (getrow (q_late b) (m_table QForum) 2) ∧ exec (QX b) (m_table QForum) [upd_all 2 (q_read b).2] (q_late b) = Ok (q_written b) ∧
  agg_value (qd b false) QPost q_count 2 = 2 ∧ agg_value (q_late b) QPost q_count 2 = 3 ∧
  cellv (q_late b) "forum" 2 "post_count" = Some (VInt 3) ∧ cellv (q_written b) "forum" 2 "post_count" = Some (VInt 2).
Proof.
  destruct (QS_flushable). split; [done|]. split; [done|]. split; [apply QE_ok|]. split; [apply QS_count|].
  split; [exact (q_row_ok b false)|]. split; [destruct b; vm_compute; reflexivity|]. split; [exact (q_read_ok b)|].
  split; [apply (bool_decide_eq_true_1 _); destruct b; vm_compute; reflexivity|]. split; [exact (q_written_ok b)|].
  destruct b; vm_compute; repeat split; reflexivity.
Qed.
(** On every engine: a post is added to forum 2 between the SELECT and the UPDATE of a save of
    forum 2.  Its count is one too low, and stays so through operations, flushes and rebuilds. *)
Theorem concurrent_save_keeps_count_refuted b : ∃ S rand depth E m f a rel s s' k,
  wf_schema S ∧ names_apart S ∧ mk_env b S rand true depth = Ok E ∧ agg_field S m f a rel ∧
  fk_valid m a rel s.1 ∧ agg_exact m f a rel s.1 ∧ (∀ i h, s.2 !! i = Some h → h = None) ∧
  rtc (race_step E S (clean_op m f)) s s' ∧ (∀ i h, s'.2 !! i = Some h → h = None) ∧
  ¬ agg_exact m f a rel s'.1 ∧
  ∀ hs, Forall (leaves_agg m f k) hs → ∃ r', getrow (foldl (hstep E S) s'.1 hs) (m_table m) k = Some r' ∧
    col r' (f_col f) = VInt (agg_value (foldl (hstep E S) s'.1 hs) rel a k - 1).
Proof.
  exists (QS false), rand0, 10%nat, (QX b), QForum, q_cf, q_count, QPost, (q_start b), (q_raced b), 2.
  destruct (QS_flushable). split; [done|]. split; [done|]. split; [apply QE_ok|]. split; [apply QS_count|].
  split; [apply q_start_fk|]. split; [apply q_start_exact|].
  split; [exact (q_start_idle b)|].
  split; [by apply q_raced_steps|]. split; [exact (q_raced_idle b)|]. split; [apply q_raced_wrong|].
  intros hs. exact (off_by_one b hs _ (q_raced_low b) (q_raced_true b)).
Qed.
Print Assumptions concurrent_save_keeps_count_refuted.
