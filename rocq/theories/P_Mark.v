(** * Writes are noticed (C04 - C08). *)
From Verif Require Import Base BaseLemmas Schema TrigSet Gen Exec Orm Flush Spec Settle Sessions Marks Hist Check ExForum ExRich.

(** A flushed database of the rich schema, and one operation on it. *)
Definition rd2 (b : backend) : db := foldl (hstep (RE b) RS) d0 ((HOp <$> rops) ++ [HFlush id_ord 10]).
Definition after (b : backend) (o : op) : db := step (RE b) RS (rd2 b) o.
Lemma after_ok b o : match run_op (RE b) RS o (rd2 b) with Ok _ => true | Err _ => false end = true →
  run_op (RE b) RS o (rd2 b) = Ok (after b o).
Proof. apply step_ok. Qed.
Lemma rd2_links b : links_ok RS (rd2 b).
Proof.
  apply (hist_inv b RS rand0 true 10 (RE b) rrank (RE_ok b) RS_flushable RS_no_self). apply finv_empty. reflexivity.
Qed.
Lemma RS_trackable b : trackable RS rrank true b.
Proof. destruct RS_flushable. split; auto. Qed.
Ltac comp := match goal with b : backend |- _ => destruct b; vm_compute; reflexivity end.
Lemma in_marks (x : marker) (l : list marker) : bool_decide (x ∈ l) = true → x ∈ l.
Proof. apply bool_decide_eq_true_1. Qed.
Ltac in_list := apply in_marks; match goal with b : backend |- _ => destruct b; vm_compute; reflexivity end.
Lemma rowsome b o t k : match getrow (after b o) t k with Some _ => true | None => false end = true → is_Some (getrow (after b o) t k).
Proof. destruct (getrow _ _ _); [by eexists|done]. Qed.
Lemma ba_left t d d' k c v : cellv d t k c = Some v → before_or_after t d d' k (λ r, col r c = v).
Proof. intros H. apply fmap_Some in H as (r & Hr & Hc). left. by exists r. Qed.
Lemma ba_right t d d' k c v : cellv d' t k c = Some v → before_or_after t d d' k (λ r, col r c = v).
Proof. intros H. apply fmap_Some in H as (r & Hr & Hc). right. by exists r. Qed.
Lemma not_ba t d d' k c v w : cellv d t k c = Some v → cellv d' t k c = Some v → v ≠ w → ¬ before_or_after t d d' k (λ r, col r c = w).
Proof. unfold cellv. intros H1 H2 Hn [(r & Hr & Hc)|(r & Hr & Hc)]; rewrite Hr in *; cbn in *; congruence. Qed.
Lemma unlinked t c rc d d' k : is_Some (getrow d t k) → getrow d' t k = None → link_touched t c rc d d' k.
Proof. intros [r Hr] Hn. unfold link_touched. by rewrite Hr, Hn. Qed.
Lemma cell_row d t k c v : cellv d t k c = Some v → is_Some (getrow d t k).
Proof. intros H. apply fmap_Some in H as (r & Hr & _). by exists r. Qed.

(** ** C04 *)
(** [touched]: the row was inserted, or differs in a tracked column.  A marker is added
    even if the row is marked already: the earlier one may be about to be deleted by a
    running flush. *)
Theorem written_row_is_marked b S rand imm depth E rank m f fn ds sk o d d' k :
  mk_env b S rand imm depth = Ok E → trackable S rank imm b →
  m ∈ s_models S → f ∈ m_fields m → f_kind f = KCallback fn ds sk →
  run_op E S o d = Ok d' → links_ok S d →
  is_Some (getrow d' (m_table m) k) → touched S m d d' k →
  ∃ ms, d_dirty d' = d_dirty d ++ ms ∧ marker_of m k ∈ ms.
Proof. exact (λ HE Htk Hm Hf Hk Ho HL '(ex_intro _ r' Hr'), mark_own b S rand imm depth E rank HE Htk m f fn ds sk Hm Hf Hk o d d' Ho HL k r' Hr'). Qed.
Print Assumptions written_row_is_marked.
Definition op_score : op := OUpdate "post" [7] (λ r, <["score" := VInt 8]> r).
Example written_row_ex b : d_dirty (rd2 b) = [] ∧ run_op (RE b) RS op_score (rd2 b) = Ok (after b op_score) ∧
  links_ok RS (rd2 b) ∧ trackable RS rrank true b ∧
  is_Some (getrow (after b op_score) "post" 7) ∧ touched RS RPost (rd2 b) (after b op_score) 7.
Proof.
  split; [comp|]. split; [apply after_ok; comp|]. split; [apply rd2_links|]. split; [apply RS_trackable|]. split; [apply rowsome; comp|].
  apply (touched_upd _ _ _ _ _ "score" (VInt 7) (VInt 8)); [apply trackedb_spec; by vm_compute|comp|comp|done].
Qed.

(** ** C05 *)
Theorem forward_change_marks b S rand imm depth E rank m f fn ds sk dp om fk o d d' k r' j :
  mk_env b S rand imm depth = Ok E → trackable S rank imm b →
  m ∈ s_models S → f ∈ m_fields m → f_kind f = KCallback fn ds sk →
  dp ∈ ds → find_model S (dep_other dp) = Some om → dep_rel dp = RelForward fk → tracked S m fk →
  run_op E S o d = Ok d' → links_ok S d →
  getrow d' (m_table m) k = Some r' → col r' fk = VInt j → touched S om d d' j →
  ∃ ms, d_dirty d' = d_dirty d ++ ms ∧ marker_of m k ∈ ms.
Proof. exact (λ HE Htk Hm Hf Hk Hdp Hfo Hr Ht Ho HL Hr' Hj Hto, mark_forward b S rand imm depth E rank HE Htk m f fn ds sk Hm Hf Hk o d d' Ho HL k r' Hr' dp om Hdp Hfo fk j Hr Ht Hj Hto). Qed.
Print Assumptions forward_change_marks.
(** Both posts of forum 1 are marked when its title changes. *)
Definition op_title : op := OUpdate "forum" [1] (λ r, <["title" := VText "z"]> r).
Example forward_change_ex b : d_dirty (rd2 b) = [] ∧ run_op (RE b) RS op_title (rd2 b) = Ok (after b op_title) ∧
  tracked RS RPost "forum_id" ∧ touched RS RForum (rd2 b) (after b op_title) 1 ∧
  cellv (after b op_title) "post" 7 "forum_id" = Some (VInt 1) ∧ cellv (after b op_title) "post" 8 "forum_id" = Some (VInt 1) ∧
  (11, Some "7") ∈ d_dirty (after b op_title) ∧ (11, Some "8") ∈ d_dirty (after b op_title).
Proof.
  split; [comp|]. split; [apply after_ok; comp|]. split; [apply trackedb_spec; by vm_compute|]. split.
  - apply (touched_upd _ _ _ _ _ "title" (VText "c") (VText "z")); [apply trackedb_spec; by vm_compute|comp|comp|done].
  - split; [comp|]. split; [comp|]. split; in_list.
Qed.

(** ** C06 *)
(** The child points at [k] before or after the operation, so both parents of a
    re-parented child are covered. *)
Theorem backward_change_marks b S rand imm depth E rank m f fn ds sk dp om fk o d d' k j :
  mk_env b S rand imm depth = Ok E → trackable S rank imm b →
  m ∈ s_models S → f ∈ m_fields m → f_kind f = KCallback fn ds sk →
  dp ∈ ds → find_model S (dep_other dp) = Some om → dep_rel dp = RelBackward fk → tracked S om fk →
  run_op E S o d = Ok d' → links_ok S d →
  is_Some (getrow d' (m_table m) k) →
  before_or_after (m_table om) d d' j (λ r, col r fk = VInt k) → touched S om d d' j →
  ∃ ms, d_dirty d' = d_dirty d ++ ms ∧ marker_of m k ∈ ms.
Proof. exact (λ HE Htk Hm Hf Hk Hdp Hfo Hr Ht Ho HL '(ex_intro _ r' Hr') Hba Hto, mark_backward b S rand imm depth E rank HE Htk m f fn ds sk Hm Hf Hk o d d' Ho HL k r' Hr' dp om Hdp Hfo fk j Hr Ht Hba Hto). Qed.
Print Assumptions backward_change_marks.
(** Moving post 8 from forum 1 to forum 2 marks both forums. *)
Definition op_move : op := OUpdate "post" [8] (λ r, <["forum_id" := VInt 2]> r).
Example backward_change_ex b : d_dirty (rd2 b) = [] ∧ run_op (RE b) RS op_move (rd2 b) = Ok (after b op_move) ∧
  before_or_after "post" (rd2 b) (after b op_move) 8 (λ r, col r "forum_id" = VInt 1) ∧
  before_or_after "post" (rd2 b) (after b op_move) 8 (λ r, col r "forum_id" = VInt 2) ∧
  touched RS RPost (rd2 b) (after b op_move) 8 ∧ tracked RS RPost "forum_id" ∧
  (10, Some "1") ∈ d_dirty (after b op_move) ∧ (10, Some "2") ∈ d_dirty (after b op_move).
Proof.
  assert (H1 : cellv (rd2 b) "post" 8 "forum_id" = Some (VInt 1)) by comp.
  assert (H2 : cellv (after b op_move) "post" 8 "forum_id" = Some (VInt 2)) by comp.
  split; [comp|]. split; [apply after_ok; comp|].
  split; [exact (ba_left _ _ _ _ _ _ H1)|].
  split; [exact (ba_right _ _ _ _ _ _ H2)|].
  split; [|split; [apply trackedb_spec; by vm_compute|split; in_list]].
  apply (touched_upd _ _ _ _ _ "forum_id" (VInt 1) (VInt 2)); [apply trackedb_spec; by vm_compute|exact H1|exact H2|done].
Qed.

(** ** C07 *)
Theorem link_change_marks b S rand imm depth E rank m f fn ds sk dp om t c rc o d d' k i :
  mk_env b S rand imm depth = Ok E → trackable S rank imm b →
  m ∈ s_models S → f ∈ m_fields m → f_kind f = KCallback fn ds sk →
  dp ∈ ds → find_model S (dep_other dp) = Some om → dep_rel dp = RelM2M t c rc →
  run_op E S o d = Ok d' → links_ok S d →
  is_Some (getrow d' (m_table m) k) →
  before_or_after t d d' i (λ r, col r c = VInt k) → link_touched t c rc d d' i →
  ∃ ms, d_dirty d' = d_dirty d ++ ms ∧ marker_of m k ∈ ms.
Proof. exact (λ HE Htk Hm Hf Hk Hdp Hfo Hr Ho HL '(ex_intro _ r' Hr') Hba Hto, mark_link b S rand imm depth E rank HE Htk m f fn ds sk Hm Hf Hk o d d' Ho HL k r' Hr' dp om Hdp Hfo t c rc i Hr Hba Hto). Qed.
Print Assumptions link_change_marks.
Theorem far_change_marks b S rand imm depth E rank m f fn ds sk dp om t c rc o d d' k i lr j :
  mk_env b S rand imm depth = Ok E → trackable S rank imm b →
  m ∈ s_models S → f ∈ m_fields m → f_kind f = KCallback fn ds sk →
  dp ∈ ds → find_model S (dep_other dp) = Some om → dep_rel dp = RelM2M t c rc →
  run_op E S o d = Ok d' → links_ok S d →
  is_Some (getrow d' (m_table m) k) →
  getrow d' t i = Some lr → col lr c = VInt k → col lr rc = VInt j → touched S om d d' j →
  ∃ ms, d_dirty d' = d_dirty d ++ ms ∧ marker_of m k ∈ ms.
Proof. exact (λ HE Htk Hm Hf Hk Hdp Hfo Hr Ho HL '(ex_intro _ r' Hr') Hl Hc Hrc Hto, mark_far b S rand imm depth E rank HE Htk m f fn ds sk Hm Hf Hk o d d' Ho HL k r' Hr' dp om Hdp Hfo t c rc i lr j Hr Hl Hc Hrc Hto). Qed.
Print Assumptions far_change_marks.
(** Removing a bookmark, and changing a bookmarked post. *)
Definition op_unlink : op := ODelete "member_bookmarks" [1].
Example link_change_ex b : d_dirty (rd2 b) = [] ∧ run_op (RE b) RS op_unlink (rd2 b) = Ok (after b op_unlink) ∧
  before_or_after "member_bookmarks" (rd2 b) (after b op_unlink) 1 (λ r, col r "member_id" = VInt 1) ∧
  link_touched "member_bookmarks" "member_id" "post_id" (rd2 b) (after b op_unlink) 1 ∧
  (12, Some "1") ∈ d_dirty (after b op_unlink) ∧ (12, Some "1") ∈ d_dirty (after b op_score).
Proof.
  assert (H1 : cellv (rd2 b) "member_bookmarks" 1 "member_id" = Some (VInt 1)) by comp.
  assert (H2 : getrow (after b op_unlink) "member_bookmarks" 1 = None) by comp.
  split; [comp|]. split; [apply after_ok; comp|]. split; [exact (ba_left _ _ _ _ _ _ H1)|].
  split; [exact (unlinked _ _ _ _ _ _ (cell_row _ _ _ _ _ H1) H2)|]. split; in_list.
Qed.

(** ** C08 *)
Theorem generic_change_marks b S rand imm depth E rank m f fn ds sk dp om ctc oidc o d d' k j :
  mk_env b S rand imm depth = Ok E → trackable S rank imm b →
  m ∈ s_models S → f ∈ m_fields m → f_kind f = KCallback fn ds sk →
  dp ∈ ds → find_model S (dep_other dp) = Some om → dep_rel dp = RelGenForward ctc oidc → tracked S om ctc → tracked S om oidc →
  run_op E S o d = Ok d' → links_ok S d →
  is_Some (getrow d' (m_table m) k) →
  before_or_after (m_table om) d d' j (λ r, col r ctc = VInt (m_ct m) ∧ to_text (col r oidc) = Some (pretty k)) →
  touched S om d d' j →
  ∃ ms, d_dirty d' = d_dirty d ++ ms ∧ marker_of m k ∈ ms.
Proof. exact (λ HE Htk Hm Hf Hk Hdp Hfo Hr Ht1 Ht2 Ho HL '(ex_intro _ r' Hr') Hba Hto, mark_generic b S rand imm depth E rank HE Htk m f fn ds sk Hm Hf Hk o d d' Ho HL k r' Hr' dp om Hdp Hfo ctc oidc j Hr Ht1 Ht2 Hba Hto). Qed.
Print Assumptions generic_change_marks.
(** Attaching the tag to another post marks both posts. *)
Definition op_retag : op := OUpdate "tag" [1] (λ r, <["object_id" := VText "8"]> r).
Example generic_change_ex b : d_dirty (rd2 b) = [] ∧ run_op (RE b) RS op_retag (rd2 b) = Ok (after b op_retag) ∧
  touched RS RTag (rd2 b) (after b op_retag) 1 ∧
  cellv (rd2 b) "tag" 1 "object_id" = Some (VText "7") ∧ cellv (after b op_retag) "tag" 1 "object_id" = Some (VText "8") ∧
  (11, Some "7") ∈ d_dirty (after b op_retag) ∧ (11, Some "8") ∈ d_dirty (after b op_retag).
Proof.
  assert (H1 : cellv (rd2 b) "tag" 1 "object_id" = Some (VText "7")) by comp.
  assert (H2 : cellv (after b op_retag) "tag" 1 "object_id" = Some (VText "8")) by comp.
  split; [comp|]. split; [apply after_ok; comp|].
  split; [|split; [done|split; [done|split; in_list]]].
  apply (touched_upd _ _ _ _ _ "object_id" (VText "7") (VText "8")); [apply trackedb_spec; by vm_compute|exact H1|exact H2|done].
Qed.
