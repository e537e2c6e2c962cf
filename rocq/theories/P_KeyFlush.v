(** * flush() and rebuildall() draw new cache keys for the rows they save (C147). *)
From Verif Require Import Base BaseLemmas Schema TrigSet Gen Exec Orm Flush Spec Sessions Hist Check ExForum ExRich KeyDraw KeyFlush P_Mark.

(** [redrawn]: KeyDraw.v.  [marker_of m k]: the marker of row [k].  [m_truthy]: the truth value
    of the instance, True unless the class says otherwise.  Any order of the queryset. *)
Theorem flush_draws_marked_keys b S rand imm depth E m f ds k ord n d d' :
  mk_env b S rand imm depth = Ok E → wf_schema S → names_apart S →
  m ∈ s_models S → f ∈ m_fields m → f_kind f = KCacheKey ds → (∀ r, m_truthy m r = true) →
  flush E S ord n d = (d', Done) → is_Some (getrow d (m_table m) k) → marker_of m k ∈ d_dirty d →
  redrawn rand (d_rnd d) (m_table m) (f_col f) k d'.
Proof. exact (flush_draws b S rand imm depth E m f ds k ord n d d'). Qed.
Print Assumptions flush_draws_marked_keys.
(** [names_model], [names_field] (Spec.v): the arguments of rebuildall select the model. *)
Theorem rebuild_draws_keys b S rand imm depth E m f ds k r ord n mn fn d d' :
  mk_env b S rand imm depth = Ok E → wf_schema S → names_apart S →
  m ∈ s_models S → f ∈ m_fields m → f_kind f = KCacheKey ds → (∀ r, m_truthy m r = true) →
  names_model m mn → (∃ g, declares S m g ∧ names_field g fn) →
  rebuildall E S ord n mn fn d = (d', Done) → getrow d (m_table m) k = Some r → m_visible m r = true →
  redrawn rand (d_rnd d) (m_table m) (f_col f) k d'.
Proof. exact (rebuild_draws b S rand imm depth E m f ds k r ord n mn fn d d'). Qed.
Print Assumptions rebuild_draws_keys.

(** An UPDATE of the title of forum 1 marks the forum and keeps its key; the flush draws a new
    one, and so does rebuildall for forum 2, which was not marked. *)
Definition kf_d (b : backend) : db := after b op_title.
Definition kf_flushed (b : backend) : db := (flush (RE b) RS id_ord 10 (kf_d b)).1.
Definition kf_rebuilt (b : backend) : db := (rebuildall (RE b) RS id_ord 10 (Some "Forum") (Some "ck") (rd2 b)).1.
Lemma pair_done (p : db * outcome) : bool_decide (p.2 = Done) = true → p = (p.1, Done).
Proof. destruct p as [x o]. simpl. intros H. apply bool_decide_eq_true in H. by rewrite H. Qed.
Example flush_draws_ex b : wf_schema RS ∧ names_apart RS ∧ RForum ∈ s_models RS ∧ f_ck ∈ m_fields RForum ∧ f_kind f_ck = KCacheKey [dep_posts] ∧
  (∀ r, m_truthy RForum r = true) ∧ flush (RE b) RS id_ord 10 (kf_d b) = (kf_flushed b, Done) ∧
  bool_decide (marker_of RForum 1 ∈ d_dirty (kf_d b)) = true ∧
  bool_decide (cellv (kf_d b) "forum" 1 "ck" = cellv (rd2 b) "forum" 1 "ck") = true ∧
  bool_decide (cellv (kf_flushed b) "forum" 1 "ck" = cellv (kf_d b) "forum" 1 "ck") = false ∧
  rebuildall (RE b) RS id_ord 10 (Some "Forum") (Some "ck") (rd2 b) = (kf_rebuilt b, Done) ∧
  names_model RForum (Some "Forum") ∧ declares RS RForum f_ck ∧
  bool_decide (cellv (kf_rebuilt b) "forum" 2 "ck" = cellv (rd2 b) "forum" 2 "ck") = false ∧
  bool_decide (marker_of RForum 2 ∈ d_dirty (rd2 b)) = false.
Proof.
  split; [exact RS_wf|]. split; [exact (tk_names _ _ _ _ (RS_trackable b))|]. split; [left|]. split; [do 4 right; left|]. split; [done|]. split; [done|].
  split; [apply pair_done; comp|]. split; [comp|]. split; [comp|]. split; [comp|]. split; [apply pair_done; comp|]. split; [by right; left|].
  split; [|split; comp]. split; [done|]. split; [done|]. split; [done|]. exists RForum. split; [left|]. split; [done|]. do 4 right. left.
Qed.
