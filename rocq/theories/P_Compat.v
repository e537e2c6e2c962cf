(** * Newer versions of Django and models without [objects] (C82, C85). *)
From Verif Require Import Base BaseLemmas Schema TrigSet Gen Exec Orm Flush Spec Check ExForum ExRich P_Flush P_Rebuild Select Compat.

(** ** C82 *)
(** Before Django 2.1, and with PostgreSQL, nothing changes. *)
Theorem flush_older_django new E S ord n d : new = false ∨ e_be E = Postgres → flush_dj new E S ord n d = flush E S ord n d.
Proof. exact (λ H, flush_dj_flush new E S ord n H d). Qed.
Print Assumptions flush_older_django.
(** With any other database flush() does nothing since Django 2.1 but raise, whether there is
    something to do or not. *)
Theorem flush_newer_django E S ord n d : e_be E ≠ Postgres → flush_dj true E S ord (Datatypes.S n) d = (d, Raised ENotSupported).
Proof. exact (flush_dj_raises E S ord n d). Qed.
Print Assumptions flush_newer_django.
(** The middleware takes it for one of the errors to be ignored: every request is answered and
    nothing is ever refreshed. *)
Theorem middleware_newer_django {R} E S ord n d (response : R) : e_be E ≠ Postgres →
  response_dj true E S ord (Datatypes.S n) d response = Some (d, inl response).
Proof. intros Hb. unfold response_dj. by rewrite flush_dj_raises. Qed.
Print Assumptions middleware_newer_django.
(** rebuildall() adds the markers of all rows again each time it is called and changes nothing else. *)
Theorem rebuilds_newer_django E S ord n mn fn j d : e_be E ≠ Postgres →
  let d' := rebuilds_dj true E S ord (Datatypes.S n) mn fn j d in
  d_tabs d' = d_tabs d ∧ length (d_dirty d') = (length (d_dirty d) + j * length (rebuild_marks S mn fn d))%nat.
Proof.
  intros Hb d'. subst d'. rewrite rebuilds_dj_raises by done. split; [done|]. unfold mark, set_dirty. simpl. rewrite app_length. f_equal.
  induction j as [|j IH]; simpl; [done|]. by rewrite app_length, IH.
Qed.
Print Assumptions rebuilds_newer_django.
Lemma mark_cellv d l t k c : cellv (mark d l) t k c = cellv d t k c.
Proof. reflexivity. Qed.
Lemma rebuild_dj_old E S ord n mn fn d : rebuild_dj false E S ord n mn fn d = rebuildall E S ord n mn fn d.
Proof. unfold rebuild_dj, rebuildall. apply flush_dj_flush. by left. Qed.
Lemma rebuild_dj_new E S ord n mn fn d : n ≠ 0%nat → e_be E ≠ Postgres →
  rebuild_dj true E S ord n mn fn d = (mark d (rebuild_marks S mn fn d), Raised ENotSupported).
Proof. intros Hn Hb. destruct n; [done|]. by apply flush_dj_raises. Qed.
Lemma response_dj_new {R} E S ord n d (response : R) : n ≠ 0%nat → e_be E ≠ Postgres →
  response_dj true E S ord n d response = Some (d, inl response).
Proof. intros Hn Hb. destruct n; [done|]. by apply middleware_newer_django. Qed.
(** So that flush() and rebuildall() make everything right, as they do with an older version, is
    false; denorm's tests are also run with the newest Django (tox.ini, djangomaster). *)
Theorem rebuild_newer_django_refuted (b : backend) : b ≠ Postgres → ∃ E S d, e_be E = b ∧
  mk_env b S rand0 true 10 = Ok E ∧ cellv d "post" 7 "rating" = Some (VInt 999) ∧
  (∃ d', rebuild_dj false E S id_ord 10 None None d = (d', Done) ∧ cellv d' "post" 7 "rating" = Some (VInt 107)) ∧
  (∃ d', rebuild_dj true E S id_ord 10 None None d = (d', Raised ENotSupported) ∧ cellv d' "post" 7 "rating" = Some (VInt 999) ∧
     length (d_dirty d') = 5%nat ∧ response_dj true E S id_ord 10 d' "page" = Some (d', inl "page")).
Proof.
  intros Hb. destruct (rebuild_repairs_ex b) as (H1 & d' & H2 & H3). exists (RE b), RS, (c17_db b).
  assert (e_be (RE b) = b) as Hbe by (destruct b; vm_compute; reflexivity).
  split; [done|]. split; [apply RE_ok|]. split; [done|]. split.
  - exists d'. split; [|done]. rewrite rebuild_dj_old. exact H2.
  - exists (mark (c17_db b) (rebuild_marks RS None None (c17_db b))). split; [|split; [|split]].
    + apply rebuild_dj_new; [done|]. by rewrite Hbe.
    + rewrite mark_cellv. exact H1.
    + destruct b; vm_compute; reflexivity.
    + apply response_dj_new; [done|]. by rewrite Hbe.
Qed.
Print Assumptions rebuild_newer_django_refuted.

(** ** C85 *)
(** Models that all have [objects] are not concerned. *)
Theorem objects_everywhere no E S ord n mn fn d : wf_schema S → (∀ m, m ∈ s_models S → has_objects no m = true) →
  rebuild_no no E S ord n mn fn d = rebuildall E S ord n mn fn d ∧ flush_no no E S ord n d = flush E S ord n d.
Proof. intros Hwf H. split; [by apply rebuild_no_all|]. apply flush_no_all; [|done]. intros m Hm. left. by apply H. Qed.
Print Assumptions objects_everywhere.
Example objects_everywhere_ex : Forall (λ m, has_objects ["Group"] m = true) (s_models RS) ∧ wf_schema RS.
Proof. split; [|apply RS_wf]. repeat constructor. Qed.
(** rebuildall() stops at the first model without: the rows of the models before it are marked, and
    nothing is refreshed. *)
Theorem rebuild_without_objects no E S ord n mn fn l1 m l2 d : rebuild_models S mn fn = l1 ++ m :: l2 →
  Forall (λ m', has_objects no m' = true) l1 → has_objects no m = false →
  rebuild_no no E S ord n mn fn d = (mark d (l1 ≫= λ m', marks_of m' d), Raised EAttribute).
Proof. exact (rebuild_no_stops no E S ord n mn fn l1 m l2 d). Qed.
Print Assumptions rebuild_without_objects.
(** A row of such a model that has an aggregate can be created but not saved again. *)
Theorem save_without_objects no E m k r d :
  (∀ pk, presave_all_no no E m true pk d r = presave_all E m true pk d r) ∧
  (has_objects no m = false → has_aggregate m = true → ∃ e, save_existing_no no E m k r d = Err e) ∧
  (has_objects no m = true ∨ has_aggregate m = false → save_existing_no no E m k r d = save_existing E m k r d).
Proof. split; [|split; [exact (save_no_raises no E m k r d)|exact (save_no_same no E m k r d)]]. exact (λ pk, presave_no_add no E m pk d r). Qed.
Print Assumptions save_without_objects.
(** Once it is marked, no flush() comes to an end: each one raises and leaves the marker. *)
Theorem flush_without_objects b S rand imm depth E no m k ord n d : wf_schema S → mk_env b S rand imm depth = Ok E →
  m ∈ s_models S → has_objects no m = false → has_aggregate m = true → (∀ r, m_truthy m r = true) →
  (∀ d l, marker_of m k ∈ l → marker_of m k ∈ ord d l) → getrow d (m_table m) k ≠ None → marker_of m k ∈ d_dirty d →
  ∃ d' e, flush_no no E S ord (Datatypes.S n) d = (d', Raised e) ∧ marker_of m k ∈ d_dirty d'.
Proof. exact (λ Hwf HE Hm Hno Ha Ht, flush_stuck b S rand imm depth E no Hwf HE m k Hm Hno Ha Ht ord n d). Qed.
Print Assumptions flush_without_objects.
(** The rich schema with a Post that calls its manager differently: rebuildall() marks the forums
    only; and with such a Forum the flush after a changed post never ends, although it does
    with [objects]. *)
Example rebuild_without_objects_ex (b : backend) :
  m_name <$> rebuild_models RS None None = ["Forum"; "Post"; "Member"] ∧
  (rebuild_no ["Post"] (RE b) RS id_ord 10 None None (c17_db b)).2 = Raised EAttribute ∧
  d_dirty (rebuild_no ["Post"] (RE b) RS id_ord 10 None None (c17_db b)).1 = [(10, Some "1"); (10, Some "2")] ∧
  cellv (rebuild_no ["Post"] (RE b) RS id_ord 10 None None (c17_db b)).1 "post" 7 "rating" = Some (VInt 999).
Proof. split; [vm_compute; reflexivity|]. destruct b; vm_compute; repeat split. Qed.
Example flush_without_objects_ex (b : backend) : marker_of RForum 1 ∈ d_dirty (rd1 b) ∧ has_aggregate RForum = true ∧
  (flush (RE b) RS id_ord 10 (rd1 b)).2 = Done ∧ (flush_no ["Forum"] (RE b) RS id_ord 10 (rd1 b)).2 = Raised EAttribute.
Proof.
  split; [apply (bool_decide_unpack _); destruct b; vm_compute; exact I|]. destruct b; vm_compute; repeat split.
Qed.
