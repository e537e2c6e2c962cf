(** * Claims on save(update_fields=…) (C83) and loaddata (C84). *)
From stdpp Require Import relations.
From Verif Require Import Base BaseLemmas Schema TrigSet Gen Exec Orm Flush Spec SpecAgg SpecOrder SpecSave GenLemmas Conditions Sessions Hist AggOps Check ExForum ExBad ExAgg CheckOrder ExTree CheckSave ExSave SaveModes SaveModesAgg ExModes.

(** ** C83 *)
(** save(update_fields=names) without denormalized m2m fields is one UPDATE of the named
    columns of one row, from a database with the same rows and markers.  The named columns
    get the values of the saved instance. *)
Theorem update_fields_is_update E S m k names r d p :
  has_m2m_denorm m = false → names ≠ [] → save_fields E m k names r d = Ok p →
  ∃ d1 g, d_tabs d1 = d_tabs d ∧ d_dirty d1 = d_dirty d ∧ run_op E S (OUpdate (m_table m) [k] g) d1 = Ok p.1 ∧
    (∀ o c, (∀ f, f ∈ m_fields m → f_col f = c → f_name f ∉ names ∧ f_att f ∉ names) → col (g o) c = col o c) ∧
    (∀ o f, f ∈ m_fields m → f_name f ∈ names ∨ f_att f ∈ names → col (g o) (f_col f) = col p.2 (f_col f)).
Proof. exact (save_fields_update E S m k names r d p). Qed.
Print Assumptions update_fields_is_update.
(** The other columns keep their value in the instance as well, and what the other fields are,
    say that their functions would raise, does not matter. *)
Theorem update_fields_ignores_others E m k names r d :
  (∀ p, save_fields E m k names r d = Ok p →
     ∀ c, (∀ f, f ∈ m_fields m → f_col f = c → f_name f ∉ names ∧ f_att f ∉ names) → p.2 !! c = r !! c) ∧
  (∀ fs, filter (λ f, named names f = true) fs = filter (λ f, named names f = true) (m_fields m) →
     save_fields E (with_fields m fs) k names r d = save_fields E m k names r d) ∧
  save_fields E m k [] r d = Ok (d, r).
Proof. split; [exact (save_fields_instance E m k names r d)|]. split; [exact (save_fields_others E m k names r d)|reflexivity]. Qed.
Print Assumptions update_fields_ignores_others.
(** Unknown names and missing rows raise. *)
Theorem update_fields_needs_names_and_row E m k names r d p :
  names ≠ [] → save_fields E m k names r d = Ok p →
  (∀ n, n ∈ names → ∃ f, f ∈ m_fields m ∧ (f_name f = n ∨ f_att f = n)) ∧
  (has_m2m_denorm m = false → is_Some (getrow d (m_table m) k)).
Proof. exact (save_fields_no_row E m k names r d p). Qed.
Print Assumptions update_fields_needs_names_and_row.
(** Any mix of ordinary operations, save(update_fields=…) and loaddata: a flush puts
    everything right. *)
Theorem any_save_then_flush b S rand imm depth E rank d d1 ord n d' :
  mk_env b S rand imm depth = Ok E → flushable S rank imm →
  links_ok S d → consistent_or_marked S d → rtc (mixed_step E S) d d1 → no_self_relation S d1 →
  flush E S ord n d1 = (d', Done) → consistent S d' ∧ d_dirty d' = [].
Proof. exact (λ HE Hfl L C Hs N, mixed_flush b S rand imm depth E rank HE Hfl d d1 ord n d' Hs L C N). Qed.
Print Assumptions any_save_then_flush.
(** A count or sum moves with its true value, whether or not it is named. *)
Theorem update_fields_moves_aggregate b S rand imm depth E m f a rel k m' k' names r d p r0 v :
  wf_schema S → names_apart S → mk_env b S rand imm depth = Ok E → agg_field S m f a rel → m' ∈ s_models S →
  getrow d (m_table m) k = Some r0 → col r0 (f_col f) = VInt v → save_fields E m' k' names r d = Ok p →
  ∃ r1, getrow p.1 (m_table m) k = Some r1 ∧ col r1 (f_col f) = VInt (v + (agg_value p.1 rel a k - agg_value d rel a k)).
Proof. exact (λ Hwf Hna HE Haf, fields_error b S rand imm depth E Hwf Hna HE m f a rel Haf k m' k' names r d p r0 v). Qed.
Print Assumptions update_fields_moves_aggregate.
(** Naming every field that is computed and every field in which the instance differs from
    the row is as good as save(). *)
Theorem update_fields_as_save E m k names r d r0 :
  names ≠ [] → (∀ n, n ∈ names → ∃ f, f ∈ m_fields m ∧ (f_name f = n ∨ f_att f = n)) →
  has_m2m_denorm m = false → getrow d (m_table m) k = Some r0 →
  (∀ f, f ∈ m_fields m → named names f = false → f_kind f = KPlain) →
  (∀ f, f ∈ m_fields m → named names f = true → is_Some (r !! f_col f)) →
  (∀ c, (∀ f, f ∈ m_fields m → named names f = true → f_col f ≠ c) → r !! c = r0 !! c) →
  save_fields E m k names r d = save_existing E m k r d.
Proof. exact (save_fields_whole E m k names r d r0). Qed.
Print Assumptions update_fields_as_save.
(** The title of forum 2 changes: its path and the path of the posts and of the forum below
    are right after the flush only. *)
Example update_fields_ex b : mk_env b (QS false) rand0 true 10 = Ok (env_of b (QS false) true) ∧ flushable (QS false) q_rank true ∧
  mixed_step (env_of b (QS false) true) (QS false) (qd b false) (q_fields b false ["title"]).1 ∧
  no_self_relation (QS false) (q_fields b false ["title"]).1 ∧
  (flush (env_of b (QS false) true) (QS false) id_ord 10 (q_fields b false ["title"]).1).2 = Done ∧
  cellv (q_fields b false ["title"]).1 "forum" 2 "title" = Some (VText "w") ∧
  cellv (q_fields b false ["title"]).1 "forum" 2 "path" = Some (VText "/a/b/") ∧
  cellv (q_fields b false ["title"]).1 "forum" 2 "post_count" = Some (VInt 2) ∧
  cellv (flush (env_of b (QS false) true) (QS false) id_ord 10 (q_fields b false ["title"]).1).1 "post" 1 "forum_path" = Some (VText "/a/w/c/").
Proof.
  split; [apply QE_ok|]. split; [apply QS_flushable|]. split; [eapply ms_fields; [by left|apply q_fields_ok]|].
  split; [apply no_self_relationb_spec; destruct b; vm_compute; reflexivity|]. destruct b; vm_compute; split_and!; reflexivity.
Qed.
(** The names cover the computed fields and the change: the same as save(). *)
Example update_fields_as_save_ex b u :
  save_fields (env_of b (QS u) true) QForum 2 ["title"; "post_count"; "path"] (<["title" := VText "w"]> (q_row b u)) (qd b u) =
  save_existing (env_of b (QS u) true) QForum 2 (<["title" := VText "w"]> (q_row b u)) (qd b u) ∧
  cellv (q_fields b u ["title"; "post_count"; "path"]).1 "forum" 2 "path" = Some (VText "/a/w/").
Proof.
  split; [|destruct b, u; vm_compute; reflexivity]. apply (update_fields_as_save _ _ _ _ _ _ (q_row b u)).
  - done.
  - intros n Hn. repeat (apply elem_of_cons in Hn as [->|Hn]); [..|by apply elem_of_nil in Hn].
    + eexists. split; [simpl; left|by left].
    + exists q_cf. split; [simpl; right; right; left|by left].
    + eexists. split; [simpl; right; right; right; left|by left].
  - done.
  - apply q_row_ok.
  - intros f Hf Hn. simpl in Hf. repeat (apply elem_of_cons in Hf as [->|Hf]); [..|by apply elem_of_nil in Hf]; done.
  - intros f Hf Hn. simpl in Hf. repeat (apply elem_of_cons in Hf as [->|Hf]); [..|by apply elem_of_nil in Hf]; try done;
      (refine (bool_decide_eq_true_1 (is_Some _) _); destruct b, u; vm_compute; reflexivity).
  - intros c Hc. apply lookup_insert_ne. intros <-. eapply Hc; [simpl; left| |]; reflexivity.
Qed.

(** "The callable will be used to compute the value of the field every time the model gets
    saved" (fields.py:11-12): not with update_fields. *)
Theorem value_computed_by_every_save_refuted : ∀ b, ∃ S rank m k names r d p,
  mk_env b S rand0 true 10 = Ok (env_of b S true) ∧ flushable S rank true ∧ m ∈ s_models S ∧ consistent S d ∧
  save_fields (env_of b S true) m k names r d = Ok p ∧ ¬ consistent S p.1 ∧
  ∃ f r1, f ∈ m_fields m ∧ getrow p.1 (m_table m) k = Some r1 ∧ ¬ row_consistent m p.1 k r1 f.
Proof.
  intros b. exists (QS false), q_rank, QForum, 2, ["title"]. eexists. exists (qd b false), (q_fields b false ["title"]).
  split; [apply QE_ok|]. split; [apply QS_flushable|]. split; [by left|]. split; [apply qd_consistent|]. split; [apply q_fields_ok|].
  split; [apply (staleb_spec _ _ QForum 3 2); [by left|destruct b; vm_compute; reflexivity]|].
  assert (Hs : staleb (q_fields b false ["title"]).1 QForum 3 2 = true) by (destruct b; vm_compute; reflexivity).
  unfold staleb in Hs. destruct (m_fields QForum !! 3%nat) as [f|] eqn:Hf; [|done]. destruct (getrow _ (m_table QForum) 2) as [r1|] eqn:Hr; [|done].
  exists f, r1. split; [by eapply elem_of_list_lookup_2|]. split; [done|]. unfold row_consistent. destruct (f_kind f); try done.
  intros (pv & Hpv & Hst). rewrite Hpv in Hs. by apply negb_true_iff, bool_decide_eq_false in Hs.
Qed.
Print Assumptions value_computed_by_every_save_refuted.
(** With DENORM_BULK_UNSAFE_TRIGGERS not even a flush puts it right, although saving the
    whole instance is safe (bulk_unsafe_saves_are_safe). *)
Theorem bulk_unsafe_update_fields_refuted : ∀ b, ∃ S rank m k names r d p d',
  mk_env b S rand0 true 10 = Ok (env_of b S true) ∧ savable S rank true ∧ own_stored S rank ∧ s_bulk_unsafe S = true ∧
  m ∈ s_models S ∧ links_ok S d ∧ consistent S d ∧ no_self_relation S d ∧
  save_fields (env_of b S true) m k names r d = Ok p ∧ flush (env_of b S true) S id_ord 5 p.1 = (d', Done) ∧ ¬ consistent S d'.
Proof.
  intros b. exists (QS true), q_rank, QForum, 2, ["title"]. eexists. exists (qd b true), (q_fields b true ["title"]). eexists.
  split; [apply QE_ok|]. split; [apply QS_savable|]. split; [apply QS_own|]. split; [done|]. split; [by left|]. split; [apply QS_nolinks|].
  split; [apply qd_consistent|]. split; [apply qd_noself|]. split; [apply q_fields_ok|]. split; [apply flush_pair; destruct b; vm_compute; reflexivity|].
  apply (staleb_spec _ _ QForum 3 2); [by left|]. destruct b; vm_compute; reflexivity.
Qed.
Print Assumptions bulk_unsafe_update_fields_refuted.
(** "gets set to a random value anytime the model is saved" (fields.py:246-247): not with
    update_fields.  The title of forum 1 changes, its cache key does not. *)
Definition ck_forum (b : backend) : db := foldl (step (FE b) FS) d0 ops2.
Definition ck_saved (b : backend) : db * row := ok_pair (save_fields (FE b) Forum 1 ["title"] (<["title" := VText "w"]> (default ∅ (getrow (ck_forum b) "forum" 1))) (ck_forum b)).
Theorem cache_key_set_by_every_save_refuted : ∀ b, ∃ S m f ds k names r d p v,
  mk_env b S rand0 true 10 = Ok (env_of b S true) ∧ m ∈ s_models S ∧ f ∈ m_fields m ∧ f_kind f = KCacheKey ds ∧
  save_fields (env_of b S true) m k names r d = Ok p ∧ cellv p.1 (m_table m) k "title" ≠ cellv d (m_table m) k "title" ∧
  cellv d (m_table m) k (f_col f) = Some v ∧ cellv p.1 (m_table m) k (f_col f) = Some v.
Proof.
  intros b. eexists FS, Forum, _, _, 1, ["title"], _, (ck_forum b), (ck_saved b), _.
  split; [destruct b; vm_compute; reflexivity|]. split; [by left|]. split; [simpl; do 4 right; left|]. split; [done|].
  split; [apply ok_pair_ok; destruct b; vm_compute; reflexivity|]. split; [destruct b; by vm_compute|].
  split; [|destruct b; vm_compute; reflexivity]. destruct b; vm_compute; reflexivity.
Qed.
Print Assumptions cache_key_set_by_every_save_refuted.

(** ** C84 *)
(** The count or sum of a loaded row, whatever else is loaded before and after it: the
    value in the fixture plus what the true value has grown by since the row was loaded.
    [d1] is the database before, [d'] at the end. *)
Theorem loaded_aggregate b S rand imm depth E m f a rel k pre x post d d1 d' v :
  wf_schema S → names_apart S → mk_env b S rand imm depth = Ok E → agg_field S m f a rel →
  loaddata E S pre d = Ok d1 → loaddata E S (pre ++ x :: post) d = Ok d' →
  o_model x = m_name m → o_key x = k → (∀ y, y ∈ post → o_model y = m_name m → o_key y ≠ k) → col (o_row x) (f_col f) = VInt v →
  ∃ r', getrow d' (m_table m) k = Some r' ∧ col r' (f_col f) = VInt (v + (agg_value d' rel a k - agg_value d1 rel a k)).
Proof. exact (λ Hwf Hna HE Haf, load_error b S rand imm depth E Hwf Hna HE m f a rel Haf k pre x post d d1 d' v). Qed.
Print Assumptions loaded_aggregate.
(** Loading a dump before the triggers are installed restores every row and marks nothing... *)
Theorem load_without_triggers E S d e :
  wf_schema S → e_trigs E = [] → e_fkimm E = false → e_depth E ≠ O → (∀ m, m ∈ s_models S → m_m2m m = []) →
  (∀ m k, m ∈ s_models S → getrow e (m_table m) k = None) →
  ∃ d', loaddata E S (dump S d) e = Ok d' ∧ d_dirty d' = d_dirty e ∧ ∀ m k, m ∈ s_models S → getrow d' (m_table m) k = getrow d (m_table m) k.
Proof. exact (load_dump E S d e). Qed.
Print Assumptions load_without_triggers.
(** ... so right aggregates are right again. *)
Theorem load_without_triggers_exact E S d e d' m f a rel :
  wf_schema S → e_trigs E = [] → e_fkimm E = false → e_depth E ≠ O → (∀ m, m ∈ s_models S → m_m2m m = []) →
  (∀ m k, m ∈ s_models S → getrow e (m_table m) k = None) → agg_field S m f a rel → agg_exact m f a rel d →
  loaddata E S (dump S d) e = Ok d' → agg_exact m f a rel d'.
Proof. exact (load_dump_exact E S d e d' m f a rel). Qed.
Print Assumptions load_without_triggers_exact.
(** Forum 2 has two posts.  With the triggers installed and the forums first, it ends with
    four; with the posts first, or without triggers, with two. *)
Example loaded_aggregate_ex b : mk_env b (QS false) rand0 false 10 = Ok (QL b) ∧ agg_field (QS false) QForum q_cf q_count QPost ∧
  loaddata (QL b) (QS false) (dump (QS false) (qd b false)) d0 = Ok (q_loaded b false) ∧
  loaddata (QL b) (QS false) (reverse (dump (QS false) (qd b false))) d0 = Ok (q_loaded b true) ∧
  cellv (qd b false) "forum" 2 "post_count" = Some (VInt 2) ∧
  cellv (q_loaded b false) "forum" 2 "post_count" = Some (VInt 4) ∧ agg_value (q_loaded b false) QPost q_count 2 = 2 ∧
  cellv (q_loaded b true) "forum" 2 "post_count" = Some (VInt 2) ∧ agg_value (q_loaded b true) QPost q_count 2 = 2 ∧
  okb (loaddata (QN b) (QS false) (dump (QS false) (qd b false)) d0) = true ∧
  cellv (ok_db (loaddata (QN b) (QS false) (dump (QS false) (qd b false)) d0)) "forum" 2 "post_count" = Some (VInt 2).
Proof.
  split; [apply QL_ok|]. split; [apply QS_count|]. split; [apply (q_loaded_ok b false)|]. split; [apply (q_loaded_ok b true)|].
  destruct b; vm_compute; split_and!; reflexivity.
Qed.
(** Loading the dump of a right database into an empty one gives wrong aggregates, and no
    rebuild repairs them. *)
Theorem loaddata_keeps_aggregates_refuted : ∀ b, ∃ S m f a rel d d',
  mk_env b S rand0 false 10 = Ok (env_of b S false) ∧ wf_schema S ∧ names_apart S ∧ agg_field S m f a rel ∧
  consistent S d ∧ agg_exact m f a rel d ∧ loaddata (env_of b S false) S (dump S d) d0 = Ok d' ∧ ¬ agg_exact m f a rel d' ∧
  (rebuildall (env_of b S false) S id_ord 10 None None d').2 = Done ∧
  ¬ agg_exact m f a rel (rebuildall (env_of b S false) S id_ord 10 None None d').1.
Proof.
  intros b. exists (QS false), QForum, q_cf, q_count, QPost, (qd b false), (q_loaded b false). destruct (QS_savable false).
  split; [apply QL_ok|]. split; [done|]. split; [done|]. split; [apply QS_count|]. split; [apply qd_consistent|].
  split; [apply agg_exactb_spec; destruct b; vm_compute; reflexivity|]. split; [apply (q_loaded_ok b false)|].
  split; [rewrite <- agg_exactb_spec; destruct b; by vm_compute|]. split; [destruct b; vm_compute; reflexivity|].
  rewrite <- agg_exactb_spec. destruct b; by vm_compute.
Qed.
Print Assumptions loaddata_keeps_aggregates_refuted.
