(** * @cached attributes are current after a save, a flush and a rebuild of the row (C151). *)
From Verif Require Import Base BaseLemmas Schema TrigSet Gen Exec Orm Flush Spec Engine GenLemmas Sessions Hist Check ExForum ExRich KeyDraw SaveKey KeysApart KeyFlush CachedDb CachedFlush P_Mark P_KeyFlush P_Key P_KeysApart P_CachedDb.

(** [xrun]: CachedDb.v; before, anything may have happened, and the cache may hold outdated values.
    The function is arbitrary.  [ca]: the cache after the step and any reads and evictions since. *)
Theorem cached_current_after_save b S rand imm depth E fn m f ds mn r k x d vs ca w :
  mk_env b S rand imm depth = Ok E → wf_schema S → names_apart S → (∀ i j, rand i = rand j → i = j) →
  find_model S mn = Some m → f ∈ m_fields m → f_kind f = KCacheKey ds →
  save E m k r d = Ok x → let d' := hstep E S d (HOp (OSave mn k r)) in
  xrun S rand E fn (d' :: d :: vs) ca →
  (cached_read fn ca d' (m_table m) (f_col f) x.1.2).1 = Some w → w = fn (m_table m) (f_col f) d' x.1.2.
Proof.
  intros HE Hwf Hna Hinj Hfm Hf Hk Hs d' H1. pose proof Hfm as [Hm _]%find_model_in. eapply (redrawn_current b S rand imm depth E fn d vs); try done.
  - by exists m, f, ds.
  - simpl. unfold step, run_op. rewrite Hfm, Hs. simpl. by eapply (save_draws b S rand imm depth E Hwf Hna HE m f ds).
Qed.
Print Assumptions cached_current_after_save.
Theorem cached_current_after_flush b S rand imm depth E fn m f ds k ord n d vs ca w :
  mk_env b S rand imm depth = Ok E → wf_schema S → names_apart S → (∀ i j, rand i = rand j → i = j) →
  m ∈ s_models S → f ∈ m_fields m → f_kind f = KCacheKey ds → (∀ r, m_truthy m r = true) →
  (flush E S ord n d).2 = Done → is_Some (getrow d (m_table m) k) → marker_of m k ∈ d_dirty d → let d' := hstep E S d (HFlush ord n) in
  xrun S rand E fn (d' :: d :: vs) ca →
  (cached_read fn ca d' (m_table m) (f_col f) k).1 = Some w → w = fn (m_table m) (f_col f) d' k.
Proof.
  intros HE Hwf Hna Hinj Hm Hf Hk Htr Hd Hg Hmk d' H1. eapply (redrawn_current b S rand imm depth E fn d vs); try done.
  - by exists m, f, ds.
  - apply (flush_draws b S rand imm depth E m f ds k ord n d); try done. simpl. rewrite <- Hd. by destruct (flush E S ord n d).
Qed.
Print Assumptions cached_current_after_flush.
Theorem cached_current_after_rebuild b S rand imm depth E fn m f ds k r ord n mn fl d vs ca w :
  mk_env b S rand imm depth = Ok E → wf_schema S → names_apart S → (∀ i j, rand i = rand j → i = j) →
  m ∈ s_models S → f ∈ m_fields m → f_kind f = KCacheKey ds → (∀ r, m_truthy m r = true) →
  names_model m mn → (∃ g, declares S m g ∧ names_field g fl) →
  (rebuildall E S ord n mn fl d).2 = Done → getrow d (m_table m) k = Some r → m_visible m r = true → let d' := hstep E S d (HRebuild ord n mn fl) in
  xrun S rand E fn (d' :: d :: vs) ca →
  (cached_read fn ca d' (m_table m) (f_col f) k).1 = Some w → w = fn (m_table m) (f_col f) d' k.
Proof.
  intros HE Hwf Hna Hinj Hm Hf Hk Htr Hmn Hfl Hd Hg Hv d' H1. eapply (redrawn_current b S rand imm depth E fn d vs); try done.
  - by exists m, f, ds.
  - apply (rebuild_draws b S rand imm depth E m f ds k r ord n mn fl d); try done. simpl. rewrite <- Hd. by destruct (rebuildall E S ord n mn fl d).
Qed.
Print Assumptions cached_current_after_rebuild.

(** A document is read, its title is updated (the attribute is outdated: cached_current_refuted),
    it is marked, and flushed. *)
Definition cf_1 (b : backend) : db := hstep (KE b) KS (kd b) ct_op.
Definition cf_2 (b : backend) : db := hstep (KE b) KS (cf_1 b) (HRebuild id_ord 0 (Some "Doc") (Some "ck")).
Definition cf_3 (b : backend) : db := hstep (KE b) KS (cf_2 b) (HFlush id_ord 3).
Definition cf_ca (b : backend) : gmap Z Z := (cached_read ct_fn ∅ (kd b) "doc" "ck" 1).2.
Example cached_flush_ex b : wf_schema KS ∧ names_apart KS ∧ (∀ i j, rand0 i = rand0 j → i = j) ∧ find_model KS "Doc" = Some KDoc ∧ f_key ∈ m_fields KDoc ∧ f_kind f_key = KCacheKey kdeps ∧
  (∀ r, m_truthy KDoc r = true) ∧ (flush (KE b) KS id_ord 3 (cf_2 b)).2 = Done ∧ bool_decide (is_Some (getrow (cf_2 b) "doc" 1)) = true ∧
  bool_decide (marker_of KDoc 1 ∈ d_dirty (cf_2 b)) = true ∧ xrun KS rand0 (KE b) ct_fn (cf_3 b :: cf_2 b :: cf_1 b :: kd b :: cd_vs b) (cf_ca b) ∧
  (cached_read ct_fn (cf_ca b) (cf_2 b) "doc" "ck" 1).1 = Some 1 ∧ (cached_read ct_fn (cf_ca b) (cf_3 b) "doc" "ck" 1).1 = Some 2 ∧
  (rebuildall (KE b) KS id_ord 3 (Some "Doc") (Some "ck") (cf_1 b)).2 = Done ∧ names_model KDoc (Some "Doc") ∧ declares KS KDoc f_key ∧
  bool_decide (is_Some (match save (KE b) KDoc (Some 1) (default ∅ (getrow (cf_1 b) "doc" 1)) (cf_1 b) with Ok x => Some x.1.2 | Err _ => None end)) = true.
Proof.
  split; [exact (tk_wf _ _ _ _ (KS_trackable b))|]. split; [exact (tk_names _ _ _ _ (KS_trackable b))|]. split; [unfold rand0; intros; lia|]. split; [done|].
  split; [do 2 right; left|]. split; [done|]. split; [done|]. split; [comp|]. split; [comp|]. split; [comp|]. split.
  - assert (Hck : key_cell KS "doc" "ck") by (exists KDoc, f_key, kdeps; split; [by left|]; split; [do 2 right; left|done]).
    apply (x_step KS rand0 (KE b) ct_fn (cf_2 b) _ _ (HFlush id_ord 3) []); [|done|by apply Forall_nil].
    apply (x_step KS rand0 (KE b) ct_fn (cf_1 b) _ _ (HRebuild id_ord 0 (Some "Doc") (Some "ck")) []); [|done|by apply Forall_nil].
    apply (x_step KS rand0 (KE b) ct_fn (kd b) _ _ ct_op []); [| |by apply Forall_nil].
    + apply (x_read KS rand0 (KE b) ct_fn (kd b) (cd_vs b) ∅ "doc" "ck" 1); [|done]. apply kd_run.
    + simpl. intros r c Hc. apply KS_cells in Hc as [_ ->]. by rewrite col_insert_ne.
  - split; [comp|]. split; [comp|]. split; [comp|]. split; [by right; left|]. split; [|comp].
    split; [done|]. split; [done|]. split; [done|]. exists KDoc. split; [left|]. split; [done|]. do 2 right. left.
Qed.
