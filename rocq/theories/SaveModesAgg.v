(** * Aggregates under save(update_fields=…) and loaddata. *)
From Verif Require Import Base BaseLemmas Schema TrigSet Gen Exec Orm Flush Machine Spec SpecAgg Engine GenLemmas Marking Conditions Invariant Settle Sessions Frame Hist Agg AggEngine AggOps AggDefer AggDrift SaveModes.

Section modes.
Context (b : backend) (S : schema) (rand : nat → Z) (imm : bool) (depth : nat) (E : env) (l : list trigger).
Context (Hwf : wf_schema S) (HE : mk_env b S rand imm depth = Ok E) (Hl : gen_all S = Ok l) (Hnames : names_ok b l).
Context (m : model) (f : field) (a : agg) (rel : model) (Haf : agg_field S m f a rel) (k : Z).
Notation T := (m_table m).
Notation R := (m_table rel).
Notation c := (f_col f).
Notation evsum := (evsum a rel).
Notation drift := (drift m f a rel k).

Lemma presave_agg_list fs d r q : f ∈ fs → NoDup (f_col <$> fs) → foldM (presave_field E m false (Some k)) (d, r) fs = Ok q →
  ∃ r0, getrow d T k = Some r0 ∧ col q.2 c = col r0 c.
Proof.
  intros Hf Hnd. apply elem_of_list_split in Hf as (l1 & l2 & ->). rewrite foldM_app.
  rewrite fmap_app, fmap_cons in Hnd. apply NoDup_app in Hnd as (_ & Hd & Hnd). apply NoDup_cons in Hnd as [Hn2 _].
  intros H. inv_bind H. rewrite foldM_cons in H. inv_bind H.
  apply presave_list_db in H0 as [T0 _]. simpl in T0.
  apply (presave_other E m f) in H as [_ C2]. 2: { intros g Hg Hc. apply Hn2. apply elem_of_list_fmap. by exists g. }
  unfold presave_field in H1. rewrite (al_kind _ _ _ _ _ Haf) in H1. simpl in H1.
  destruct (getrow a0.1 T k) as [r0|] eqn:Hr0; [|done]. case_match; [|done]. injection H1 as <-. exists r0. split.
  - unfold getrow, tab in *. by rewrite T0 in Hr0.
  - rewrite C2. simpl. apply col_insert_eq.
Qed.
Lemma save_fields_drift m' k' names r d p : m' ∈ s_models S → save_fields E m' k' names r d = Ok p → drift d p.1.
Proof.
  intros Hm'. unfold save_fields. case_decide; [intros [= <-]; apply drift_refl|]. case_match; [done|]. intros H1. inv_bind H1. inv_bind H1.
  destruct (getrow a1.1 (m_table m') k') eqn:Hg; [|done]. inv_bind H1. injection H1 as <-. simpl.
  pose proof H3 as Hps. apply presave_list_db in H3 as [Ht _]. simpl in Ht.
  eapply drift_trans; [by eapply m2m_pre_save_drift|]. eapply drift_trans; [by apply (drift_tabs m f a rel k a0 a1.1)|].
  eapply exec1_drift; [done..| |intros HT|exact H4].
  - simpl. by intros ??? [= <-].
  - apply (model_T S Hwf m f a rel Haf) in HT as ->; [|done]. intros -> o p Ho [= <-]. simpl.
    pose proof (wf_cols _ _ (wf_models _ Hwf _ (al_model _ _ _ _ _ Haf))) as Hnd. pose proof (al_field _ _ _ _ _ Haf) as Hf.
    destruct (named names f) eqn:Hn.
    + unfold col at 1. rewrite write_cols_at by (by apply elem_of_list_filter). simpl.
      apply presave_agg_list in Hps as (r0 & Hr0 & ->); [|by apply elem_of_list_filter|].
      * unfold getrow, tab in *. rewrite Ht in Ho. congruence.
      * apply (NoDup_fmap_2_strong _ _); [|apply NoDup_filter; by eapply NoDup_fmap_1].
        intros x y [_ Hx]%elem_of_list_filter [_ Hy]%elem_of_list_filter Hxy. by eapply NoDup_fmap_eq.
    + unfold col. rewrite write_cols_other; [done|]. intros h [Hg1 Hg2]%elem_of_list_filter Hc.
      assert (h = f) as -> by (eapply NoDup_fmap_eq; [exact Hnd|done|done|done]). congruence.
Qed.

(** ** Raw saves *)
Lemma m2m_set_drift m' mm k' vals d d' : m' ∈ s_models S → mm ∈ m_m2m m' → m2m_set E mm k' vals d = Ok d' → drift d d'.
Proof.
  intros Hm' Hmm H. assert (Ht : ∀ m'', m'' ∈ s_models S → mm_table mm ≠ m_table m'').
  { intros m'' Hm''. by apply (wf_m2mtab _ _ (wf_models _ Hwf _ Hm')). }
  unfold m2m_set in H. inv_bind H. eapply drift_trans; [eapply link_drift; [done..| |eassumption]|eapply link_drift; [done..|apply number_quiet|exact H]].
  apply Forall_forall. intros x Hx. by apply elem_of_list_fmap in Hx as (y & -> & _).
Qed.
Lemma link_recount t cs d d' : t ≠ R → Forall ch_quiet cs → exec E t cs d = Ok d' → recount a R d' k = recount a R d k.
Proof.
  intros Ht Hq. apply (run_stmt_rel E (λ d d', recount a R d' k = recount a R d k)).
  - done.
  - intros x y z H1 H2. congruence.
  - intros d1 e d2 Hf. eapply skel_recountd; [done..|]. by eapply fire_skel.
  - intros d1 ch d2 evs Hch H. destruct ch as [j r|j g|j]; simpl in H.
    + destruct (getrow d1 t j); [done|]. destruct (_ || _); [|done]. injection H as <- <-. rewrite recount_put, decide_False by done. lia.
    + destruct (getrow d1 t j) as [o|]; [|by injection H as <- <-]. inv_bind H. destruct (_ || _); [|done]. injection H as <- <-.
      rewrite recount_put, decide_False by done. rewrite (recount_tabs _ _ d1); [lia|]. eapply Forall_forall in Hq; [|exact Hch].
      destruct a0. by apply (Hq _ _ _ H0).
    + destruct (getrow d1 t j) as [o|]; [|by injection H as <- <-]. destruct (_ || _); [|done]. injection H as <- <-.
      rewrite recount_del, decide_False by done. lia.
Qed.
Lemma m2m_pre_save_recount m' pk r d d' : m' ∈ s_models S → m2m_pre_save E m' pk r d = Ok d' → recount a R d' k = recount a R d k.
Proof.
  intros Hm'. unfold m2m_pre_save. destruct pk as [k'|]; [|by intros [= <-]]. case_decide; [by intros [= <-]|].
  apply (foldM_rel (λ d d', recount a R d' k = recount a R d k)); [done|congruence|].
  intros d1 mm d2 Hmm Ha. destruct (mm_denorm mm) as [[fn' ds']|]; [|by injection Ha as <-]. inv_bind Ha.
  assert (Ht : mm_table mm ≠ R).
  { apply (wf_m2mtab _ _ (wf_models _ Hwf _ Hm')); [done|]. eapply find_model_in. apply (al_rel _ _ _ _ _ Haf). }
  unfold m2m_set in Ha. inv_bind Ha. transitivity (recount a R a1 k).
  - by eapply link_recount; [|apply number_quiet|exact Ha].
  - eapply link_recount; [done| |exact Ha1]. apply Forall_forall. intros x Hx. by apply elem_of_list_fmap in Hx as (y & -> & _).
Qed.
(** The statement that stores row [k] itself. *)
Lemma own_change ch r d d' v : (ch = upd_all k r ∧ is_Some (getrow d T k) ∨ ch = CIns k r) → col r c = VInt v →
  exec E T [ch] d = Ok d' → ∃ r', getrow d' T k = Some r' ∧ col r' c = VInt (v + (recount a R d' k - recount a R d k)).
Proof.
  intros Hch Hv H. apply run_stmt_single in H. unfold run_batch in H. inv_bind H. destruct a0 as [d1 evs]. simpl in H.
  rewrite apply_all_cons in H0. inv_bind H0. destruct a0 as [d2 e2]. simpl in H0. injection H0 as <- <-. rewrite app_nil_r in H.
  assert (Hd : getrow d2 T k = Some r ∧ recount a R d2 k = recount a R d k + evsum e2 k).
  { unfold AggOps.evsum. destruct Hch as [[-> [o Ho]]| ->]; simpl in H1.
    - rewrite Ho in H1. simpl in H1. destruct (_ || _); [|done]. injection H1 as <- <-. split; [by rewrite getrow_put, decide_True|].
      cbn [zsum foldr]. rewrite recount_put. unfold AggEngine.delta. cbn [ev_tab]. destruct (decide (T = R)) as [HT|]; [|lia]. rewrite <- HT, Ho. simpl. lia.
    - destruct (getrow d T k) eqn:Hg; [done|]. destruct (_ || _); [|done]. injection H1 as <- <-. split; [by rewrite getrow_put, decide_True|].
      cbn [zsum foldr]. rewrite recount_put. unfold AggEngine.delta. cbn [ev_tab]. destruct (decide (T = R)) as [HT|]; [|lia]. rewrite <- HT, Hg. simpl. lia. }
  destruct Hd as [Hr2 Hrc]. destruct (fires_Rzd b S rand imm depth E l Hwf HE Hl Hnames m f a rel Haf _ _ _ _ H) as [Hz Hs].
  destruct (Hz k r v Hr2 Hv) as (r3 & Hr3 & Hv3). exists r3. split; [done|].
  rewrite Hv3, (skel_recountd b S rand imm depth E l Hwf HE Hl m f a rel Haf _ _ _ Hs), Hrc. f_equal. lia.
Qed.
Lemma raw_save_value r d d' v : col r c = VInt v → raw_save E m k r d = Ok d' →
  ∃ r', getrow d' T k = Some r' ∧ col r' c = VInt (v + (recount a R d' k - recount a R d k)).
Proof.
  intros Hv H. unfold raw_save in H. inv_bind H. rewrite <- (m2m_pre_save_recount m (Some k) r d a0) by (done || apply Haf).
  destruct (getrow a0 T k) as [o|] eqn:Hg.
  - eapply own_change; [|done|exact H]. left. split; [done|eauto].
  - inv_bind H. inv_bind H. injection H as <-.
    destruct (own_change (CIns k r) r a0 a1 v ltac:(by right) Hv H1) as (r1 & Hr1 & Hv1).
    apply post_save_drift with (b := b) (S := S) (rand := rand) (imm := imm) (depth := depth) (l := l) (m := m) (f := f) (a := a) (rel := rel) (k := k) in H2; [|done..|apply Haf].
    destruct (H2 _ _ Hr1 Hv1) as (r2 & Hr2 & Hv2). exists r2. split; [done|]. rewrite Hv2. f_equal. lia.
Qed.
Lemma raw_save_drift m' k' r d d' : m' ∈ s_models S → (m', k') ≠ (m, k) → raw_save E m' k' r d = Ok d' → drift d d'.
Proof.
  intros Hm' Hne H. unfold raw_save in H. inv_bind H. eapply drift_trans; [by eapply m2m_pre_save_drift|].
  assert (Hk : ∀ ch d, ch = upd_all k' r ∨ ch = CIns k' r → keeps m f k d (m_table m') ch).
  { intros ch d1 Hch HT. apply (model_T S Hwf m f a rel Haf) in HT as ->; [|done]. destruct Hch as [->| ->]; simpl; [|done]. intros ->. by destruct Hne. }
  destruct (getrow a0 (m_table m') k').
  - eapply exec1_drift; [done..| | |exact H]; [simpl; by intros ??? [= <-]|apply Hk; by left].
  - inv_bind H. inv_bind H. injection H as <-. eapply drift_trans; [eapply exec1_drift; [done..| | |exact H1]; [done|apply Hk; by right]|].
    by eapply post_save_drift.
Qed.
Lemma load_links_drift m' k' ys d d' : m' ∈ s_models S → foldM (load_links E m' k') d ys = Ok d' → drift d d'.
Proof.
  intros Hm'. apply (foldM_rel drift); [apply drift_refl|apply drift_trans|]. intros d1 y d2 _. unfold load_links.
  destruct (list_find _ _) as [[i mm]|] eqn:Hi; [|done]. apply list_find_Some in Hi as (Hi & _ & _). eapply m2m_set_drift; [done|]. by eapply elem_of_list_lookup_2.
Qed.
Lemma load_obj_drift x d d' : (o_model x, o_key x) ≠ (m_name m, k) → load_obj E S d x = Ok d' → drift d d'.
Proof.
  intros Hne. unfold load_obj. destruct (find_model S (o_model x)) as [m'|] eqn:Hm'; [|done]. apply find_model_in in Hm' as [Hin Hnm].
  intros H. inv_bind H. eapply drift_trans; [eapply raw_save_drift; [done| |exact H0]|by eapply load_links_drift].
  intros [= Hx1 Hx2]. apply Hne. by rewrite <- Hnm, Hx1, Hx2.
Qed.
Lemma load_value pre x post d d1 d' v : loaddata E S pre d = Ok d1 → loaddata E S (pre ++ x :: post) d = Ok d' →
  o_model x = m_name m → o_key x = k → Forall (λ y, (o_model y, o_key y) ≠ (m_name m, k)) post → col (o_row x) c = VInt v →
  ∃ r', getrow d' T k = Some r' ∧ col r' c = VInt (v + (recount a R d' k - recount a R d1 k)).
Proof.
  intros H1 H Hxm Hxk Hpost Hv. unfold loaddata in *. rewrite foldM_app, H1 in H. simpl in H. inv_bind H.
  unfold load_obj in H0. rewrite Hxm, (find_model_self S m (wf_names _ Hwf) (al_model _ _ _ _ _ Haf)) in H0. inv_bind H0.
  rewrite Hxk in H0, H2. destruct (raw_save_value _ _ _ _ Hv H2) as (r1 & Hr1 & Hv1).
  apply load_links_drift in H0; [|apply Haf]. destruct (H0 _ _ Hr1 Hv1) as (r2 & Hr2 & Hv2).
  assert (Hd : drift a0 d').
  { revert H. apply (foldM_rel drift); [apply drift_refl|apply drift_trans|]. intros d3 y d4 Hy. apply load_obj_drift. by eapply Forall_forall in Hpost. }
  destruct (Hd _ _ Hr2 Hv2) as (r3 & Hr3 & Hv3). exists r3. split; [done|]. rewrite Hv3. f_equal. lia.
Qed.
End modes.
Section props.
Context (b : backend) (S : schema) (rand : nat → Z) (imm : bool) (depth : nat) (E : env).
Context (Hwf : wf_schema S) (Hna : names_apart S) (HE : mk_env b S rand imm depth = Ok E).
Context (m : model) (f : field) (a : agg) (rel : model) (Haf : agg_field S m f a rel) (k : Z).
Lemma fields_error m' k' names r d p r0 v : m' ∈ s_models S → getrow d (m_table m) k = Some r0 → col r0 (f_col f) = VInt v →
  save_fields E m' k' names r d = Ok p →
  ∃ r1, getrow p.1 (m_table m) k = Some r1 ∧ col r1 (f_col f) = VInt (v + (agg_value p.1 rel a k - agg_value d rel a k)).
Proof.
  intros Hm' Hr Hv H. destruct (mk_env_gen _ _ _ _ _ _ HE) as [l Hl]. setoid_rewrite agg_value_recount.
  exact (save_fields_drift b S rand imm depth E l Hwf HE Hl ltac:(by eapply names_apart_ok) m f a rel Haf k m' k' names r d p Hm' H r0 v Hr Hv).
Qed.
Lemma load_error pre x post d d1 d' v : loaddata E S pre d = Ok d1 → loaddata E S (pre ++ x :: post) d = Ok d' →
  o_model x = m_name m → o_key x = k → (∀ y, y ∈ post → o_model y = m_name m → o_key y ≠ k) → col (o_row x) (f_col f) = VInt v →
  ∃ r', getrow d' (m_table m) k = Some r' ∧ col r' (f_col f) = VInt (v + (agg_value d' rel a k - agg_value d1 rel a k)).
Proof.
  intros H1 H Hxm Hxk Hpost Hv. destruct (mk_env_gen _ _ _ _ _ _ HE) as [l Hl]. setoid_rewrite agg_value_recount.
  apply (load_value b S rand imm depth E l Hwf HE Hl ltac:(by eapply names_apart_ok) m f a rel Haf k pre x post d d1 d' v H1 H Hxm Hxk); [|done].
  apply Forall_forall. intros y Hy [= Hn Hk]. by apply (Hpost y Hy Hn).
Qed.
End props.
Lemma load_dump_exact E S d e d' m f a rel : wf_schema S → e_trigs E = [] → e_fkimm E = false → e_depth E ≠ O → (∀ m, m ∈ s_models S → m_m2m m = []) →
  (∀ m k, m ∈ s_models S → getrow e (m_table m) k = None) → agg_field S m f a rel → agg_exact m f a rel d →
  loaddata E S (dump S d) e = Ok d' → agg_exact m f a rel d'.
Proof.
  intros Hwf Ht Hi Hd Hno He Haf Hex Hl. destruct (load_dump E S d e Hwf Ht Hi Hd Hno He) as (d2 & Hl2 & _ & Hg).
  assert (d2 = d') as -> by congruence. intros k r Hr. rewrite Hg in Hr by apply Haf. rewrite (Hex k r Hr). f_equal.
  rewrite !agg_value_recount. symmetry. apply recount_ext. intros j. rewrite Hg; [done|]. eapply find_model_in. apply (al_rel _ _ _ _ _ Haf).
Qed.
