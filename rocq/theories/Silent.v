(** * Which updates fire no trigger, and which rows a trigger can mark. *)
From Verif Require Import Base BaseLemmas Schema TrigSet Gen Exec Orm Spec Engine GenLemmas Marking Conditions Invariant Settle Sessions.

Section silent.
Context (b : backend) (S : schema) (rand : nat → Z) (imm : bool) (depth : nat) (E : env) (l : list trigger).
Context (Hwf : wf_schema S) (HE : mk_env b S rand imm depth = Ok E) (Hl : gen_all S = Ok l).

(** ** The shape of every generated trigger *)
Inductive shape (tr : trigger) : Prop :=
  | sh_model m sk : m ∈ s_models S → skip_on S m sk → t_tab tr = m_table m → t_fields tr = model_tfields m sk →
      t_ctf tr = None → shape tr
  | sh_gen m cf ct : m ∈ s_models S → gen_on S (m_table m) cf ct → t_tab tr = m_table m →
      t_fields tr = m_pk m :: (f_att <$> filter (λ f, f_owner f = m_name m) (m_fields m)) →
      t_ctf tr = Some cf → t_ct tr = ct → shape tr
  | sh_link m f dp o t c rc : m ∈ s_models S → f ∈ m_fields m → dp ∈ field_deps f → find_model S (dep_other dp) = Some o →
      dep_rel dp = RelM2M t c rc → t_tab tr = t → t_fields tr = [c; rc] → t_ctf tr = None → shape tr.

Ltac cases_in H :=
  repeat (apply elem_of_cons in H as [->|H]); try (by apply elem_of_nil in H).

Lemma shape_dep m f dp o tr g : m ∈ s_models S → f ∈ m_fields m → dp ∈ field_deps f → find_model S (dep_other dp) = Some o →
  (g = cb_dep_triggers m o dp ∨ ∃ fname, g = ck_dep_triggers m o fname dp) → tr ∈ g → shape tr.
Proof.
  intros Hm Hf Hdp Hfo Hg Htr. destruct (find_model_in _ _ _ Hfo) as [Ho _].
  assert (Hmod : is_gen (dep_rel dp) = false → ∀ e acts, shape (model_trigger o (m_ct m) (dep_skip dp) e acts)).
  { intros Hgen e acts. eapply (sh_model _ o (dep_skip dp)); try done. exact (so_dep _ _ m f dp Hm Hf Hdp Hgen Hfo). }
  destruct Hg as [->|[fname ->]]; revert Htr; [unfold cb_dep_triggers|unfold ck_dep_triggers];
    destruct (dep_rel dp) as [fk|fk|t c rc|cf oc|cf oc] eqn:Hr; simpl; intros Htr; simpl in Hmod;
    cases_in Htr; first [by apply Hmod
      |by eapply (sh_link _ m f dp o t c rc)
      |solve [eapply (sh_gen _ o cf (m_ct m)); [done|by eapply go_fwd|done..]]
      |solve [eapply (sh_gen _ m cf (m_ct m)); [done|by eapply go_bwd|done..]]].
Qed.
Lemma shape_spec tr : tr ∈ l → shape tr.
Proof.
  intros Htr. apply (origin_spec S l Hwf Hl) in Htr.
  destruct Htr as [m f fn ds sk Hm Hf Hk Hb Hi|m f fn ds sk dp o Hm Hf Hk Hdp Hfo Hi|m f ds dp o Hm Hf Hk Hdp Hfo Hi|m f a rel Hm Hf Hk Hfo Hi].
  - unfold cb_self_triggers in Hi. cases_in Hi; (eapply (sh_model _ m sk); try done; by eapply so_self).
  - eapply shape_dep; [done|exact Hf| |exact Hfo|by left|exact Hi]. unfold field_deps. by rewrite Hk.
  - eapply shape_dep; [done|exact Hf| |exact Hfo|right; by eexists|exact Hi]. unfold field_deps. by rewrite Hk.
  - destruct (find_model_in _ _ _ Hfo) as [Hrel _].
    unfold agg_triggers in Hi. cases_in Hi; (eapply (sh_model _ rel (ag_skip a)); try done; exact (so_agg _ _ m f a Hm Hf Hk Hfo)).
Qed.

Lemma fields_watched tr c : tr ∈ l → c ∈ t_fields tr → watched S (t_tab tr) c ∨ c = e_pk E (t_tab tr).
Proof.
  intros Htr Hc. destruct (shape_spec _ Htr) as [m sk Hm Hso Ht Hf Hn|m cf ct Hm Hg Ht Hf Hn Hct|m f dp o t c' rc Hm Hf Hdp Hfo Hr Ht Hfs Hn].
  - pose proof (wf_models _ Hwf _ Hm) as W. rewrite Hf in Hc. unfold model_tfields in Hc. apply elem_of_list_filter in Hc as [Hsk Hc].
    apply elem_of_cons in Hc as [->|Hc]; [right; rewrite Ht; symmetry; by eapply pk_table|left].
    apply elem_of_list_fmap in Hc as (f & -> & Hin). apply elem_of_list_filter in Hin as [_ Hin].
    rewrite Ht. rewrite (wf_att _ _ W _ Hin) in *. by eapply wa_model.
  - pose proof (wf_models _ Hwf _ Hm) as W. rewrite Hf in Hc. 
    apply elem_of_cons in Hc as [->|Hc]; [right; rewrite Ht; symmetry; by eapply pk_table|left].
    apply elem_of_list_fmap in Hc as (f & -> & Hin). apply elem_of_list_filter in Hin as [_ Hin].
    rewrite Ht. rewrite (wf_att _ _ W _ Hin) in *. by eapply wa_gen.
  - left. rewrite Hfs in Hc. rewrite Ht. by eapply wa_link.
Qed.
Lemma ctf_gen tr cf : tr ∈ l → t_ctf tr = Some cf → gen_on S (t_tab tr) cf (t_ct tr).
Proof. intros Htr Hc. destruct (shape_spec _ Htr); congruence. Qed.

(** ** Exactness of the conditions *)
Lemma cond_fields e fs : cond_holds E e (CFields fs) = true ↔ ∃ c, c ∈ fs ∧ ref_val E e ROld c ≠ ref_val E e RNew c.
Proof.
  simpl. rewrite existsb_exists. setoid_rewrite <- elem_of_list_In. setoid_rewrite negb_true_iff. setoid_rewrite bool_decide_eq_false. done.
Qed.

(** An update that leaves all watched columns alone fires nothing. *)
Lemma quiet_cond it t k o n :
  it ∈ e_trigs E → i_tab it = t → i_ev it = EvUpd →
  (∀ c, watched S t c → col n c = col o c) →
  (b = Postgres → ∀ cf ct, ¬ gen_on S t cf ct) →
  (b = MySQL → ∀ m sk, m ∈ s_models S → m_table m = t → skip_on S m sk → ¬ skipped_by m sk (m_pk m)) →
  cond_holds E (Ev t k (ChUpd o n)) (i_cond it) = false.
Proof.
  intros Hit Ht Hev Hsame Hpg Hmy.
  destruct (io_sound _ _ _ (E_inst b S rand imm depth E l HE Hl) _ Hit) as (tr1 & Htr1 & _ & Htab & He & Hc & _).
  set (e := Ev t k (ChUpd o n)).
  assert (Hf : cond_holds E e (CFields (t_fields tr1)) = false).
  { apply not_true_is_false. rewrite cond_fields. intros (c & Hin & Hne). apply Hne.
    destruct (fields_watched _ _ Htr1 Hin) as [Hw|Hpk].
    - unfold ref_val; simpl. unfold cell. case_decide; [done|]. symmetry. apply Hsame. by rewrite <- Ht, Htab.
    - unfold ref_val; simpl. unfold cell. rewrite Hpk, <- Htab, Ht. by rewrite !decide_True. }
  rewrite Hev in He. unfold trig_cond in Hc. rewrite <- He in Hc. destruct b eqn:Hb.
  - case_decide; [done|]. injection Hc as Hc. rewrite <- Hc. destruct (t_ctf tr1); [|done].
    change (cond_holds E e (CFields (t_fields tr1)) && cond_holds E e (COr (CCt ROld s (t_ct tr1)) (CCt RNew s (t_ct tr1))) = false). by rewrite Hf.
  - case_decide; [done|]. injection Hc as Hc. rewrite <- Hc. destruct (t_ctf tr1) eqn:Hctf; [|done].
    exfalso. eapply Hpg; [done|]. rewrite <- Ht, Htab. by apply ctf_gen.
  - injection Hc as Hc. rewrite <- Hc. case_decide as Hnil; [exfalso|done].
    destruct (shape_spec _ Htr1) as [m sk Hm Hso Htm Hfs Hn|m cf ct Hm Hg Htm Hfs Hn Hct|m f dp o' t' c' rc Hm Hff Hdp Hfo Hr Htm Hfs Hn];
      rewrite Hfs in Hnil; [|done|done].
    assert (Hin : m_pk m ∈ model_tfields m sk); [|rewrite Hnil in Hin; by apply elem_of_nil in Hin].
    apply elem_of_list_filter. split; [|left]. apply (Hmy eq_refl m sk); [done|congruence|done].
Qed.

Lemma fire_quiet n act d e d' :
  (∀ it, it ∈ e_trigs E → i_tab it = ev_tab e → i_ev it = ev_kind e → cond_holds E e (i_cond it) = false) →
  fire E n act d e = Ok d' → d' = d.
Proof.
  intros Hq. destruct n as [|n]; [done|]. simpl. intros H. symmetry.
  eapply (foldM_rel (λ x y, x = y)); [done|by intros ??? -> ->| |exact H].
  intros x it y Hit Hx. simpl in Hx. destruct (trig_applies E act e it) eqn:Ha; [|by injection Hx].
  unfold trig_applies in Ha. rewrite !andb_true_iff, !bool_decide_eq_true in Ha. destruct Ha as (((H1 & H2) & _) & H3).
  rewrite Hq in H3; done.
Qed.

(** The rows an UPDATE changes. *)
Definition upd_ch (g : row → row) (k : Z) : change := CUpd k (λ d o, Ok (g o, d)).
Lemma upd_ch_applied t g k d d1 evs : apply_change E t d (upd_ch g k) = Ok (d1, evs) →
  rows_updated t [k] g d d1 ∧ ∀ e, e ∈ evs → ∃ o, getrow d t k = Some o ∧ e = Ev t k (ChUpd o (g o)).
Proof.
  simpl. destruct (getrow d t k) as [o|] eqn:Ho.
  - case_match; [|done]. intros [= <- <-]. split; [|intros e ->%elem_of_list_singleton; by exists o].
    split_and!; [done|done|]. intros t' k'. rewrite getrow_put.
    destruct (decide (t' = t ∧ k' = k)) as [[-> ->]|Hn].
    + rewrite decide_True by (split; [done|left]). by rewrite Ho.
    + rewrite decide_False; [done|]. rewrite elem_of_list_singleton. done.
  - intros [= <- <-]. split; [|by intros ? ?%elem_of_nil]. split_and!; [done|done|].
    intros t' k'. case_decide as Hd; [|done]. destruct Hd as [-> ->%elem_of_list_singleton]. by rewrite Ho.
Qed.
Lemma rows_updated_cons t k ks g d d1 d2 : k ∉ ks → rows_updated t [k] g d d1 → rows_updated t ks g d1 d2 → rows_updated t (k :: ks) g d d2.
Proof.
  intros Hk (A1 & A2 & A3) (B1 & B2 & B3). split_and!; [congruence|congruence|]. intros t' k'. rewrite B3, !A3.
  destruct (decide (t' = t)) as [->|Ht]; [|rewrite !decide_False by naive_solver; done].
  destruct (decide (k' = k)) as [->|Hn].
  - rewrite (decide_False (P := t = t ∧ k ∈ ks)) by naive_solver. rewrite !decide_True by (split; [done|left]). done.
  - rewrite (decide_False (P := t = t ∧ k' ∈ [k])) by (rewrite elem_of_list_singleton; naive_solver).
    destruct (decide (k' ∈ ks)); [rewrite !decide_True by (split; [done|by try right]); done|].
    rewrite !decide_False; [done|rewrite elem_of_cons; naive_solver|naive_solver].
Qed.
Lemma upd_all_applied t g ks : NoDup ks → ∀ d d1 evs, apply_all E t (upd_ch g <$> ks) d = Ok (d1, evs) →
  rows_updated t ks g d d1 ∧ ∀ e, e ∈ evs → ∃ k o, k ∈ ks ∧ getrow d t k = Some o ∧ e = Ev t k (ChUpd o (g o)).
Proof.
  induction 1 as [|k ks Hk Hnd IH]; intros d d1 evs H.
  { injection H as <- <-. split; [|by intros ? ?%elem_of_nil]. split_and!; [done|done|]. intros t' k'.
    rewrite decide_False; [done|]. intros [_ ?%elem_of_nil]. done. }
  csimpl in H. rewrite apply_all_cons in H. inv_bind H. destruct a as [d2 e1]. simpl in H. inv_bind H. destruct a as [d3 e2]. simpl in H.
  injection H as <- <-. apply upd_ch_applied in H0 as [R1 V1]. apply IH in H1 as [R2 V2]. split.
  - by eapply rows_updated_cons.
  - intros e [He|He]%elem_of_app.
    + destruct (V1 _ He) as (o & Ho & ->). exists k, o. split_and!; [left|done|done].
    + destruct (V2 _ He) as (k' & o & Hin & Ho & ->). exists k', o. split_and!; [by right| |done].
      destruct R1 as (_ & _ & R1). rewrite R1, decide_False in Ho; [done|]. intros [_ ->%elem_of_list_singleton]. done.
Qed.

Lemma exec_upd_quiet t ks g d d' : NoDup ks →
  (∀ k o, k ∈ ks → getrow d t k = Some o → ∀ it, it ∈ e_trigs E → i_tab it = t → i_ev it = EvUpd →
     cond_holds E (Ev t k (ChUpd o (g o))) (i_cond it) = false) →
  exec E t (upd_ch g <$> ks) d = Ok d' → rows_updated t ks g d d'.
Proof.
  intros Hnd Hq H. unfold exec, run_stmt in H.
  assert (Hb : ∀ ks d d', NoDup ks →
    (∀ k o, k ∈ ks → getrow d t k = Some o → ∀ it, it ∈ e_trigs E → i_tab it = t → i_ev it = EvUpd →
       cond_holds E (Ev t k (ChUpd o (g o))) (i_cond it) = false) →
    run_batch E (fire E (e_depth E) []) t (upd_ch g <$> ks) d = Ok d' → rows_updated t ks g d d').
  { clear. intros ks d d' Hnd Hq H. unfold run_batch in H. inv_bind H. destruct a as [d1 evs]. simpl in H.
    apply upd_all_applied in H0 as [R V]; [|done]. assert (d' = d1) as ->; [|done]. symmetry.
    eapply (foldM_rel (λ x y, x = y)); [done|by intros ??? -> ->| |exact H]. intros x e y He Hf.
    destruct (V _ He) as (k & o & Hk & Ho & ->). symmetry. eapply fire_quiet; [|exact Hf]. simpl. intros. by eapply Hq. }
  assert (Hs : foldM (λ d c, run_batch E (fire E (e_depth E) []) t [c] d) d (upd_ch g <$> ks) = Ok d' → rows_updated t ks g d d').
  { clear H. intros H. revert d Hq H. induction Hnd as [|k ks Hk Hnd IH]; intros d Hq H.
    - injection H as <-. split_and!; [done|done|]. intros t' k'. rewrite decide_False; [done|]. intros [_ ?%elem_of_nil]. done.
    - csimpl in H. inv_bind H. apply (Hb [k]) in H0; [| |].
      + eapply rows_updated_cons; [done|exact H0|]. apply IH; [|done]. intros k' o Hk' Ho. apply Hq; [by right|].
        destruct H0 as (_ & _ & R). rewrite R, decide_False in Ho; [done|]. intros [_ ->%elem_of_list_singleton]. done.
      + apply NoDup_singleton.
      + intros k' o ->%elem_of_list_singleton Ho. apply Hq; [left|done]. }
  destruct (e_be E); auto.
Qed.

Lemma silent_update t ks g d d' :
  run_op E S (OUpdate t ks g) d = Ok d' →
  (∀ k r c, k ∈ ks → getrow d t k = Some r → watched S t c → col (g r) c = col r c) →
  (b = Postgres → ∀ cf ct, ¬ gen_on S t cf ct) →
  (b = MySQL → ∀ m sk, m ∈ s_models S → m_table m = t → skip_on S m sk → ¬ skipped_by m sk (m_pk m)) →
  rows_updated t ks g d d'.
Proof.
  intros H Hw Hpg Hmy. simpl in H. change (exec E t (upd_ch g <$> remove_dups ks) d = Ok d') in H.
  apply exec_upd_quiet in H.
  - destruct H as (A & B & C). split_and!; [done|done|]. intros t' k. rewrite C.
    destruct (decide (t' = t ∧ k ∈ remove_dups ks)) as [[-> Hk]|Hn].
    + rewrite elem_of_remove_dups in Hk. by rewrite decide_True.
    + rewrite elem_of_remove_dups in Hn. case_decide; done.
  - apply NoDup_remove_dups.
  - intros k o Hk Ho it Hit Ht Hev. rewrite elem_of_remove_dups in Hk. eapply quiet_cond; eauto.
Qed.

(** ** Every marker a statement adds is due to one of its row changes *)
Definition no_upd (t : string) : Prop := ∀ it t' c x w, it ∈ e_trigs E → i_tab it = t → AUpd t' c x w ∉ i_acts it.
Definition adds (evs : list event) (d d' : db) : Prop :=
  ∃ ms, d_dirty d' = d_dirty d ++ ms ∧ ∀ mk, mk ∈ ms → ∃ e dx, e ∈ evs ∧ due E dx e mk.
Lemma adds_refl evs d : adds evs d d.
Proof. exists []. rewrite app_nil_r. split; [done|]. by intros ? ?%elem_of_nil. Qed.
Lemma adds_trans evs x y z : adds evs x y → adds evs y z → adds evs x z.
Proof.
  intros (l1 & H1 & A1) (l2 & H2 & A2). exists (l1 ++ l2). rewrite H2, H1, (assoc_L app). split; [done|].
  intros mk [?|?]%elem_of_app; eauto.
Qed.
Lemma adds_mono evs evs' d d' : (∀ e, e ∈ evs → e ∈ evs') → adds evs d d' → adds evs' d d'.
Proof. intros Hs (ms & H & A). exists ms. split; [done|]. intros mk Hmk. destruct (A _ Hmk) as (e & dx & ? & ?). eauto. Qed.
Lemma fire_adds n act d e d' : no_upd (ev_tab e) → fire E n act d e = Ok d' → d_tabs d' = d_tabs d ∧ adds [e] d d'.
Proof.
  intros Hnu. destruct n as [|n]; [done|]. simpl. intros H.
  set (R := λ x y : db, d_tabs y = d_tabs x ∧ adds [e] x y).
  assert (Rr : ∀ x, R x x) by (intros; split; auto using adds_refl).
  assert (Rt : ∀ x y z, R x y → R y z → R x z) by (intros x y z [] []; split; [congruence|by eapply adds_trans]).
  apply (foldM_rel R _ _ Rr Rt) in H; [done|]. intros x it y Hit Hx. simpl in Hx.
  destruct (trig_applies E act e it) eqn:Ha; [|by injection Hx as <-].
  unfold trig_applies in Ha. rewrite !andb_true_iff, !bool_decide_eq_true in Ha. destruct Ha as (((H1 & H2) & _) & H3).
  revert Hx. apply (foldM_rel R _ _ Rr Rt). intros u a v Ha Hu.
  assert (Hm : act_marks E u e a = d_dirty v ∨ True) by by right.
  destruct a as [ct rf c|ct t sc wc rf rc|t c x' w]; simpl in Hu.
  - injection Hu as <-. split; [done|]. eexists. split; [done|]. intros mk Hmk. exists e, u. split; [left|].
    exists it, (AMark ct rf c). done.
  - injection Hu as <-. split; [done|]. eexists. split; [done|]. intros mk Hmk. exists e, u. split; [left|].
    exists it, (AMarkSel ct t sc wc rf rc). done.
  - exfalso. by eapply Hnu.
Qed.

Lemma applied_tabs t d d1 d2 evs : d_tabs d2 = d_tabs d1 → applied t d d1 evs → applied t d d2 evs.
Proof.
  intros Ht [A1 A2 A3 A4]. assert (Hg : ∀ t k, getrow d2 t k = getrow d1 t k) by (intros; unfold getrow, tab; by rewrite Ht).
  split; intros; rewrite ?Hg; auto.
Qed.
Lemma applied_app t d d1 d2 e1 e2 : (∀ a b, a ∈ e1 → b ∈ e2 → ev_key a ≠ ev_key b) →
  applied t d d1 e1 → applied t d1 d2 e2 → applied t d d2 (e1 ++ e2).
Proof.
  intros Hk A1 A2. split.
  - intros e [He|He]%elem_of_app; [apply (ap_tab _ _ _ _ A1 _ He)|apply (ap_tab _ _ _ _ A2 _ He)].
  - intros t' k Ht. rewrite (ap_other _ _ _ _ A2) by done. by apply (ap_other _ _ _ _ A1).
  - intros e [He|He]%elem_of_app.
    + destruct (ap_ev _ _ _ _ A1 _ He) as [H2 H3]. split; [done|]. rewrite <- H3.
      apply (ap_none _ _ _ _ A2). intros e' He' Hke. by eapply Hk.
    + destruct (ap_ev _ _ _ _ A2 _ He) as [H2 H3]. split; [|done]. rewrite <- H2. symmetry.
      apply (ap_none _ _ _ _ A1). intros e' He' Hke. by eapply Hk.
  - intros k Hn. rewrite (ap_none _ _ _ _ A2), (ap_none _ _ _ _ A1); [done|..].
    all: intros e He; apply Hn; apply elem_of_app; auto.
Qed.
Lemma run_batch_adds t cs d d' : no_upd t → Forall ch_quiet cs → NoDup (ch_key <$> cs) →
  run_batch E (fire E (e_depth E) []) t cs d = Ok d' →
  ∃ evs, applied t d d' evs ∧ adds evs d d' ∧ ∀ e, e ∈ evs → ev_key e ∈ ch_key <$> cs.
Proof.
  intros Hnu Hq Hnd H. unfold run_batch in H. inv_bind H. destruct a as [d1 evs]. simpl in H.
  destruct (apply_all_applied _ _ _ _ _ _ Hq Hnd H0) as (Ap & Hk & Hd). exists evs.
  assert (Hf : d_tabs d' = d_tabs d1 ∧ adds evs d1 d').
  { apply (foldM_rel (λ x y : db, d_tabs y = d_tabs x ∧ adds evs x y)) in H; [done|..].
    - intros; split; auto using adds_refl.
    - intros x y z [] []; split; [congruence|by eapply adds_trans].
    - intros x e y He Hx. apply fire_adds in Hx as [? Ha]; [|by rewrite (ap_tab _ _ _ _ Ap _ He)].
      split; [done|]. eapply adds_mono; [|exact Ha]. by intros ? ->%elem_of_list_singleton. }
  destruct Hf as [Ht (ms & Hms & Ha)]. split_and!; [by eapply applied_tabs| |done]. exists ms. by rewrite Hms, Hd.
Qed.
Lemma exec_adds t cs d d' : no_upd t → Forall ch_quiet cs → NoDup (ch_key <$> cs) → exec E t cs d = Ok d' →
  ∃ evs, applied t d d' evs ∧ adds evs d d' ∧ ∀ e, e ∈ evs → ev_key e ∈ ch_key <$> cs.
Proof.
  intros Hnu Hq Hnd H. unfold exec, run_stmt in H.
  assert (Hs : foldM (λ d c, run_batch E (fire E (e_depth E) []) t [c] d) d cs = Ok d' →
    ∃ evs, applied t d d' evs ∧ adds evs d d' ∧ ∀ e, e ∈ evs → ev_key e ∈ ch_key <$> cs).
  { clear H. revert d. induction cs as [|c cs IH]; intros d H.
    - injection H as <-. exists []. split_and!; [|apply adds_refl|by intros ? ?%elem_of_nil].
      split; try by intros ? ?%elem_of_nil. all: done.
    - rewrite foldM_cons in H. inv_bind H. apply Forall_cons in Hq as [Hq1 Hq2].
      rewrite fmap_cons in Hnd. apply NoDup_cons in Hnd as [Hn1 Hn2].
      apply run_batch_adds in H0 as (e1 & A1 & D1 & K1); [|done|by apply Forall_singleton|apply NoDup_singleton].
      destruct (IH Hq2 Hn2 _ H) as (e2 & A2 & D2 & K2). exists (e1 ++ e2). split_and!.
      + eapply applied_app; [|done|done]. intros x y Hx Hy Hxy. apply K1 in Hx. apply K2 in Hy.
        apply elem_of_list_singleton in Hx. rewrite <- Hxy, Hx in Hy. done.
      + eapply adds_trans; (eapply adds_mono; [|done]); intros; apply elem_of_app; auto.
      + intros e [He|He]%elem_of_app; rewrite fmap_cons; [|right; auto].
        apply K1 in He. apply elem_of_list_singleton in He as ->. left. }
  destruct (e_be E); auto. by apply run_batch_adds.
Qed.

Lemma exec_ins_nodup t rows d d' : exec E t ((λ p : Z * row, CIns p.1 p.2) <$> rows) d = Ok d' →
  NoDup rows.*1 ∧ ∀ k, k ∈ rows.*1 → getrow d t k = None.
Proof.
  intros H. unfold exec, run_stmt in H.
  assert (Hs : foldM (λ d c, run_batch E (fire E (e_depth E) []) t [c] d) d ((λ p : Z * row, CIns p.1 p.2) <$> rows) = Ok d' →
    NoDup rows.*1 ∧ ∀ k, k ∈ rows.*1 → getrow d t k = None).
  { clear H. revert d. induction rows as [|[k r] rows IH]; intros d H.
    { split; [apply NoDup_nil_2|]. by intros ? ?%elem_of_nil. }
    rewrite fmap_cons, foldM_cons in H. inv_bind H. apply IH in H as [Hnd Hn]. rename H0 into Hb. unfold run_batch, apply_all in Hb. simpl in Hb.
    destruct (getrow d t k) eqn:Hk; [done|]. simpl in Hb. case_match; [|done]. simpl in Hb.
    assert (Hsk : skel E (put_row d t k r) a).
    { destruct (fire _ _ _ _ _) eqn:Hf in Hb; [|done]. simpl in Hb. injection Hb as <-. by eapply fire_skel. }
    assert (Hin : ∀ k', getrow a t k' = None → getrow (put_row d t k r) t k' = None).
    { intros k' Hk'. specialize (Hsk t k'). rewrite Hk' in Hsk. by destruct (getrow (put_row d t k r) t k'). }
    csimpl. split.
    - constructor; [|done]. intros Hi. apply Hn, Hin in Hi. by rewrite getrow_put_eq in Hi.
    - intros k' [->|Hi]%elem_of_cons; [done|]. apply Hn, Hin in Hi. rewrite getrow_put in Hi. by case_decide. }
  destruct (e_be E); auto. unfold run_batch in H. inv_bind H. destruct a. by eapply apply_ins_nodup.
Qed.
Lemma stmt_adds o t d d' : is_statement o t → no_upd t → run_op E S o d = Ok d' →
  ∃ evs, applied t d d' evs ∧ adds evs d d' ∧ ∀ e, e ∈ evs → ev_key e ∈ stmt_keys o.
Proof.
  intros Hs Hnu H. destruct o as [mn pk r|t' rows|t' ks g|t' ks]; [done|..]; simpl in Hs, H; subst t'.
  - assert (Hq : Forall ch_quiet ((λ p : Z * row, CIns p.1 p.2) <$> rows)) by (apply Forall_fmap, Forall_forall; done).
    assert (Hk : ch_key <$> ((λ p : Z * row, CIns p.1 p.2) <$> rows) = rows.*1).
    { rewrite <- list_fmap_compose. by rewrite (list_fmap_ext _ fst). }
    destruct (exec_ins_nodup _ _ _ _ H) as [Hnd _].
    apply exec_adds in H as (evs & ? & ? & Hk'); [|done|done|by rewrite Hk]. rewrite Hk in Hk'. by exists evs.
  - assert (Hk : ch_key <$> ((λ k, CUpd k (λ d o, Ok (g o, d))) <$> remove_dups ks) = remove_dups ks).
    { rewrite <- list_fmap_compose. rewrite (list_fmap_ext _ id) by done. by rewrite list_fmap_id. }
    apply exec_adds in H as (evs & ? & ? & Hk'); [|done| |rewrite Hk; apply NoDup_remove_dups].
    + exists evs. split_and!; [done|done|]. intros e He. apply Hk' in He. rewrite Hk, elem_of_remove_dups in He. done.
    + apply Forall_fmap, Forall_forall. intros k _. simpl. intros x y p Hp. by injection Hp as <-.
  - assert (Hk : ch_key <$> (CDel <$> remove_dups ks) = remove_dups ks).
    { rewrite <- list_fmap_compose. rewrite (list_fmap_ext _ id) by done. by rewrite list_fmap_id. }
    apply exec_adds in H as (evs & ? & ? & Hk'); [|done| |rewrite Hk; apply NoDup_remove_dups].
    + exists evs. split_and!; [done|done|]. intros e He. apply Hk' in He. rewrite Hk, elem_of_remove_dups in He. done.
    + by apply Forall_fmap, Forall_forall.
Qed.

(** ** Rows of another content type mark nobody *)
Context (Hnames : names_ok b l).
Lemma no_upd_ok t : (∀ m, m ∈ s_models S → ¬ upd_source S m t) → no_upd t.
Proof.
  intros Hn it t' c x w Hit <- Ha. destruct (aupd_source b S rand imm depth E l Hwf HE Hl _ _ _ _ _ Hnames Hit Ha) as (m & Hm & _ & Hs).
  by eapply Hn.
Qed.
Lemma marks_ct d e a mk : mk ∈ act_marks E d e a → ∃ ct, mk.1 = ct ∧
  ((∃ rf c, a = AMark ct rf c) ∨ (∃ t sc wc rf rc, a = AMarkSel ct t sc wc rf rc)).
Proof.
  destruct a as [ct rf c|ct t sc wc rf rc|]; simpl.
  - intros ->%elem_of_list_singleton. exists ct. split; [done|]. left. eauto.
  - intros (v & -> & _)%elem_of_list_fmap. exists ct. split; [done|]. right. eauto 10.
  - by intros ?%elem_of_nil.
Qed.
Lemma mark_origin m om tr a d e mk : m ∈ s_models S → om ∈ s_models S → m ≠ om →
  tr ∈ l → t_tab tr = m_table om → a ∈ t_acts tr → mk ∈ act_marks E d e a → mk.1 = m_ct m →
  ∃ f fn ds sk dp, f ∈ m_fields m ∧ f_kind f = KCallback fn ds sk ∧ dp ∈ ds ∧ find_model S (dep_other dp) = Some om ∧
    tr ∈ cb_dep_triggers m om dp.
Proof.
  intros Hm Hom Hne Htr Htab Ha Hmk Hct. apply (origin_spec S l Hwf Hl) in Htr.
  apply marks_ct in Hmk as (ct & <- & Hmk).
  assert (Hcts : ∀ m', m' ∈ s_models S → m_ct m' = m_ct m → m' = m).
  { intros m' Hm' Hc. eapply NoDup_fmap_eq; [apply (wf_cts _ Hwf)|done..]. }
  assert (Hact : ∀ m', m' ∈ s_models S → (∀ a, a ∈ t_acts tr → (∃ rf c, a = AMark (m_ct m') rf c) ∨ (∃ t sc wc rf rc, a = AMarkSel (m_ct m') t sc wc rf rc)) → m' = m).
  { intros m' Hm' Hall. apply Hcts; [done|]. rewrite <- Hct.
    destruct (Hall _ Ha) as [(?&?&->)|(?&?&?&?&?&->)], Hmk as [(?&?&[=])|(?&?&?&?&?&[=])]; done. }
  destruct Htr as [m' f fn ds sk Hm' Hf Hk Hb Hi|m' f fn ds sk dp o Hm' Hf Hk Hdp Hfo Hi|m' f ds dp o Hm' Hf Hk Hdp Hfo Hi|m' f a' rel Hm' Hf Hk Hfo Hi].
  - exfalso. assert (m' = m) as ->.
    { apply Hact; [done|]. intros a' Ha'. unfold cb_self_triggers in Hi. cases_in Hi; simpl in Ha'; apply elem_of_list_singleton in Ha' as ->; eauto. }
    apply Hne. eapply table_inj; [exact Hwf|done..|]. rewrite <- Htab. unfold cb_self_triggers in Hi. by cases_in Hi.
  - assert (m' = m) as ->.
    { apply Hact; [done|]. intros a' Ha'. unfold cb_dep_triggers in Hi. destruct (dep_rel dp); cases_in Hi; simpl in Ha';
        cases_in Ha'; first [left; by eauto|right; by eauto 10]. }
    exists f, fn, ds, sk, dp. assert (o = om) as ->; [|done].
    destruct (find_model_in _ _ _ Hfo) as [Ho _].
    assert (Wd : wf_dep S m dp) by (eapply (wf_deps _ Hwf); [done|done|by unfold field_deps; rewrite Hk]).
    specialize (Wd _ Hfo).
    unfold cb_dep_triggers in Hi. destruct (dep_rel dp) as [fk|fk|t c rc|cf oc|cf oc] eqn:Hr.
    1,2,4: eapply table_inj; [exact Hwf|done..|]; rewrite <- Htab; by cases_in Hi.
    + destruct Wd as [Wt _]. apply elem_of_cons in Hi as [->|Hi]; [by destruct (Wt _ Hom)|].
      apply elem_of_cons in Hi as [->|Hi]; [by destruct (Wt _ Hom)|]. apply elem_of_cons in Hi as [->|Hi]; [by destruct (Wt _ Hom)|].
      apply elem_of_list_singleton in Hi as ->. eapply table_inj; [exact Hwf|done..].
    + exfalso. apply Hne. eapply table_inj; [exact Hwf|done..|]. rewrite <- Htab. by cases_in Hi.
  - exfalso. unfold ck_dep_triggers in Hi. destruct (dep_rel dp); cases_in Hi; simpl in Ha; cases_in Ha; destruct Hmk as [(?&?&[=])|(?&?&?&?&?&[=])].
  - exfalso. unfold agg_triggers in Hi. cases_in Hi; simpl in Ha; cases_in Ha; destruct Hmk as [(?&?&[=])|(?&?&?&?&?&[=])].
Qed.

Lemma other_type_unmarked m om ctc o d d' mk : b ≠ MySQL → m ∈ s_models S → om ∈ s_models S → m ≠ om →
  (∀ m', m' ∈ s_models S → ¬ upd_source S m' (m_table om)) →
  (∀ f fn ds sk dp, f ∈ m_fields m → f_kind f = KCallback fn ds sk → dp ∈ ds → find_model S (dep_other dp) = Some om →
     ∃ oidc, dep_rel dp = RelGenForward ctc oidc) →
  is_statement o (m_table om) → run_op E S o d = Ok d' →
  (∀ k, k ∈ stmt_keys o → ¬ before_or_after (m_table om) d d' k (λ r, col r ctc = VInt (m_ct m))) →
  mk.1 = m_ct m → mk ∈ d_dirty d' → mk ∈ d_dirty d.
Proof.
  intros Hb Hm Hom Hne Hnu Hgen Hs Ho Hrows Hct Hin.
  destruct (stmt_adds o (m_table om) d d' Hs (no_upd_ok _ Hnu) Ho) as (evs & Ap & (ms & Hms & Hadd) & Hkeys).
  rewrite Hms in Hin. apply elem_of_app in Hin as [Hin|Hin]; [done|exfalso].
  destruct (Hadd _ Hin) as (e & dx & He & it & a & Hit & Htab & Hev & Hc & Ha & Hmk).
  destruct (io_sound _ _ _ (E_inst b S rand imm depth E l HE Hl) _ Hit) as (tr1 & Htr1 & _ & Ht1 & Hev1 & Hcond & _ & Hacts).
  destruct (Hacts _ Ha) as (tr2 & Htr2 & Hn & Ha2).
  destruct (Hnames _ _ Htr2 Htr1 Hn) as (Hnt & Hne2 & Hgn). destruct (Hgn Hb) as [Hctf Hct2].
  assert (Htt : t_tab tr2 = m_table om) by (rewrite Hnt, <- Ht1, Htab; by apply (ap_tab _ _ _ _ Ap)).
  destruct (mark_origin m om tr2 a dx e mk Hm Hom Hne Htr2 Htt Ha2 Hmk Hct) as (f & fn & ds & sk & dp & Hf & Hk & Hdp & Hfo & Hi).
  destruct (Hgen _ _ _ _ _ Hf Hk Hdp Hfo) as (oidc & Hr).
  assert (Hcf : t_ctf tr2 = Some ctc ∧ t_ct tr2 = m_ct m).
  { unfold cb_dep_triggers in Hi. rewrite Hr in Hi. cases_in Hi; done. }
  destruct Hcf as [Hcf Hcc]. rewrite Hcf in Hctf. symmetry in Hctf.
  assert (Hct1 : t_ct tr1 = m_ct m) by (rewrite <- Hcc; symmetry; apply Hct2; by rewrite Hcf).
  pose proof (Hkeys _ He) as Hkk. apply Hrows in Hkk. destruct (ap_ev _ _ _ _ Ap _ He) as [Hold Hnew].
  assert (Hte : ev_tab e = m_table om) by (by apply (ap_tab _ _ _ _ Ap)).
  assert (Hpk : ctc ≠ e_pk E (m_table om)).
  { assert (Wd : wf_dep S m dp) by (eapply (wf_deps _ Hwf); [done|exact Hf|by unfold field_deps; rewrite Hk]).
    specialize (Wd _ Hfo). rewrite Hr in Wd. destruct Wd as [Wd _]. by eapply column_not_pk. }
  assert (HO : sql_eq (ref_val E e ROld ctc) (VInt (m_ct m)) = false).
  { apply not_true_is_false. intros Hq. apply Hkk. left. unfold ref_val in Hq. unfold ev_old in Hold.
    destruct (ev_row e ROld) as [r|]; [|done]. exists r. split; [done|]. rewrite Hte in Hq. unfold cell in Hq. rewrite decide_False in Hq by done.
    destruct (col r ctc) eqn:Hcol; try done. simpl in Hq. apply bool_decide_eq_true in Hq. by rewrite Hq. }
  assert (HN : sql_eq (ref_val E e RNew ctc) (VInt (m_ct m)) = false).
  { apply not_true_is_false. intros Hq. apply Hkk. right. unfold ref_val in Hq. unfold ev_new in Hnew.
    destruct (ev_row e RNew) as [r|]; [|done]. exists r. split; [done|]. rewrite Hte in Hq. unfold cell in Hq. rewrite decide_False in Hq by done.
    destruct (col r ctc) eqn:Hcol; try done. simpl in Hq. apply bool_decide_eq_true in Hq. by rewrite Hq. }
  unfold trig_cond in Hcond. rewrite Hctf in Hcond.
  destruct b; [| |done]; destruct (t_ev tr1);
    try (case_decide; [done|]); injection Hcond as Hcond; rewrite <- Hcond in Hc; cbn [cond_holds] in Hc;
    rewrite ?Hct1, ?HO, ?HN in Hc; rewrite ?andb_false_r in Hc; done.
Qed.
End silent.

(** ** What the condition of an update trigger computes, per backend *)
Lemma sql_eq_int v z : sql_eq v (VInt z) = true ↔ v = VInt z.
Proof. destruct v; simpl; [done| |done]. rewrite bool_decide_eq_true. done. Qed.
Lemma cond_exact E t k o n b tr c :
  t_ev tr = EvUpd → t_fields tr ≠ [] → trig_cond b tr = Ok c → (b = SQLite ∨ t_ctf tr = None) →
  let was := cell (e_pk E t) k o in let is := cell (e_pk E t) k n in
  cond_holds E (Ev t k (ChUpd o n)) c = true ↔
  (∃ f, f ∈ t_fields tr ∧ was f ≠ is f) ∧
  (∀ cf, t_ctf tr = Some cf → was cf = VInt (t_ct tr) ∨ is cf = VInt (t_ct tr)).
Proof.
  intros Hev Hne Hc Hb was is. unfold trig_cond in Hc. rewrite Hev in Hc.
  assert (Hd : c = match t_ctf tr with None => CFields (t_fields tr)
     | Some cf => CAnd (CFields (t_fields tr)) (COr (CCt ROld cf (t_ct tr)) (CCt RNew cf (t_ct tr))) end).
  { destruct Hb as [->|Hn]; [rewrite decide_False in Hc by done; by injection Hc|].
    rewrite Hn in *. destruct b; rewrite decide_False in Hc by done; by injection Hc. }
  rewrite Hd. destruct (t_ctf tr) as [cf|].
  - cbn [cond_holds]. rewrite andb_true_iff, orb_true_iff, !sql_eq_int.
    change (cond_holds E (Ev t k (ChUpd o n)) (CFields (t_fields tr)) = true ∧ (was cf = VInt (t_ct tr) ∨ is cf = VInt (t_ct tr)) ↔ 
       (∃ f, f ∈ t_fields tr ∧ was f ≠ is f) ∧ (∀ cf', Some cf = Some cf' → was cf' = VInt (t_ct tr) ∨ is cf' = VInt (t_ct tr))).
    rewrite cond_fields. split; [intros [A B]; split; [done|by intros ? [= <-]]|intros [A B]; split; [done|by apply B]].
  - rewrite cond_fields. naive_solver.
Qed.
Lemma cond_postgres E t k o n tr c cf :
  t_ev tr = EvUpd → t_fields tr ≠ [] → trig_cond Postgres tr = Ok c → t_ctf tr = Some cf →
  let was := cell (e_pk E t) k o in let is := cell (e_pk E t) k n in
  cond_holds E (Ev t k (ChUpd o n)) c = true ↔
  ((∃ f, f ∈ t_fields tr ∧ was f ≠ is f) ∧ was cf = VInt (t_ct tr)) ∨ is cf = VInt (t_ct tr).
Proof.
  intros Hev Hne Hc Hcf was is. unfold trig_cond in Hc. rewrite Hev, decide_False, Hcf in Hc by done. injection Hc as <-.
  cbn [cond_holds]. rewrite orb_true_iff, andb_true_iff, !sql_eq_int.
  change ((cond_holds E (Ev t k (ChUpd o n)) (CFields (t_fields tr)) = true ∧ was cf = VInt (t_ct tr)) ∨ is cf = VInt (t_ct tr) ↔
    ((∃ f, f ∈ t_fields tr ∧ was f ≠ is f) ∧ was cf = VInt (t_ct tr)) ∨ is cf = VInt (t_ct tr)).
  by rewrite cond_fields.
Qed.
Lemma cond_mysql E t k o n tr c :
  t_ev tr = EvUpd → t_fields tr ≠ [] → trig_cond MySQL tr = Ok c →
  let was := cell (e_pk E t) k o in let is := cell (e_pk E t) k n in
  cond_holds E (Ev t k (ChUpd o n)) c = true ↔ (∃ f, f ∈ t_fields tr ∧ was f ≠ is f).
Proof.
  intros Hev Hne Hc was is. unfold trig_cond in Hc. rewrite Hev, decide_False in Hc by done. injection Hc as <-. by rewrite cond_fields.
Qed.

(** ** Columns left out by every list are not watched *)
Lemma dep_resolves S l m f dp : wf_schema S → gen_all S = Ok l → m ∈ s_models S → f ∈ m_fields m → dp ∈ field_deps f →
  ∃ o, find_model S (dep_other dp) = Some o.
Proof.
  intros Hwf Hl Hm Hf Hd.
  assert (Hden : is_denorm f = true) by (unfold field_deps in Hd; unfold is_denorm; destruct (f_kind f); try done; by apply elem_of_nil in Hd).
  destruct (gen_all_ok S l m f Hl) as [lf Hlf]; [by apply alldenorms_elem|].
  unfold field_triggers in Hlf. unfold field_deps in Hd. destruct (f_kind f); try by apply elem_of_nil in Hd.
  - inv_bind Hlf. destruct (deps_triggers_spec _ _ _ _ _ Hlf0) as [H1 _]. destruct (H1 _ Hd) as (o & Ho & _). eauto.
  - destruct (deps_triggers_spec _ _ _ _ _ Hlf) as [H1 _]. destruct (H1 _ Hd) as (o & Ho & _). eauto.
Qed.
Lemma skipped_everywhere S l m c :
  wf_schema S → gen_all S = Ok l → m ∈ s_models S →
  (∀ cf ct, ¬ gen_on S (m_table m) cf ct) → (∀ sk, skip_on S m sk → skipped_by m sk c) → ¬ watched S (m_table m) c.
Proof.
  intros Hwf Hl Hm Hg Hsk Hw. remember (m_table m) as t eqn:Ht. destruct Hw as [m' sk f Hm' Hso Hf Hn|m' cf ct f Hm' Hgo Hf|m' f dp t c rc x Hm' Hf Hd Hr Hx].
  - apply Hn. assert (m' = m) as -> by (by eapply table_inj). by apply Hsk.
  - by eapply Hg.
  - assert (Hfo : ∃ o, find_model S (dep_other dp) = Some o) by (by eapply dep_resolves).
    destruct Hfo as [o Hfo]. pose proof (wf_deps _ Hwf _ _ _ Hm' Hf Hd _ Hfo) as Wd. rewrite Hr in Wd. destruct Wd as [Wt _].
    by apply (Wt _ Hm).
Qed.
Lemma always_skip_silent b S rand imm depth E l : wf_schema S → mk_env b S rand imm depth = Ok E → gen_all S = Ok l →
  ∀ m c v ks d d', m ∈ s_models S → (∀ cf ct, ¬ gen_on S (m_table m) cf ct) →
  c ∈ m_always_skip m → (∀ sk, skip_on S m sk → (sk = [] ∨ c ∈ sk) ∧ ¬ skipped_by m sk (m_pk m)) →
  run_op E S (OUpdate (m_table m) ks (λ r, <[c := v]> r)) d = Ok d' →
  rows_updated (m_table m) ks (λ r, <[c := v]> r) d d'.
Proof.
  intros Hwf HE Hl m c v ks d d' Hm Hg Hc Hsk Ho.
  assert (Hw : ¬ watched S (m_table m) c).
  { eapply skipped_everywhere; eauto. intros sk Hs. destruct (Hsk _ Hs) as [[->|Hin] _]; unfold skipped_by; case_decide; set_solver. }
  eapply (silent_update b S rand imm depth E l); eauto.
  - intros k r c' _ _ Hw'. rewrite col_insert_ne; [done|]. by intros ->.
  - intros _ m' sk Hm' Ht Hs. assert (m' = m) as -> by (by eapply table_inj). by apply Hsk.
Qed.
Lemma other_type_tk b S rand imm depth E rank m om ctc o d d' mk :
  mk_env b S rand imm depth = Ok E → trackable S rank imm b → b ≠ MySQL →
  m ∈ s_models S → om ∈ s_models S → m ≠ om →
  (∀ m', m' ∈ s_models S → ¬ upd_source S m' (m_table om)) →
  (∀ f fn ds sk dp, f ∈ m_fields m → f_kind f = KCallback fn ds sk → dp ∈ ds → find_model S (dep_other dp) = Some om →
     ∃ oidc, dep_rel dp = RelGenForward ctc oidc) →
  is_statement o (m_table om) → run_op E S o d = Ok d' →
  (∀ k, k ∈ stmt_keys o → ¬ before_or_after (m_table om) d d' k (λ r, col r ctc = VInt (m_ct m))) →
  mk.1 = m_ct m → mk ∈ d_dirty d' → mk ∈ d_dirty d.
Proof.
  intros HE Htk. destruct (mk_env_gen _ _ _ _ _ _ HE) as [l Hl]. destruct Htk.
  assert (Hn : names_ok b l) by by eapply names_apart_ok.
  by eapply (other_type_unmarked b S rand imm depth E l).
Qed.
