(** * General facts about statement execution and trigger firing (Exec.v). *)
From Verif Require Import Base BaseLemmas Schema TrigSet Exec.

Section engine.
Context (E : env).

(** Column [c] of table [t] is written by some trigger. *)
Definition tw (t c : string) : Prop :=
  ∃ tr x w, tr ∈ e_trigs E ∧ AUpd t c x w ∈ i_acts tr.

Lemma expr_val_db e x d old v d' : expr_val E e x d old = Ok (v, d') → d' = d ∨ d' = tick_rnd d.
Proof.
  destruct x; simpl; intros H.
  - injection H as <- <-. by right.
  - inv_bind H. injection H as <- <-. by left.
  - inv_bind H. injection H as <- <-. by left.
  - inv_bind H. injection H as <- <-. by left.
  - inv_bind H. injection H as <- <-. by left.
Qed.

(** ** A preorder respected by marking and by single trigger updates is
    respected by everything a trigger does. *)
Section rel.
  Context (R : db → db → Prop).
  Context (Rrefl : ∀ d, R d d) (Rtrans : ∀ a b c, R a b → R b c → R a c).
  Context (Rmark : ∀ d l, R d (mark d l)).
  Context (Rupd : ∀ d d' t k c o v, tw t c → getrow d t k = Some o →
             d' = d ∨ d' = tick_rnd d → R d (put_row d' t k (<[c := v]> o))).

  Lemma upd_change_rel e d0 t c x w d ch d' evs :
    tw t c → ch ∈ upd_changes E e d0 t c x w →
    apply_change E t d ch = Ok (d', evs) → R d d'.
  Proof.
    intros Htw Hin H. apply elem_of_list_fmap in Hin as ([k r] & -> & _). simpl in H.
    destruct (getrow d t k) as [o|] eqn:Ho.
    - inv_bind H. inv_bind H0. injection H0 as <-. simpl in H.
      destruct a0 as [v d1]. simpl in H. apply expr_val_db in H1.
      case_match; [|done]. injection H as <- <-. by eapply Rupd.
    - injection H as <- <-. apply Rrefl.
  Qed.

  Lemma apply_all_rel t cs :
    (∀ d ch d' evs, ch ∈ cs → apply_change E t d ch = Ok (d', evs) → R d d') →
    ∀ d d' evs, apply_all E t cs d = Ok (d', evs) → R d d'.
  Proof.
    intros Hc d d' evs H. unfold apply_all in H.
    change (R (d, @nil event).1 (d', evs).1).
    eapply (foldM_rel (λ p q : db * list event, R p.1 q.1)); [..|exact H].
    - intros; apply Rrefl.
    - intros a b c; apply Rtrans.
    - intros [a l] ch [a' l'] Hch Ha. simpl in *. inv_bind Ha. injection Ha as <- <-.
      destruct a0. eapply Hc; eauto.
  Qed.

  Lemma run_batch_rel fr t cs :
    (∀ d e d', fr d e = Ok d' → R d d') →
    (∀ d ch d' evs, ch ∈ cs → apply_change E t d ch = Ok (d', evs) → R d d') →
    ∀ d d', run_batch E fr t cs d = Ok d' → R d d'.
  Proof.
    intros Hf Hc d d' H. unfold run_batch in H. inv_bind H. destruct a as [d1 evs]. simpl in H.
    eapply Rtrans; [eapply apply_all_rel; eauto|].
    eapply foldM_rel; [..|exact H]; eauto.
  Qed.

  Lemma run_stmt_rel fr t cs :
    (∀ d e d', fr d e = Ok d' → R d d') →
    (∀ d ch d' evs, ch ∈ cs → apply_change E t d ch = Ok (d', evs) → R d d') →
    ∀ d d', run_stmt E fr t cs d = Ok d' → R d d'.
  Proof.
    intros Hf Hc d d' H. unfold run_stmt in H.
    assert (Hsing : foldM (λ d c, run_batch E fr t [c] d) d cs = Ok d' → R d d').
    { clear H. intros H. eapply foldM_rel; [..|exact H]; eauto. intros a x a' Hx Ha.
      eapply run_batch_rel; [done| |exact Ha]. intros ???? ->%elem_of_list_singleton. eauto. }
    destruct (e_be E); eauto. eapply run_batch_rel; eauto.
  Qed.

  Lemma run_action_rel fr act e tr a :
    tr ∈ e_trigs E → a ∈ i_acts tr →
    (∀ d e d', fr d e = Ok d' → R d d') →
    ∀ d d', run_action E fr act e d a = Ok d' → R d d'.
  Proof.
    intros Htr Ha Hf d d' H. destruct a; simpl in H.
    - injection H as <-. apply Rmark.
    - injection H as <-. apply Rmark.
    - case_decide; [done|]. eapply run_stmt_rel; [done| |exact H].
      intros d1 ch d2 evs Hch Hap. eapply upd_change_rel; [|done|done]. by exists tr, e0, w.
  Qed.

  Lemma fire_rel n : ∀ act d e d', fire E n act d e = Ok d' → R d d'.
  Proof.
    induction n as [|n IH]; intros act d e d' H; [done|]. simpl in H.
    eapply foldM_rel; [..|exact H]; eauto.
    intros d1 tr d2 Htr H2. simpl in H2. case_match; [|by injection H2 as <-].
    eapply foldM_rel; [..|exact H2]; eauto. intros d3 a d4 Ha H4.
    eapply run_action_rel; eauto.
  Qed.
End rel.

(** ** Skeleton: which rows exist, and all columns no trigger writes. *)
Definition skel (d d' : db) : Prop := ∀ t k,
  match getrow d t k, getrow d' t k with
  | None, None => True
  | Some r, Some r' => ∀ c, ¬ tw t c → col r c = col r' c
  | _, _ => False
  end.
Lemma skel_refl d : skel d d.
Proof. intros t k. by destruct (getrow d t k). Qed.
Lemma skel_trans a b c : skel a b → skel b c → skel a c.
Proof.
  intros H1 H2 t k. specialize (H1 t k); specialize (H2 t k).
  destruct (getrow a t k), (getrow b t k), (getrow c t k); try done.
  intros x Hx. rewrite H1 by done. by apply H2.
Qed.
Lemma skel_sym a b : skel a b → skel b a.
Proof.
  intros H1 t k. specialize (H1 t k).
  destruct (getrow a t k), (getrow b t k); try done.
  intros x Hx. symmetry. by apply H1.
Qed.
Lemma skel_mark d l : skel d (mark d l).
Proof. intros t k. rewrite getrow_mark. by destruct (getrow d t k). Qed.
Lemma skel_upd d d' t k c o v : tw t c → getrow d t k = Some o →
  d' = d ∨ d' = tick_rnd d → skel d (put_row d' t k (<[c := v]> o)).
Proof.
  intros Htw Ho Hd t' k'. rewrite getrow_put.
  assert (getrow d' t' k' = getrow d t' k') as -> by (by destruct Hd; subst).
  case_decide as Hk.
  - destruct Hk as [-> ->]. rewrite Ho. intros c' Hc'. rewrite col_insert_ne; [done|]. naive_solver.
  - by destruct (getrow d t' k').
Qed.
Lemma fire_skel n act d e d' : fire E n act d e = Ok d' → skel d d'.
Proof.
  eapply fire_rel; eauto using skel_refl, skel_trans, skel_mark.
  intros. by eapply skel_upd.
Qed.

(** ** Markers only get appended. *)
Definition dmono (d d' : db) : Prop := ∃ l, d_dirty d' = d_dirty d ++ l.
Lemma dmono_refl d : dmono d d. Proof. exists []. by rewrite app_nil_r. Qed.
Lemma dmono_trans a b c : dmono a b → dmono b c → dmono a c.
Proof. intros [l H] [l' H']. exists (l ++ l'). by rewrite H', H, (assoc_L app). Qed.
Lemma dmono_in d d' mk : dmono d d' → mk ∈ d_dirty d → mk ∈ d_dirty d'.
Proof. intros [l ->]. rewrite elem_of_app. by left. Qed.
Lemma dmono_mark d l : dmono d (mark d l). Proof. by exists l. Qed.
Lemma dmono_eq d d' : d_dirty d' = d_dirty d → dmono d d'.
Proof. intros H. exists []. by rewrite app_nil_r. Qed.
(** A marker that was added. *)
Definition newly (d d' : db) (mk : marker) : Prop := ∃ ms, d_dirty d' = d_dirty d ++ ms ∧ mk ∈ ms.
Lemma newly_in d d' mk : newly d d' mk → mk ∈ d_dirty d'.
Proof. intros (ms & -> & Hin). apply elem_of_app. by right. Qed.
Lemma newly_l a b c mk : dmono a b → newly b c mk → newly a c mk.
Proof. intros [l Hl] (ms & Hc & Hin). exists (l ++ ms). rewrite Hc, Hl, app_assoc. split; [done|]. apply elem_of_app. by right. Qed.
Lemma newly_r a b c mk : newly a b mk → dmono b c → newly a c mk.
Proof. intros (ms & Hb & Hin) [l Hl]. exists (ms ++ l). rewrite Hl, Hb, app_assoc. split; [done|]. apply elem_of_app. by left. Qed.
Lemma newly_mark d l mk : mk ∈ l → newly d (mark d l) mk.
Proof. intros Hin. by exists l. Qed.
Lemma fire_dmono n act d e d' : fire E n act d e = Ok d' → dmono d d'.
Proof.
  eapply fire_rel; eauto using dmono_refl, dmono_trans, dmono_mark.
  intros d1 d2 t k c o v _ _ [-> | ->]; by apply dmono_eq.
Qed.

(** Row changes of a statement that themselves do not mark. *)
Definition ch_quiet (ch : change) : Prop :=
  match ch with CUpd _ f => ∀ d o p, f d o = Ok p → d_dirty p.2 = d_dirty d ∧ d_tabs p.2 = d_tabs d | _ => True end.
Lemma upd_changes_quiet e d t c x w ch : ch ∈ upd_changes E e d t c x w → ch_quiet ch.
Proof.
  intros Hin. apply elem_of_list_fmap in Hin as ([k r] & -> & _). simpl.
  intros d1 o p H. inv_bind H. injection H as <-. destruct a as [v d2]; simpl in *.
  by apply expr_val_db in H0 as [-> | ->].
Qed.
Lemma apply_change_dirty t d ch d' evs : ch_quiet ch → apply_change E t d ch = Ok (d', evs) → d_dirty d' = d_dirty d.
Proof.
  intros Hq H. destruct ch; simpl in *.
  - case_match; [done|]. case_match; [|done]. by injection H as <- <-.
  - case_match; [|by injection H as <- <-]. inv_bind H. case_match; [|done].
    injection H as <- <-. rewrite dirty_put. by apply Hq in H1 as [].
  - case_match; [|by injection H as <- <-]. case_match; [|done]. by injection H as <- <-.
Qed.
Lemma exec_dmono t cs d d' : Forall ch_quiet cs → exec E t cs d = Ok d' → dmono d d'.
Proof.
  intros Hq. eapply run_stmt_rel; eauto using dmono_refl, dmono_trans, fire_dmono.
  intros d1 ch d2 evs Hch Hap. apply dmono_eq. eapply apply_change_dirty; [|done].
  by eapply Forall_forall in Hq.
Qed.

(** ** What a batch of row changes does. *)
Definition ch_key (ch : change) : Z := match ch with CIns k _ | CUpd k _ | CDel k => k end.
Definition ev_old (e : event) : option row := ev_row e ROld.
Definition ev_new (e : event) : option row := ev_row e RNew.

(** [applied t d d1 evs]: the rows of table [t] differ between [d] and [d1]
    exactly as described by the events, at most one event per key. *)
Record applied (t : string) (d d1 : db) (evs : list event) : Prop := Applied {
  ap_tab : ∀ e, e ∈ evs → ev_tab e = t;
  ap_other : ∀ t' k, t' ≠ t → getrow d1 t' k = getrow d t' k;
  ap_ev : ∀ e, e ∈ evs → getrow d t (ev_key e) = ev_old e ∧ getrow d1 t (ev_key e) = ev_new e;
  ap_none : ∀ k, (∀ e, e ∈ evs → ev_key e ≠ k) → getrow d1 t k = getrow d t k
}.

Lemma apply_change_applied t d ch d' evs :
  ch_quiet ch → apply_change E t d ch = Ok (d', evs) →
  applied t d d' evs ∧ (∀ e, e ∈ evs → ev_key e = ch_key ch).
Proof.
  intros Hq H. destruct ch; simpl in *.
  - destruct (getrow d t k) eqn:Ho; [done|]. case_match; [|done]. injection H as <- <-.
    split; [|intros e ->%elem_of_list_singleton; done]. split.
    + intros e ->%elem_of_list_singleton; done.
    + intros. apply getrow_put_ne. naive_solver.
    + intros e ->%elem_of_list_singleton; simpl. split; [done|]. apply getrow_put_eq.
    + intros k' Hk. apply getrow_put_ne. intros [_ ->]. eapply Hk; [by left|done].
  - destruct (getrow d t k) eqn:Ho.
    + inv_bind H. case_match; [|done]. injection H as <- <-. apply Hq in H0 as [_ Hts].
      assert (Heq : ∀ t' k', getrow a.2 t' k' = getrow d t' k') by (intros; unfold getrow, tab; by rewrite Hts).
      split; [|intros e ->%elem_of_list_singleton; done]. split.
      * intros e ->%elem_of_list_singleton; done.
      * intros. rewrite getrow_put_ne by naive_solver. done.
      * intros e ->%elem_of_list_singleton; simpl. split; [done|]. apply getrow_put_eq.
      * intros k' Hk. rewrite getrow_put_ne; [done|]. intros [_ ->]. eapply Hk; [by left|done].
    + injection H as <- <-. split; [|by intros ? ?%elem_of_nil]. split; try by intros ? ?%elem_of_nil. all: done.
  - destruct (getrow d t k) eqn:Ho.
    + case_match; [|done]. injection H as <- <-.
      split; [|intros e ->%elem_of_list_singleton; done]. split.
      * intros e ->%elem_of_list_singleton; done.
      * intros. rewrite getrow_del, decide_False; [done|]. naive_solver.
      * intros e ->%elem_of_list_singleton; simpl. split; [done|]. rewrite getrow_del. by rewrite decide_True.
      * intros k' Hk. rewrite getrow_del, decide_False; [done|]. intros [_ ->]. eapply Hk; [by left|done].
    + injection H as <- <-. split; [|by intros ? ?%elem_of_nil]. split; try by intros ? ?%elem_of_nil. all: done.
Qed.

Lemma apply_all_cons t c cs d :
  apply_all E t (c :: cs) d =
  rbind (apply_change E t d c) (λ p, rbind (apply_all E t cs p.1) (λ q, Ok (q.1, p.2 ++ q.2))).
Proof.
  unfold apply_all. rewrite foldM_cons. simpl.
  destruct (apply_change E t d c) as [[d1 e1]|]; simpl; [|done].
  assert (Hg : ∀ l p, foldM (λ p c, rbind (apply_change E t p.1 c) (λ q, Ok (q.1, p.2 ++ q.2))) (p, l) cs =
     rbind (foldM (λ p c, rbind (apply_change E t p.1 c) (λ q, Ok (q.1, p.2 ++ q.2))) (p, []) cs)
       (λ q, Ok (q.1, l ++ q.2))); [|apply Hg].
  clear. induction cs as [|c cs IH]; intros l p; simpl; [by rewrite app_nil_r|].
  destruct (apply_change E t p c) as [[d1 e1]|]; simpl; [|done].
  rewrite IH, (IH e1). destruct (foldM _ _ _) as [[? ?]|]; simpl; [|done]. by rewrite (assoc_L app).
Qed.

Lemma apply_all_applied t cs : ∀ d d' evs,
  Forall ch_quiet cs → NoDup (ch_key <$> cs) → apply_all E t cs d = Ok (d', evs) →
  applied t d d' evs ∧ (∀ e, e ∈ evs → ev_key e ∈ ch_key <$> cs) ∧ d_dirty d' = d_dirty d.
Proof.
  induction cs as [|c cs IH]; intros d d' evs Hq Hnd H.
  { injection H as <- <-. split; [|split; [by intros ? ?%elem_of_nil|done]].
    split; try by intros ? ?%elem_of_nil. all: done. }
  rewrite apply_all_cons in H. inv_bind H. destruct a as [d1 e1]. simpl in H. inv_bind H.
  destruct a as [d2 e2]. simpl in H. injection H as <- <-.
  apply Forall_cons in Hq as [Hq1 Hq2]. rewrite fmap_cons in Hnd. apply NoDup_cons in Hnd as [Hn1 Hn2].
  destruct (apply_change_applied _ _ _ _ _ Hq1 H0) as [A1 K1].
  destruct (IH _ _ _ Hq2 Hn2 H1) as (A2 & K2 & D2).
  split; [|split; [
    intros e [He|He]%elem_of_app; rewrite fmap_cons; [rewrite (K1 _ He); left|right; eauto]
   |rewrite D2; by eapply apply_change_dirty]].
  split.
  - intros e [He|He]%elem_of_app; [apply (ap_tab _ _ _ _ A1 _ He)|apply (ap_tab _ _ _ _ A2 _ He)].
  - intros t' k Ht. rewrite (ap_other _ _ _ _ A2) by done. by apply (ap_other _ _ _ _ A1).
  - intros e [He|He]%elem_of_app.
    + destruct (ap_ev _ _ _ _ A1 _ He) as [H2 H3]. split; [done|]. rewrite <- H3.
      apply (ap_none _ _ _ _ A2). intros e' He' Hk. apply K2 in He'. rewrite Hk, (K1 _ He) in He'. done.
    + destruct (ap_ev _ _ _ _ A2 _ He) as [H2 H3]. split; [|done]. rewrite <- H2. symmetry.
      apply (ap_none _ _ _ _ A1). intros e' He' Hk. apply K1 in He'. apply K2 in He. rewrite <- Hk, He' in He. done.
  - intros k Hk. rewrite (ap_none _ _ _ _ A2), (ap_none _ _ _ _ A1); [done|..].
    all: intros e He; apply Hk; set_solver.
Qed.

Lemma upd_changes_nodup e d t c x w : NoDup (ch_key <$> upd_changes E e d t c x w).
Proof.
  unfold upd_changes. rewrite <- list_fmap_compose.
  rewrite (list_fmap_ext _ fst) by done.
  apply NoDup_fmap_fst.
  - intros k r1 r2 H1 H2. apply elem_of_list_filter in H1 as [_ H1]. apply elem_of_list_filter in H2 as [_ H2].
    apply elem_of_map_to_list in H1, H2. congruence.
  - apply NoDup_filter, NoDup_map_to_list.
Qed.

(** ** Markers due to an event. *)
Definition act_marks (d : db) (e : event) (a : action) : list marker :=
  match a with
  | AMark ct rf c => [(ct, to_text (ref_val E e rf c))]
  | AMarkSel ct t sc wc rf rc => (λ v, (ct, to_text v)) <$> select_col E d t sc wc (ref_val E e rf rc)
  | AUpd _ _ _ _ => []
  end.
Definition due (d : db) (e : event) (mk : marker) : Prop :=
  ∃ tr a, tr ∈ e_trigs E ∧ i_tab tr = ev_tab e ∧ i_ev tr = ev_kind e ∧
          cond_holds E e (i_cond tr) = true ∧ a ∈ i_acts tr ∧ mk ∈ act_marks d e a.

(** The columns used in nested selects are never written by triggers. *)
Definition stable_sel : Prop := ∀ tr ct t sc wc rf rc,
  tr ∈ e_trigs E → AMarkSel ct t sc wc rf rc ∈ i_acts tr →
  (sc = e_pk E t ∨ ¬ tw t sc) ∧ (wc = e_pk E t ∨ ¬ tw t wc).

Lemma select_col_spec d t sc wc v x :
  x ∈ select_col E d t sc wc v ↔
  ∃ k r, getrow d t k = Some r ∧ sql_eq (cell (e_pk E t) k r wc) v = true ∧ x = cell (e_pk E t) k r sc.
Proof.
  unfold select_col. rewrite elem_of_remove_dups, elem_of_list_fmap. split.
  - intros ([k r] & -> & [H1 H2]%elem_of_list_filter). apply elem_of_map_to_list in H2. by exists k, r.
  - intros (k & r & H1 & H2 & ->). exists (k, r). split; [done|]. apply elem_of_list_filter.
    split; [done|]. by apply elem_of_map_to_list.
Qed.

Lemma skel_cell d d' t k r c : skel d d' → getrow d t k = Some r → (c = e_pk E t ∨ ¬ tw t c) →
  ∃ r', getrow d' t k = Some r' ∧ cell (e_pk E t) k r' c = cell (e_pk E t) k r c.
Proof.
  intros Hs Hr Hc. specialize (Hs t k). rewrite Hr in Hs. destruct (getrow d' t k) as [r'|]; [|done].
  exists r'. split; [done|]. unfold cell. case_decide; [done|]. symmetry. apply Hs. naive_solver.
Qed.

Lemma select_col_skel d d' t sc wc v x : skel d d' →
  (sc = e_pk E t ∨ ¬ tw t sc) → (wc = e_pk E t ∨ ¬ tw t wc) →
  x ∈ select_col E d t sc wc v → x ∈ select_col E d' t sc wc v.
Proof.
  intros Hs Hsc Hwc. rewrite !select_col_spec. intros (k & r & H1 & H2 & ->).
  pose proof (skel_cell _ _ _ _ _ _ Hs H1 Hsc) as (r' & Hr' & Es).
  pose proof (skel_cell _ _ _ _ _ _ Hs H1 Hwc) as (r'' & Hr'' & Ew).
  assert (r' = r'') by congruence; subst. exists k, r''. by rewrite Ew, Es.
Qed.

Lemma due_skel d d' e mk : stable_sel → skel d d' → due d e mk → due d' e mk.
Proof.
  intros Hst Hs (tr & a & H1 & H2 & H3 & H4 & H5 & H6). exists tr, a. split_and!; [done..|].
  destruct a; simpl in *; [done| |done].
  apply elem_of_list_fmap in H6 as (v & -> & Hv). apply elem_of_list_fmap. exists v. split; [done|].
  destruct (Hst _ _ _ _ _ _ _ H1 H5). by eapply select_col_skel.
Qed.

(** No installed trigger on the event's table is currently running. *)
Definition unblocked (act : actives) (t : string) : Prop :=
  e_be E = SQLite → ∀ tr, tr ∈ e_trigs E → i_tab tr = t → i_name tr ∉ act.*1.

Lemma fire_due n act d e d' mk : stable_sel → unblocked act (ev_tab e) →
  fire E n act d e = Ok d' → due d e mk → newly d d' mk.
Proof.
  intros Hst Hub H Hdue. destruct n as [|n]; [done|]. simpl in H.
  destruct Hdue as (tr & a & Htr & Ht & Hev & Hc & Ha & Hmk).
  set (R := λ d d', skel d d' ∧ dmono d d').
  assert (Rr : ∀ d, R d d) by (split; auto using skel_refl, dmono_refl).
  assert (Rt : ∀ a b c, R a b → R b c → R a c).
  { intros ??? [] []. split; eauto using skel_trans, dmono_trans. }
  assert (Rm : ∀ d l, R d (mark d l)) by (split; auto using skel_mark, dmono_mark).
  assert (Ru : ∀ d d' t k c o v, tw t c → getrow d t k = Some o → d' = d ∨ d' = tick_rnd d → R d (put_row d' t k (<[c := v]> o))).
  { intros d1 d2 t k c o v H1 H2 H3. split; [by eapply skel_upd|]. apply dmono_eq. by destruct H3; subst. }
  destruct (λ Hs, foldM_elem R _ _ tr Rr Rt Hs Htr _ _ H) as (b & b' & Rb & Hb & Rb').
  { intros d1 tr' d2 Htr' H2. simpl in H2. case_match; [|by injection H2 as <-].
    eapply foldM_rel; [exact Rr|exact Rt| |exact H2]. intros d3 a' d4 Ha' H4.
    eapply run_action_rel; eauto. intros. eapply fire_rel; eauto. }
  simpl in Hb.
  assert (trig_applies E act e tr = true) as Happ.
  { unfold trig_applies. rewrite !bool_decide_true by done. rewrite Hc. simpl. rewrite andb_true_r.
    apply negb_true_iff, andb_false_iff. destruct (decide (e_be E = SQLite)) as [Hb'|Hb'].
    - right. apply bool_decide_false. by apply Hub.
    - left. by apply bool_decide_false. }
  rewrite Happ in Hb.
  destruct (λ Hs, foldM_elem R _ _ a Rr Rt Hs Ha _ _ Hb) as (g & g' & Rg & Hg & Rg').
  { intros d1 a' d2 Ha' H2. eapply run_action_rel; eauto. intros. eapply fire_rel; eauto. }
  eapply newly_r; [|apply Rb']. eapply newly_r; [|apply Rg']. eapply newly_l; [apply Rb|]. eapply newly_l; [apply Rg|].
  assert (due g e mk) as Hd.
  { eapply due_skel; [done| |]. { eapply skel_trans; [apply Rb|apply Rg]. } by exists tr, a. }
  assert (mk ∈ act_marks g e a).
  { destruct a; simpl in *; [done| |done].
    apply elem_of_list_fmap in Hmk as (v & -> & Hv). apply elem_of_list_fmap. exists v. split; [done|].
    destruct (Hst _ _ _ _ _ _ _ Htr Ha). eapply select_col_skel; [|done|done|exact Hv].
    eapply skel_trans; [apply Rb|apply Rg]. }
  destruct a; simpl in *; try (by apply elem_of_nil in H0).
  - injection Hg as <-. by apply newly_mark.
  - injection Hg as <-. by apply newly_mark.
Qed.

(** ** Acyclic trigger updates. *)
Definition acyclic (rank : string → nat) : Prop := ∀ tr t c x w,
  tr ∈ e_trigs E → AUpd t c x w ∈ i_acts tr → (rank t < rank (i_tab tr))%nat.
Definition names_unique : Prop := ∀ tr tr', tr ∈ e_trigs E → tr' ∈ e_trigs E → i_name tr = i_name tr' → i_tab tr = i_tab tr'.

Definition act_above (rank : string → nat) (act : actives) (t : string) : Prop :=
  ∀ nm, nm ∈ act.*1 → ∃ tr, tr ∈ e_trigs E ∧ i_name tr = nm ∧ (rank t < rank (i_tab tr))%nat.
Lemma act_above_unblocked rank act t : names_unique → act_above rank act t → unblocked act t.
Proof.
  intros Hnu Ha _ tr Htr Ht Hin. destruct (Ha _ Hin) as (tr' & Htr' & Hn & Hr).
  rewrite (Hnu _ _ Htr' Htr Hn) in Hr. subst. lia.
Qed.

(** ** Views.  A view function observed by a marker: whenever a batch of row
    changes alters the view, one of its events makes the marker due. *)
Section views.
  Context {V : Type} `{EqDecision V} (view : db → option V) (mk : marker).
  Context (I : db → Prop).                       (** an invariant of states *)
  Context (okc : string → change → Prop).        (** the changes that keep it *)
  Definition observed : Prop := ∀ t d d1 evs,
    I d → I d1 → applied t d d1 evs → view d1 ≠ view d → view d1 ≠ None →
    ∃ e, e ∈ evs ∧ due d1 e mk.
  Definition noticed (d d' : db) : Prop := view d' ≠ view d → view d' ≠ None → newly d d' mk.

  Context (Hst : stable_sel) (Hobs : observed).
  Context (Oquiet : ∀ t ch, okc t ch → ch_quiet ch).
  Context (Oupd : ∀ e d t c x w ch, tw t c → ch ∈ upd_changes E e d t c x w → okc t ch).
  Context (Iapply : ∀ t d ch d' evs, okc t ch → I d → apply_change E t d ch = Ok (d', evs) → I d').
  Context (Idirty : ∀ d l, I d → I (set_dirty d l)).
  Context (Vdirty : ∀ d l, view (set_dirty d l) = view d).

  Lemma noticed_refl d : noticed d d.
  Proof. by intros H. Qed.
  Lemma noticed_trans a b c : dmono a b → dmono b c → noticed a b → noticed b c → noticed a c.
  Proof.
    intros Hm0 Hm H1 H2 Hne Hnn. destruct (decide (view c = view b)) as [Heq|Hne']; [|eapply newly_l; [done|by apply H2]].
    eapply newly_r; [|done]. apply H1; congruence.
  Qed.

  Lemma apply_all_I t cs d d' evs : Forall (okc t) cs → I d → apply_all E t cs d = Ok (d', evs) → I d'.
  Proof.
    intros Hq Hi H. revert d Hi evs H. induction cs as [|c cs IH]; intros d Hi evs H.
    { by injection H as <- <-. }
    apply Forall_cons in Hq as [Hq1 Hq2].
    rewrite apply_all_cons in H. inv_bind H. destruct a. simpl in H. inv_bind H. destruct a. simpl in H.
    injection H as <- <-. eapply IH; [done| |done]. by eapply Iapply.
  Qed.

  (** [good d d']: the invariant is kept, markers grow, view changes are noticed. *)
  Definition good (d d' : db) : Prop := I d → I d' ∧ dmono d d' ∧ skel d d' ∧ noticed d d'.
  Lemma good_refl d : good d d.
  Proof. intros Hi. split_and!; auto using dmono_refl, skel_refl, noticed_refl. Qed.
  Lemma good_trans a b c : good a b → good b c → good a c.
  Proof.
    intros H1 H2 Hi. destruct (H1 Hi) as (I1 & D1 & S1 & N1). destruct (H2 I1) as (I2 & D2 & S2 & N2).
    split_and!; eauto using dmono_trans, skel_trans, noticed_trans.
  Qed.

  Lemma run_batch_noticed fr t cs d d' :
    Forall (okc t) cs → NoDup (ch_key <$> cs) →
    (∀ d e d', ev_tab e = t → fr d e = Ok d' → good d d') →
    (∀ d e d', ev_tab e = t → fr d e = Ok d' → due d e mk → newly d d' mk) →
    run_batch E fr t cs d = Ok d' → I d → I d' ∧ dmono d d' ∧ noticed d d'.
  Proof.
    intros Hq Hnd Hfr Hdue H Hi. unfold run_batch in H. inv_bind H. destruct a as [d1 evs]. simpl in H.
    assert (Hq' : Forall ch_quiet cs) by (eapply Forall_impl; [exact Hq|]; intros; by eapply Oquiet).
    destruct (apply_all_applied _ _ _ _ _ Hq' Hnd H0) as (Ap & _ & Hd1).
    pose proof (apply_all_I _ _ _ _ _ Hq Hi H0) as Hi1.
    assert (Hg : good d1 d').
    { eapply foldM_rel; [apply good_refl|apply good_trans| |exact H]. intros a e a' He. apply Hfr.
      by apply (ap_tab _ _ _ _ Ap). }
    destruct (Hg Hi1) as (Hi' & Hm & Hs & Hn).
    split_and!; [done|eapply dmono_trans; [by apply dmono_eq|done]|].
    intros Hne Hnn. destruct (decide (view d' = view d1)) as [Heq|]; [|eapply newly_l; [by apply dmono_eq|by apply Hn]].
    edestruct Hobs as (e & He & Hde); [exact Hi|exact Hi1|exact Ap|congruence|congruence|].
    apply elem_of_list_split in He as (l1 & l2 & ->).
    rewrite foldM_app in H. inv_bind H. simpl in H. inv_bind H.
    assert (Hg1 : good d1 a).
    { eapply foldM_rel; [apply good_refl|apply good_trans| |exact H1]. intros ?? ??. apply Hfr.
      apply (ap_tab _ _ _ _ Ap). set_solver. }
    destruct (Hg1 Hi1) as (Hia & _ & Hsa & _).
    assert (Hte : ev_tab e = t) by (apply (ap_tab _ _ _ _ Ap); set_solver).
    assert (Hin : newly a a0 mk).
    { eapply Hdue; [done|done|]. by eapply due_skel. }
    assert (Hia0 : I a0). { by apply (Hfr _ _ _ Hte H2). }
    destruct (Hg1 Hi1) as (_ & Hda & _). eapply newly_l; [eapply dmono_trans; [by apply dmono_eq|exact Hda]|].
    eapply newly_r; [exact Hin|].
    assert (good a0 d') as Hg2.
    { eapply foldM_rel; [apply good_refl|apply good_trans| |exact H]. intros ?? ??. apply Hfr.
      apply (ap_tab _ _ _ _ Ap). set_solver. }
    by apply Hg2.
  Qed.

  Lemma run_stmt_noticed fr t cs d d' :
    Forall (okc t) cs → NoDup (ch_key <$> cs) →
    (∀ d e d', ev_tab e = t → fr d e = Ok d' → good d d') →
    (∀ d e d', ev_tab e = t → fr d e = Ok d' → due d e mk → newly d d' mk) →
    run_stmt E fr t cs d = Ok d' → I d → I d' ∧ dmono d d' ∧ noticed d d'.
  Proof.
    intros Hq Hnd Hfr Hdue H. unfold run_stmt in H.
    assert (Hsing : foldM (λ d c, run_batch E fr t [c] d) d cs = Ok d' → I d → I d' ∧ dmono d d' ∧ noticed d d').
    { clear H. intros H. revert H. apply (foldM_rel (λ d d', I d → I d' ∧ dmono d d' ∧ noticed d d')).
      - intros; split_and!; auto using dmono_refl, noticed_refl.
      - intros a b c H1 H2 Hi. destruct (H1 Hi) as (I1 & D1 & N1). destruct (H2 I1) as (I2 & D2 & N2).
        split_and!; eauto using dmono_trans, noticed_trans.
      - intros a x a' Hx Ha. eapply run_batch_noticed; [| |done|done|exact Ha].
        + apply Forall_singleton. by eapply Forall_forall in Hq.
        + apply NoDup_singleton. }
    destruct (e_be E); eauto. eapply run_batch_noticed; eauto.
  Qed.

  Context (rank : string → nat) (Hnu : names_unique).
  Context (Hac : e_be E = SQLite → acyclic rank).

  Lemma fire_good n : ∀ act d e d',
    (e_be E = SQLite → act_above rank act (ev_tab e)) →
    fire E n act d e = Ok d' → good d d'.
  Proof.
    induction n as [|n IH]; intros act d e d' Hact H; [done|].
    assert (Hskel : skel d d') by by eapply fire_skel.
    simpl in H.
    cut (I d → I d' ∧ dmono d d' ∧ noticed d d').
    { intros Hc Hi. destruct (Hc Hi) as (?&?&?). split_and!; done. }
    clear Hskel. revert H. apply (foldM_rel (λ d d', I d → I d' ∧ dmono d d' ∧ noticed d d')).
    { intros; split_and!; auto using dmono_refl, noticed_refl. }
    { intros a b c H1 H2 Hi. destruct (H1 Hi) as (I1 & D1 & N1). destruct (H2 I1) as (I2 & D2 & N2).
      split_and!; eauto using dmono_trans, noticed_trans. }
    intros a tr a' Htr H. destruct (trig_applies E act e tr) eqn:Happ.
    2:{ injection H as <-. intros; split_and!; auto using dmono_refl, noticed_refl. }
    assert (i_tab tr = ev_tab e) as Htab.
    { unfold trig_applies in Happ. apply andb_true_iff in Happ as [Happ _].
      apply andb_true_iff in Happ as [Happ _]. apply andb_true_iff in Happ as [Happ _].
      by apply bool_decide_eq_true in Happ. }
    clear Happ. revert H. apply (foldM_rel (λ d d', I d → I d' ∧ dmono d d' ∧ noticed d d')).
    { intros; split_and!; auto using dmono_refl, noticed_refl. }
    { intros x b c H1 H2 Hi. destruct (H1 Hi) as (I1 & D1 & N1). destruct (H2 I1) as (I2 & D2 & N2).
      split_and!; eauto using dmono_trans, noticed_trans. }
    intros b ac b' Hac' H Hi. destruct ac; simpl in H.
    - injection H as <-. split_and!; [by apply Idirty|apply dmono_mark|].
      intros Hne Hnn. exfalso. apply Hne. apply Vdirty.
    - injection H as <-. split_and!; [by apply Idirty|apply dmono_mark|].
      intros Hne Hnn. exfalso. apply Hne. apply Vdirty.
    - case_decide; [done|].
      assert (Hact' : e_be E = SQLite → act_above rank ((i_name tr, i_tab tr) :: act) t).
      { intros Hsq nm Hnm. simpl in Hnm. pose proof (Hac Hsq _ _ _ _ _ Htr Hac') as Hlt.
        apply elem_of_cons in Hnm as [->|Hnm]; [by exists tr|].
        destruct (Hact Hsq _ Hnm) as (tr' & ? & ? & ?). exists tr'. split_and!; [done..|].
        rewrite Htab in Hlt. lia. }
      eapply run_stmt_noticed; [..|exact H|done].
      + apply Forall_forall. intros ch Hch. eapply Oupd; [|exact Hch]. by exists tr, e0, w.
      + apply upd_changes_nodup.
      + intros d1 e1 d2 Ht1 Hf1. eapply IH; [|exact Hf1]. by rewrite Ht1.
      + intros d1 e1 d2 Ht1 Hf1 Hd1. eapply fire_due; [done| |exact Hf1|done].
        intros Hsq. rewrite Ht1. eapply act_above_unblocked; eauto.
  Qed.

  Lemma act_above_nil t : act_above rank [] t.
  Proof. intros nm. by intros ?%elem_of_nil. Qed.

  (** Every statement keeps the invariant, and every change of the view is noticed. *)
  Lemma exec_noticed t cs d d' :
    Forall (okc t) cs → NoDup (ch_key <$> cs) →
    exec E t cs d = Ok d' → I d → I d' ∧ dmono d d' ∧ noticed d d'.
  Proof.
    intros Hq Hnd H. eapply run_stmt_noticed; [done|done| | |exact H].
    - intros ????. apply fire_good. auto using act_above_nil.
    - intros d1 e1 d2 Ht1 Hf1 Hd1. eapply fire_due; [done| |exact Hf1|done].
      intros Hsq. eapply act_above_unblocked; eauto using act_above_nil.
  Qed.
End views.
End engine.
