(** * What a callback sees of the instance being saved: the new values of the fields declared
    before its field, the caller's values of all others. *)
From Verif Require Import Base BaseLemmas Schema TrigSet Gen Exec Orm Engine Spec Invariant Settle.

(** A field changes its own column only. *)
Lemma presave_own E m add pk p g q c : presave_field E m add pk p g = Ok q → c ≠ f_col g → col q.2 c = col p.2 c.
Proof.
  intros H Hc. unfold presave_field in H. destruct (f_kind g).
  all: repeat first [progress inv_bind H | case_match | done]; injection H as <-; simpl; try done; by rewrite col_insert_ne.
Qed.
Lemma presave_fold_own E m add pk fs : ∀ p q c, foldM (presave_field E m add pk) p fs = Ok q → c ∉ f_col <$> fs → col q.2 c = col p.2 c.
Proof.
  induction fs as [|g fs IH]; intros p q c H Hc; simpl in H; [by injection H as <-|]. inv_bind H.
  rewrite fmap_cons in Hc. apply not_elem_of_cons in Hc as [Hc1 Hc2]. rewrite (IH _ _ _ H Hc2). by eapply presave_own.
Qed.
Lemma presave_seen_at E m add pk l1 f fn ds sk l2 d r q :
  m_fields m = l1 ++ f :: l2 → NoDup (f_col <$> m_fields m) → f_kind f = KCallback fn ds sk →
  presave_all E m add pk d r = Ok q →
  ∃ di ri pv, d_tabs di = d_tabs d ∧ fn di pk ri = Ok pv ∧ store_value f pv = Ok (col q.2 (f_col f)) ∧
    (∀ c, c ∈ f_col <$> l1 → col ri c = col q.2 c) ∧ (∀ c, c ∉ f_col <$> l1 → col ri c = col r c).
Proof.
  intros Hl Hnd Hk H. unfold presave_all in H. rewrite Hl in H, Hnd.
  rewrite fmap_app, fmap_cons in Hnd. apply NoDup_app in Hnd as (Hn1 & Hn12 & Hn2). apply NoDup_cons in Hn2 as [Hf3 Hn3].
  rewrite foldM_app in H. inv_bind H. destruct a as [di ri]. rewrite foldM_cons in H. inv_bind H.
  destruct a as [dj rj]. rename H0 into HA, H1 into HB, H into HC.
  pose proof HB as HB'. unfold presave_field in HB'. rewrite Hk in HB'. simpl in HB'. inv_bind HB'. inv_bind HB'. injection HB' as <- <-.
  exists di, ri, a. split; [exact (presave_fold_db E m _ _ _ _ _ HA)|]. split; [done|]. split_and!.
  - rewrite HB'1. f_equal. rewrite (presave_fold_own _ _ _ _ _ _ _ _ HC Hf3). simpl. symmetry. apply col_insert_eq.
  - intros c Hc. symmetry. change ri with ((di, ri).2) at 1. eapply (presave_fold_own E m add pk (f :: l2) (di, ri)).
    + rewrite foldM_cons, HB. exact HC.
    + intros Hc'. exact (Hn12 c Hc Hc').
  - intros c Hc. exact (presave_fold_own _ _ _ _ _ _ _ _ HA Hc).
Qed.
Lemma m2m_pre_save_none E m pk r d d1 : has_m2m_denorm m = false → m2m_pre_save E m pk r d = Ok d1 → d1 = d.
Proof.
  intros Hno H. unfold m2m_pre_save in H. destruct pk as [k|]; [|by injection H as <-]. case_decide; [by injection H as <-|].
  unfold has_m2m_denorm in Hno. revert d H Hno. induction (m_m2m m) as [|mm l IH]; intros d H Hno; simpl in H; [by injection H as <-|].
  simpl in Hno. destruct (mm_denorm mm); [done|]. simpl in H. by apply IH.
Qed.
Lemma save_seen E m k l1 f fn ds sk l2 d r r0 d' k' r' :
  m_fields m = l1 ++ f :: l2 → NoDup (f_col <$> m_fields m) → f_kind f = KCallback fn ds sk → has_m2m_denorm m = false →
  getrow d (m_table m) k = Some r0 → save E m (Some k) r d = Ok (d', k', r') →
  ∃ di ri pv, d_tabs di = d_tabs d ∧ fn di (Some k) ri = Ok pv ∧ store_value f pv = Ok (col r' (f_col f)) ∧
    (∀ c, c ∈ f_col <$> l1 → col ri c = col r' c) ∧ (∀ c, c ∉ f_col <$> l1 → col ri c = col r c).
Proof.
  intros Hl Hnd Hk Hno Hr0 H. unfold save in H. rewrite Hr0 in H. unfold save_existing in H. inv_bind H. inv_bind H0. inv_bind H0. inv_bind H0.
  injection H0 as <-. injection H as <- <- <-. apply m2m_pre_save_none in H1; [|done]. subst.
  eapply presave_seen_at; eauto.
Qed.
