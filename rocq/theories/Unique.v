(** * With acyclic value dependencies the user's data determine all computed values. *)
From Verif Require Import Base BaseLemmas Schema TrigSet Gen Exec Spec SpecAgg SpecOrder Engine GenLemmas Marking.

Section unique.
Context (S : schema) (Hwf : wf_schema S) (Hnod : no_m2m_denorm S).

Lemma stores_det f pv v1 v2 : stores f pv v1 → stores f pv v2 → v1 = v2.
Proof. destruct pv; simpl; [congruence|]. intros [_ ->] [_ ->]. done. Qed.

Lemma same_rows_get t P d d' k r' : same_rows t P d d' → getrow d' t k = Some r' →
  ∃ r, getrow d t k = Some r ∧ ∀ c, P c → col r c = col r' c.
Proof. intros H Hr. specialize (H k). rewrite Hr in H. destruct (getrow d t k) as [r|]; [|done]. by exists r. Qed.

(** ** The rows a callback sees are determined by the cells it reads *)
Section view.
  Context (d0 d d' : db) (K : user_data_kept S d0 d) (K' : user_data_kept S d0 d').
  Context (m : model) (f : field) (fn : callback) (ds : list dep) (sk : list string).
  Context (Hm : m ∈ s_models S) (Hf : f ∈ m_fields m) (Hk : f_kind f = KCallback fn ds sk).
  Context (k : Z) (r0 r r' : row) (rd : reads) (Hds : ∀ dp cs, (dp, cs) ∈ rd_via rd → dp ∈ ds).
  Context (Hplain : ∀ c, plain_col m c → col r0 c = col r c).
  Context (Hown : ∀ c, c ∈ own_cols rd → col r c = col r' c).
  Context (Hvia : ∀ o j c, o ∈ s_models S → reads_cell S d0 m rd k r0 o j c → agree_cell d d' o j c).

  Lemma both o j : o ∈ s_models S →
    match getrow d0 (m_table o) j, getrow d (m_table o) j, getrow d' (m_table o) j with
    | None, None, None => True
    | Some z, Some x, Some y => ∀ c, plain_col o c → col z c = col x c ∧ col z c = col y c
    | _, _, _ => False
    end.
  Proof using K K'.
    intros Ho. destruct K as [A _], K' as [A' _]. specialize (A o Ho j). specialize (A' o Ho j).
    destruct (getrow d0 (m_table o) j), (getrow d (m_table o) j), (getrow d' (m_table o) j); try done. auto.
  Qed.
  Lemma cols_agree o j cs : o ∈ s_models S → (∀ c, c ∈ cs → agree_cell d d' o j c) →
    cols_of cs <$> getrow d (m_table o) j = cols_of cs <$> getrow d' (m_table o) j.
  Proof using K K'.
    intros Ho Hc. pose proof (both o j Ho) as B. unfold agree_cell in Hc.
    destruct (getrow d0 (m_table o) j), (getrow d (m_table o) j) as [x|], (getrow d' (m_table o) j) as [y|]; try done.
    simpl. f_equal. apply fmap_ext_in. intros c Hin. by apply Hc.
  Qed.
  Lemma link_same t : (∀ m', m' ∈ s_models S → t ≠ m_table m') → ∀ l,
    match getrow d0 t l, getrow d t l, getrow d' t l with
    | None, None, None => True
    | Some z, Some x, Some y => ∀ c, col z c = col x c ∧ col z c = col y c
    | _, _, _ => False
    end.
  Proof using K K' Hnod.
    intros Ht l. destruct K as [_ A], K' as [_ A'].
    assert (Hnl : ¬ denorm_link_table S t). { intros (m' & mm & Hm' & Hmm & _ & Hd). by rewrite (Hnod _ _ Hm' Hmm) in Hd. }
    assert (Hnt : ∀ m', m' ∈ s_models S → m_table m' ≠ t). { intros m' Hm' <-. by eapply Ht. }
    specialize (A t Hnt Hnl l). specialize (A' t Hnt Hnl l).
    destruct (getrow d0 t l), (getrow d t l), (getrow d' t l); try done. auto.
  Qed.

  Lemma view_agree dp cs : (dp, cs) ∈ rd_via rd → dep_view S m d k r dp cs = dep_view S m d' k r' dp cs.
  Proof.
    intros Hin. unfold dep_view. destruct (find_model S (dep_other dp)) as [o|] eqn:Hfo; [|done].
    destruct (find_model_in _ _ _ Hfo) as [Ho _].
    assert (Hdpf : dp ∈ field_deps f) by (unfold field_deps; rewrite Hk; by eapply Hds).
    pose proof (wf_deps _ Hwf _ _ _ Hm Hf Hdpf _ Hfo) as Wd.
    destruct (dep_rel dp) as [fk|fk|t lc rc|ctc oidc|ctc oidc] eqn:Hrl; [..|done].
    - f_equal. assert (Hfk : fk ∈ own_cols rd).
      { unfold own_cols. apply elem_of_app. right. apply elem_of_list_omap. exists (dp, cs). simpl. by rewrite Hrl. }
      rewrite <- (Hown _ Hfk). destruct (col r fk) as [|j|] eqn:Hj; [done| |done].
      apply cols_agree; [done|]. intros c Hc. apply Hvia; [done|]. eapply rc_fwd; eauto. intros Hp. by rewrite Hplain.
    - f_equal. apply map_eq. intros j. rewrite !lookup_omap. fold (getrow d (m_table o) j) (getrow d' (m_table o) j).
      pose proof (both o j Ho) as B.
      destruct (getrow d0 (m_table o) j) as [z|] eqn:Hz, (getrow d (m_table o) j) as [x|] eqn:Hx,
        (getrow d' (m_table o) j) as [y|] eqn:Hy; try done. simpl.
      assert (Hc : col x fk = VInt k ∨ col y fk = VInt k → ∀ c, c ∈ fk :: cs → col x c = col y c).
      { intros Hor c Hc. apply (Hvia o j c); [done| |done|done]. eapply rc_bwd; eauto. intros Hp. destruct (B _ Hp) as [B1 B2].
        destruct Hor; congruence. }
      destruct (decide (col x fk = VInt k)) as [H1|H1], (decide (col y fk = VInt k)) as [H2|H2]; try done.
      + f_equal. apply fmap_ext_in. intros c Hin'. apply Hc; [by left|by right].
      + exfalso. apply H2. rewrite <- H1. symmetry. apply Hc; [by left|left].
      + exfalso. apply H1. rewrite <- H2. apply Hc; [by right|left].
    - f_equal. apply map_eq. intros l. rewrite !lookup_omap. fold (getrow d t l) (getrow d' t l).
      destruct Wd as (Wt & _). pose proof (link_same t Wt l) as B.
      destruct (getrow d0 t l) as [z|] eqn:Hz, (getrow d t l) as [x|] eqn:Hx, (getrow d' t l) as [y|] eqn:Hy; try done. simpl.
      destruct (B lc) as [E1 E2], (B rc) as [E3 E4]. rewrite <- E1, <- E2, <- E3, <- E4. case_decide as Hlc; [|done]. do 2 f_equal.
      destruct (col z rc) as [|j|] eqn:Hj; [done| |done]. apply cols_agree; [done|]. intros c Hc. apply Hvia; [done|]. by eapply rc_m2m.
    - f_equal. apply map_eq. intros j. rewrite !lookup_omap. fold (getrow d (m_table o) j) (getrow d' (m_table o) j).
      pose proof (both o j Ho) as B.
      destruct (getrow d0 (m_table o) j) as [z|] eqn:Hz, (getrow d (m_table o) j) as [x|] eqn:Hx,
        (getrow d' (m_table o) j) as [y|] eqn:Hy; try done. simpl.
      set (P := λ r : row, col r ctc = VInt (m_ct m) ∧ to_text (col r oidc) = Some (pretty k)).
      assert (Hc : P x ∨ P y → ∀ c, c ∈ ctc :: oidc :: cs → col x c = col y c).
      { intros Hor c Hc. apply (Hvia o j c); [done| |done|done]. eapply rc_gen; eauto.
        - intros Hp. destruct (B _ Hp) as [B1 B2]. destruct Hor as [[]|[]]; congruence.
        - intros Hp. destruct (B _ Hp) as [B1 B2]. destruct Hor as [[]|[]]; congruence. }
      fold (P x) (P y). destruct (decide (P x)) as [H1|H1], (decide (P y)) as [H2|H2]; try done.
      + f_equal. apply fmap_ext_in. intros c Hin'. apply Hc; [by left|]. by do 2 right.
      + exfalso. apply H2. destruct H1 as [H1 H1']. split; [rewrite <- H1; symmetry|rewrite <- H1'; f_equal; symmetry]; apply Hc; [by left|left|by left|right; left].
      + exfalso. apply H1. destruct H2 as [H2 H2']. split; [rewrite <- H2|rewrite <- H2'; f_equal]; apply Hc; [by right|left|by right|right; left].
  Qed.
  Lemma value_agree : reads_only S m fn rd → fn d (Some k) r = fn d' (Some k) r'.
  Proof.
    intros Hro. apply Hro; [|by apply view_agree]. intros c Hc. apply Hown. apply elem_of_app. by left.
  Qed.
End view.

(** ** Consistent databases with the same user data agree *)
Lemma consistent_unique ρ d0 d1 d2 : value_acyclic S ρ d0 →
  user_data_kept S d0 d1 → user_data_kept S d0 d2 → steady_kept S d0 d1 → steady_kept S d0 d2 →
  consistent S d1 → consistent S d2 →
  ∀ m c k, m ∈ s_models S → callback_col m c → agree_cell d1 d2 m k c.
Proof.
  intros Hac K1 K2 A1 A2 C1 C2 m c k.
  remember (ρ (m_table m) k c) as n eqn:Hn. revert m c k Hn. induction (lt_wf n) as [n _ IH]. intros m c k Hn Hm Hc r1 r2 Hr1 Hr2.
  destruct Hc as (f & fn & ds & sk & Hf & <- & Hk).
  destruct (same_rows_get _ _ _ _ _ _ (proj1 K1 m Hm) Hr1) as (r0 & Hr0 & Hp1).
  destruct (Hac m f fn ds sk k r0 Hm Hf Hk Hr0) as (rd & Hro & Hds & Hcells).
  pose proof (C1 _ _ _ _ Hm Hf Hr1) as D1. pose proof (C2 _ _ _ _ Hm Hf Hr2) as D2.
  unfold row_consistent in D1, D2. rewrite Hk in D1, D2. destruct D1 as (pv1 & Hv1 & Hs1), D2 as (pv2 & Hv2 & Hs2).
  assert (Hall : ∀ o j c, o ∈ s_models S → reads_cell S d0 m rd k r0 o j c → agree_cell d1 d2 o j c).
  { intros o j c Ho Hrc. destruct (Hcells _ _ _ Hrc) as [Hst|[Hcb Hlt]].
    - intros x y Hx Hy. destruct (same_rows_get _ _ _ _ _ _ (proj1 K1 o Ho) Hx) as (z & Hz & _).
      rewrite <- (A1 _ _ _ Ho Hst z x Hz Hx). by apply (A2 _ _ _ Ho Hst).
    - eapply IH; [|reflexivity|done|done]. by rewrite Hn. }
  assert (Heq : fn d1 (Some k) r1 = fn d2 (Some k) r2).
  { eapply (value_agree d0 d1 d2 K1 K2 m f fn ds sk Hm Hf Hk k r0 r1 r2 rd Hds Hp1); [|exact Hall|done].
    intros c Hc. apply (Hall m k c Hm); [by apply rc_own|done|done]. }
  rewrite Hv1, Hv2 in Heq. injection Heq as <-. by eapply stores_det.
Qed.
End unique.
