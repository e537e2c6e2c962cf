(** * Flushing: every processed row becomes consistent, the invariant is kept. *)
From Verif Require Import Base BaseLemmas Schema TrigSet Gen Exec Orm Flush Spec Engine GenLemmas Marking Conditions Invariant.

Lemma NoDup_app_cons_eq {A} (l1 l1' l3 l3' : list A) f :
  NoDup (l1 ++ f :: l3) → l1 ++ f :: l3 = l1' ++ f :: l3' → l1 = l1' ∧ l3 = l3'.
Proof.
  revert l1'. induction l1 as [|x l1 IH]; intros [|x' l1'] Hnd Heq; simpl in *.
  - by injection Heq as <-.
  - exfalso. injection Heq as <- ->. apply NoDup_cons in Hnd as [Hn _]. apply Hn. set_solver.
  - exfalso. injection Heq as -> _. apply NoDup_cons in Hnd as [Hn _]. apply Hn. set_solver.
  - injection Heq as -> Heq. apply NoDup_cons in Hnd as [_ Hnd]. by destruct (IH _ Hnd Heq) as [-> ->].
Qed.

(** ** Field pre_save on a stored instance *)
Section presave.
Context (E : env) (m : model) (k : Z) (rdb : row).

Lemma presave_step_keep p g q c : presave_field E m false (Some k) p g = Ok q →
  getrow p.1 (m_table m) k = Some rdb →
  (f_col g = c → f_kind g = KPlain ∨ ((∃ a, f_kind g = KAgg a) ∧ col p.2 c = col rdb c)) →
  col q.2 c = col p.2 c.
Proof.
  intros H Hrow Hc. unfold presave_field in H. destruct (decide (f_col g = c)) as [Heq|Hne].
  - destruct (Hc Heq) as [Hk|[[a Hk] Hv]]; rewrite Hk in H.
    + by injection H as <-.
    + simpl in H. rewrite Hrow in H. destruct (m_visible m rdb); [|done]. injection H as <-. simpl. subst c.
      by rewrite col_insert_eq.
  - assert (Hn : ∀ v, col (<[f_col g := v]> p.2) c = col p.2 c) by (intros; apply col_insert_ne; congruence).
    destruct (f_kind g).
    + by injection H as <-.
    + injection H as <-. apply Hn.
    + inv_bind H. inv_bind H. injection H as <-. apply Hn.
    + simpl in H. rewrite Hrow in H. destruct (m_visible m rdb); [|done]. injection H as <-. apply Hn.
    + injection H as <-. apply Hn.
Qed.

Lemma presave_keep fs : ∀ p q c, foldM (presave_field E m false (Some k)) p fs = Ok q →
  getrow p.1 (m_table m) k = Some rdb →
  (∀ g, g ∈ fs → f_col g = c → f_kind g = KPlain ∨ ((∃ a, f_kind g = KAgg a) ∧ col p.2 c = col rdb c)) →
  col q.2 c = col p.2 c.
Proof.
  induction fs as [|g fs IH]; intros p q c H Hrow Hc; simpl in H; [by injection H as <-|].
  inv_bind H. pose proof (presave_field_db _ _ _ _ _ _ _ H0) as [Ht _].
  assert (Hs : col a.2 c = col p.2 c).
  { eapply presave_step_keep; [exact H0|done|]. intros Heq. apply Hc; [left|done]. }
  rewrite <- Hs. eapply IH; [exact H| |].
  - unfold getrow, tab. rewrite Ht. exact Hrow.
  - intros g' Hg' Heq. rewrite Hs. apply Hc; [by right|done].
Qed.
Lemma presave_fold_db fs : ∀ p q add pk, foldM (presave_field E m add pk) p fs = Ok q → d_tabs q.1 = d_tabs p.1.
Proof.
  induction fs as [|g fs IH]; intros p q add pk H; simpl in H; [by injection H as <-|].
  inv_bind H. pose proof (presave_field_db _ _ _ _ _ _ _ H0) as [Ht _]. rewrite <- Ht. by eapply IH.
Qed.

(** The value stored in a callback column is what the callback returns for the
    instance as it is when the field's turn comes. *)
Lemma presave_callback rin f fn ds sk d q rd :
  NoDup (f_col <$> m_fields m) →
  f ∈ m_fields m → f_kind f = KCallback fn ds sk → reads_before m f rd →
  (∀ c, c ∈ rd_own rd → ∃ g, g ∈ m_fields m ∧ f_col g = c) →
  getrow d (m_table m) k = Some rdb →
  (∀ g a, g ∈ m_fields m → f_kind g = KAgg a → col rin (f_col g) = col rdb (f_col g)) →
  presave_all E m false (Some k) d rin = Ok q →
  ∃ di ri pv v, d_tabs di = d_tabs d ∧ fn di (Some k) ri = Ok pv ∧ store_value f pv = Ok v ∧
    col q.2 (f_col f) = v ∧ ∀ c, c ∈ rd_own rd → col ri c = col q.2 c.
Proof.
  intros Hnd Hf Hk Hrb Hcols Hrow Hcur H. unfold presave_all in H.
  apply elem_of_list_split in Hf as (l1 & l3 & Hl). rewrite Hl in H, Hnd.
  rewrite fmap_app, fmap_cons in Hnd. apply NoDup_app in Hnd as (Hn1 & Hn12 & Hn2). apply NoDup_cons in Hn2 as [Hf3 Hn3].
  rewrite foldM_app in H. inv_bind H. destruct a as [di ri]. rewrite foldM_cons in H. inv_bind H.
  destruct a as [dj rj]. rename H0 into HA, H1 into HB, H into HC.
  pose proof (presave_fold_db _ _ _ _ _ HA) as TA. simpl in TA.
  pose proof (presave_field_db _ _ _ _ _ _ _ HB) as [TB _]. simpl in TB.
  assert (Hri : getrow di (m_table m) k = Some rdb) by (unfold getrow, tab; by rewrite TA).
  assert (Hrj : getrow dj (m_table m) k = Some rdb) by (unfold getrow, tab; by rewrite TB, TA).
  pose proof HB as HB'. unfold presave_field in HB'. rewrite Hk in HB'. simpl in HB'. inv_bind HB'. inv_bind HB'. injection HB' as <- <-.
  assert (Hnot3 : ∀ g, g ∈ l3 → f_col g ≠ f_col f).
  { intros g Hg Heq. apply Hf3. rewrite <- Heq. apply elem_of_list_fmap. by exists g. }
  assert (Hnot1 : ∀ g g', g ∈ l1 → g' ∈ f :: l3 → f_col g ≠ f_col g').
  { intros g g' Hg Hg' Heq. apply (Hn12 (f_col g)).
    - apply elem_of_list_fmap. by exists g.
    - rewrite <- fmap_cons. apply elem_of_list_fmap. by exists g'. }
  exists di, ri, a, a0. split_and!; [done|done|done| |].
  - erewrite (presave_keep l3 _ _ (f_col f)); [|exact HC|done|].
    + simpl. apply col_insert_eq.
    + intros g Hg Heq. by apply Hnot3 in Hg.
  - intros c Hc. destruct (Hcols _ Hc) as (g & Hg & <-). specialize (Hrb g Hg Hc).
    assert (Hother : (f_kind g = KPlain ∨ ∃ a, f_kind g = KAgg a) → col ri (f_col g) = col q.2 (f_col g)).
    { intros Hkind.
      assert (Huniq : ∀ g', g' ∈ l1 ++ f :: l3 → f_col g' = f_col g → g' = g).
      { intros g' Hg' Heq. eapply (NoDup_fmap_eq f_col); [|exact Hg'|by rewrite <- Hl|done].
        rewrite fmap_app, fmap_cons. apply NoDup_app. split_and!; [done|done|]. by apply NoDup_cons. }
      transitivity (col rin (f_col g)).
      - change rin with ((d, rin).2) at 1. eapply (presave_keep l1 (d, rin) (di, ri)); [exact HA|done|].
        intros g' Hg' Heq. assert (g' = g) as -> by (apply Huniq; [set_solver|done]).
        destruct Hkind as [?|[a1 ?]]; [by left|right; split; [by exists a1|by eapply Hcur]].
      - symmetry. change rin with ((d, rin).2) at 1. eapply (presave_keep (l1 ++ f :: l3) (d, rin)); [|done|].
        + rewrite foldM_app, HA. simpl. unfold rbind at 1. rewrite HB. exact HC.
        + intros g' Hg' Heq. assert (g' = g) as -> by (apply Huniq; done).
          destruct Hkind as [?|[a1 ?]]; [by left|right; split; [by exists a1|by eapply Hcur]]. }
    assert (Hearlier : (∃ m1 m2 m3, m_fields m = m1 ++ g :: m2 ++ f :: m3) → col ri (f_col g) = col q.2 (f_col g)).
    { intros (m1 & m2 & m3 & Hm).
      assert (Hg1 : g ∈ l1).
      { assert (Hin : g ∈ l1 ++ f :: l3) by by rewrite <- Hl.
        apply elem_of_app in Hin as [?|Hin]; [done|]. exfalso.
        assert (Hnd' : NoDup (m_fields m)).
        { rewrite Hl. apply (NoDup_fmap_1 f_col). rewrite fmap_app, fmap_cons. apply NoDup_app. split_and!; [done|done|]. by apply NoDup_cons. }
        assert (Hl1 : l1 = m1 ++ g :: m2).
        { assert (Heq : l1 ++ f :: l3 = (m1 ++ g :: m2) ++ f :: m3) by (rewrite <- Hl, Hm; by rewrite <- (assoc_L app)).
          by apply NoDup_app_cons_eq in Heq as [-> _]; [|rewrite <- Hl]. }
        rewrite Hl in Hnd'. apply NoDup_app in Hnd' as (_ & Hd & _). eapply (Hd g); [rewrite Hl1; set_solver|done]. }
      symmetry. change ri with ((di, ri).2) at 1. eapply (presave_keep (f :: l3) (di, ri)); [|done|].
      - rewrite foldM_cons, HB. exact HC.
      - intros g' Hg' Heq. exfalso. by eapply (Hnot1 g g'). }
    destruct (f_kind g) eqn:Hkg; eauto.
Qed.
End presave.

(** ** What one UPDATE of a whole row does under acyclic trigger updates *)
Record updated (E : env) (rank : string → nat) (t : string) (k : Z) (r' : row) (d d2 : db) : Prop := Updated {
  ud_own : getrow d2 t k = Some r';
  ud_high : ∀ t' j, (rank t ≤ rank t')%nat → t' ≠ t ∨ j ≠ k → getrow d2 t' j = getrow d t' j;
  ud_skel : ∀ t' j, t' ≠ t ∨ j ≠ k →
     match getrow d t' j, getrow d2 t' j with
     | None, None => True
     | Some a, Some b => ∀ c, ¬ tw E t' c → col a c = col b c
     | _, _ => False
     end
}.
Lemma exec_updated E rank t k r r' d d2 :
  acyclic E rank → getrow d t k = Some r → exec E t [upd_all k r'] d = Ok d2 → updated E rank t k r' d d2.
Proof.
  intros Hac Hr H. unfold exec in H. apply run_stmt_single in H. unfold run_batch in H. inv_bind H.
  destruct a as [d1 evs]. simpl in H. rewrite apply_all_cons in H0. inv_bind H0. destruct a as [d1' evs1]. simpl in H0.
  injection H0 as <- <-. unfold upd_all in H1. simpl in H1. rewrite Hr in H1. simpl in H1.
  destruct (_ || _) in H1; [|done]. injection H1 as <- <-. rewrite app_nil_r in H. simpl in H. inv_bind H. injection H as <-.
  pose proof (fire_frame _ _ Hac _ _ _ _ _ H0) as Hf. simpl in Hf. pose proof (fire_skel _ _ _ _ _ _ H0) as Hs.
  split.
  - rewrite Hf by done. apply getrow_put_eq.
  - intros t' j Hle Hne. rewrite Hf by done. apply getrow_put_ne. naive_solver.
  - intros t' j Hne. specialize (Hs t' j). rewrite getrow_put_ne in Hs by naive_solver. done.
Qed.

Lemma exec_inserted E rank t k r' d d2 :
  acyclic E rank → getrow d t k = None → exec E t [CIns k r'] d = Ok d2 → updated E rank t k r' d d2.
Proof.
  intros Hac Hr H. unfold exec in H. apply run_stmt_single in H. unfold run_batch in H. inv_bind H.
  destruct a as [d1 evs]. simpl in H. rewrite apply_all_cons in H0. inv_bind H0. destruct a as [d1' evs1]. simpl in H0.
  injection H0 as <- <-. simpl in H1. rewrite Hr in H1.
  destruct (_ || _) in H1; [|done]. injection H1 as <- <-. rewrite app_nil_r in H. simpl in H. inv_bind H. injection H as <-.
  pose proof (fire_frame _ _ Hac _ _ _ _ _ H0) as Hf. simpl in Hf. pose proof (fire_skel _ _ _ _ _ _ H0) as Hs.
  split.
  - rewrite Hf by done. apply getrow_put_eq.
  - intros t' j Hle Hne. rewrite Hf by done. apply getrow_put_ne. naive_solver.
  - intros t' j Hne. specialize (Hs t' j). rewrite getrow_put_ne in Hs by naive_solver. done.
Qed.

Section settle.
Context (b : backend) (S : schema) (rand : nat → Z) (imm : bool) (depth : nat) (E : env) (l : list trigger).
Context (Hwf : wf_schema S) (HE : mk_env b S rand imm depth = Ok E) (Hl : gen_all S = Ok l).
Context (Hnames : names_ok b l) (Hlk : wf_links S).
Context (Hm2m : no_m2m_dep S ∨ (imm = true ∧ m2m_declared S)).
Context (rank : string → nat) (Hac : acyclic E rank).
Context (Hself : self_deps_plain S).
Context (Hnod : no_m2m_denorm S) (Htr : all_truthy S).

Lemma m2m_pre_save_none m pk r d d' : m ∈ s_models S → m2m_pre_save E m pk r d = Ok d' → d' = d.
Proof.
  intros Hm. unfold m2m_pre_save. destruct pk as [k|]; [|by intros [= <-]]. case_decide; [by intros [= <-]|].
  intros Hfold. cut (d = d'); [done|]. revert Hfold.
  apply (foldM_rel eq).
  - done.
  - congruence.
  - intros a mm a' Hmm Ha. rewrite (Hnod _ _ Hm Hmm) in Ha. by injection Ha.
Qed.

Lemma presave_plain m k r rin d q c : m ∈ s_models S → getrow d (m_table m) k = Some r →
  presave_all E m false (Some k) d rin = Ok q → plain_col m c → col q.2 c = col rin c.
Proof.
  intros Hm Hr Hq (g & Hg & <- & Hk). change rin with ((d, rin).2) at 1.
  eapply (presave_keep E m k r (m_fields m) (d, rin)); [exact Hq|done|].
  intros g' Hg' Heq. left. assert (g' = g) as ->; [|done].
  eapply NoDup_fmap_eq; [apply (wf_cols _ _ (wf_models _ Hwf _ Hm))|done..].
Qed.

(** *** The view of the processed row does not change by its own save. *)
Section own.
  (** [r]: the stored row if there is one, [rin]: the instance saved, [r']: the row written *)
  Context (m : model) (k : Z) (r rin r' : row) (d d2 : db).
  Context (Hm : m ∈ s_models S) (Hr : ∀ x, getrow d (m_table m) k = Some x → x = r).
  Context (Hu : updated E rank (m_table m) k r' d d2).
  Context (Hplain : ∀ c, plain_col m c → col r' c = col rin c).

  Definition agree (o : model) (cs : list string) (x y : option row) : Prop :=
    match x, y with
    | None, None => True
    | Some x, Some y => ∀ c, c ∈ cs ∨ column_of o c → col x c = col y c
    | _, _ => False
    end.
  Lemma agree_cols o cs x y : agree o cs x y → cols_of cs <$> x = cols_of cs <$> y.
  Proof.
    destruct x, y; simpl; intros H; try done. f_equal. apply fmap_ext_in. intros c Hc. apply H. by left.
  Qed.
  Lemma other_agree o cs j : o ∈ s_models S → (o = m → j ≠ k) →
    ((rank (m_table o) < rank (m_table m))%nat → ∀ c, c ∈ cs → column_of o c) →
    agree o cs (getrow d (m_table o) j) (getrow d2 (m_table o) j).
  Proof.
    intros Ho Hj Hcs.
    assert (Hne : m_table o ≠ m_table m ∨ j ≠ k).
    { destruct (decide (m_table o = m_table m)) as [Heq|]; [|by left]. right. apply Hj.
      eapply NoDup_fmap_eq; [apply (wf_tables _ Hwf)|done..]. }
    destruct (decide (rank (m_table m) ≤ rank (m_table o))%nat) as [Hle|Hlt].
    - rewrite (ud_high _ _ _ _ _ _ _ Hu) by done. by destruct (getrow d (m_table o) j).
    - pose proof (ud_skel _ _ _ _ _ _ _ Hu _ _ Hne) as Hs.
      destruct (getrow d (m_table o) j), (getrow d2 (m_table o) j); try done.
      intros c Hc. apply Hs. eapply column_not_tw; eauto. destruct Hc as [Hc|Hc]; [|done]. apply Hcs; [lia|done].
  Qed.
  Lemma link_agree t j : (∀ m', m' ∈ s_models S → t ≠ m_table m') →
    match getrow d t j, getrow d2 t j with
    | None, None => True
    | Some x, Some y => ∀ c, col x c = col y c
    | _, _ => False
    end.
  Proof.
    intros Ht. pose proof (ud_skel _ _ _ _ _ _ _ Hu t j (or_introl (Ht _ Hm))) as Hs.
    destruct (getrow d t j), (getrow d2 t j); try done. intros c. apply Hs. eapply link_not_tw; eauto.
  Qed.

  Lemma dep_view_own f fn ds sk rd dp cs ri di :
    f ∈ m_fields m → f_kind f = KCallback fn ds sk → covered S m f fn ds rd → settled S rank m f rd →
    (dp, cs) ∈ rd_via rd → d_tabs di = d_tabs d →
    (∀ c, c ∈ rd_own rd → col ri c = col r' c) →
    ¬ self_related m d k r dp → ¬ self_related m d k rin dp →
    dep_view S m di k ri dp cs = dep_view S m d2 k r' dp cs.
  Proof.
    intros Hf Hk Hcv Hset Hin Htd Hri Hns Hns'.
    assert (Hdp : dp ∈ ds) by (eapply dr_dep; [apply (cv_decl _ _ _ _ _ _ Hcv)|exact Hin]).
    assert (Hdpf : dp ∈ field_deps f) by (unfold field_deps; by rewrite Hk).
    assert (Hrel := dr_rel _ _ _ _ (cv_decl _ _ _ _ _ _ Hcv)).
    unfold dep_view. destruct (find_model S (dep_other dp)) as [o|] eqn:Hfo; [|done].
    specialize (Hrel _ _ _ Hin Hfo). destruct (find_model_in _ _ _ Hfo) as [Ho Hname].
    pose proof (wf_deps _ Hwf _ _ _ Hm Hf Hdpf _ Hfo) as Wd.
    assert (Hag : ∀ j, (o = m → j ≠ k) → agree o cs (getrow d (m_table o) j) (getrow d2 (m_table o) j)).
    { intros j Hj. apply other_agree; [done|done|]. intros Hlt c Hc. eapply (se_via _ _ _ _ _ Hset); eauto. }
    assert (Hgi : ∀ t j, getrow di t j = getrow d t j) by (intros; unfold getrow, tab; by rewrite Htd).
    assert (Htab : ∀ t, tab di t = tab d t) by (intros; unfold tab; by rewrite Htd).
    assert (Hps : o = m → dep_other dp = m_name m) by (by intros ->).
    assert (Htinj : m_table o = m_table m → o = m) by (intros; eapply NoDup_fmap_eq; [apply (wf_tables _ Hwf)|done..]).
    unfold self_related in Hns, Hns'.
    destruct (dep_rel dp) as [fk|fk|t c rc|ctc oidc|ctc oidc] eqn:Hrl; [..|done].
    - f_equal. rewrite (Hri _ Hrel). destruct (col r' fk) as [|j|] eqn:Hj; [done| |done]. rewrite Hgi.
      apply agree_cols with (o := o). apply Hag. intros Heq ->.
      apply Hns'. split; [auto|].
      assert (Hp : plain_col m fk) by (pose proof (Hself _ _ _ _ _ _ Hm Hf Hk Hdp (Hps Heq)) as Hx; by rewrite Hrl in Hx).
      by rewrite <- (Hplain _ Hp).
    - f_equal. rewrite Htab. apply map_eq. intros j. rewrite !lookup_omap. fold (getrow d (m_table o) j) (getrow d2 (m_table o) j).
      destruct (decide (m_table o = m_table m ∧ j = k)) as [[Heq ->]|Hne]; [apply Htinj in Heq|].
      + subst o. rewrite (ud_own _ _ _ _ _ _ _ Hu). simpl.
        assert (Hp : plain_col m fk) by (pose proof (Hself _ _ _ _ _ _ Hm Hf Hk Hdp (Hps eq_refl)) as Hx; by rewrite Hrl in Hx).
        rewrite (Hplain _ Hp).
        assert (Hc : col r fk ≠ VInt k) by (intros Hc; apply Hns; split; [auto|done]).
        assert (Hc' : col rin fk ≠ VInt k) by (intros Hc'; apply Hns'; split; [auto|done]).
        destruct (getrow d (m_table m) k) as [x|]; [rewrite (Hr x eq_refl); simpl; rewrite (decide_False _ _ Hc)|simpl]; by rewrite decide_False.
      + assert (Ha := Hag j ltac:(naive_solver)).
        destruct (getrow d (m_table o) j) as [x|], (getrow d2 (m_table o) j) as [y|]; simpl in *; try done.
        rewrite (Ha fk) by by right. case_decide; [|done]. f_equal. apply fmap_ext_in. intros c Hc. apply Ha. by left.
    - f_equal. rewrite Htab. destruct Wd as (Wt & _). apply map_eq. intros j. rewrite !lookup_omap.
      fold (getrow d t j) (getrow d2 t j). pose proof (link_agree t j Wt) as La.
      destruct (getrow d t j) as [x|] eqn:Hx, (getrow d2 t j) as [y|]; simpl in *; try done.
      rewrite (La c), (La rc). case_decide as Hc; [|done]. do 2 f_equal.
      destruct (col y rc) as [|i|] eqn:Hi; [done| |done]. rewrite Hgi. apply agree_cols with (o := o). apply Hag.
      intros Heq ->. apply Hns. split; [auto|]. exists j, x. split_and!; [done| |]; [by rewrite La|by rewrite La].
    - f_equal. rewrite Htab. apply map_eq. intros j. rewrite !lookup_omap. fold (getrow d (m_table o) j) (getrow d2 (m_table o) j).
      destruct Wd as [W1 W2].
      destruct (decide (m_table o = m_table m ∧ j = k)) as [[Heq ->]|Hne]; [apply Htinj in Heq|].
      + subst o. rewrite (ud_own _ _ _ _ _ _ _ Hu). simpl.
        assert (Hp : plain_col m ctc ∧ plain_col m oidc)
          by (pose proof (Hself _ _ _ _ _ _ Hm Hf Hk Hdp (Hps eq_refl)) as Hx; by rewrite Hrl in Hx).
        destruct Hp as [Hp1 Hp2]. rewrite (Hplain _ Hp1), (Hplain _ Hp2).
        assert (Hc : ¬ (col r ctc = VInt (m_ct m) ∧ to_text (col r oidc) = Some (pretty k)))
          by (intros Hc; apply Hns; split; [auto|done]).
        assert (Hc' : ¬ (col rin ctc = VInt (m_ct m) ∧ to_text (col rin oidc) = Some (pretty k)))
          by (intros Hc'; apply Hns'; split; [auto|done]).
        destruct (getrow d (m_table m) k) as [x|]; [rewrite (Hr x eq_refl); simpl; rewrite (decide_False _ _ Hc)|simpl]; by rewrite decide_False.
      + assert (Ha := Hag j ltac:(naive_solver)).
        destruct (getrow d (m_table o) j) as [x|], (getrow d2 (m_table o) j) as [y|]; simpl in *; try done.
        rewrite (Ha ctc), (Ha oidc) by by right. case_decide; [|done]. f_equal. apply fmap_ext_in. intros c Hc. apply Ha. by left.
  Qed.

  (** Self relations are kept away. *)
  Lemma no_self_updated : no_self_relation S d →
    (∀ f fn ds sk dp, f ∈ m_fields m → f_kind f = KCallback fn ds sk → dp ∈ ds → ¬ self_related m d k rin dp) →
    no_self_relation S d2.
  Proof.
    intros Hns Hnr m' f fn ds sk dp k' y Hm' Hf Hk Hdp Hy [Hoth Hrel].
    assert (Hdpf : dp ∈ field_deps f) by (unfold field_deps; by rewrite Hk).
    assert (Hfo : find_model S (dep_other dp) = Some m') by (rewrite Hoth; apply find_model_self; [apply (wf_names _ Hwf)|done]).
    pose proof (wf_deps _ Hwf _ _ _ Hm' Hf Hdpf _ Hfo) as Wd.
    assert (Hx : ∃ x, ¬ self_related m' d k' x dp ∧ ∀ c, plain_col m' c → col x c = col y c).
    { destruct (decide (m_table m' = m_table m ∧ k' = k)) as [[Heq ->]|Hne].
      - assert (m' = m) as -> by (eapply NoDup_fmap_eq; [apply (wf_tables _ Hwf)|done..]). exists rin. split; [by eapply Hnr|].
        intros c Hc. rewrite (ud_own _ _ _ _ _ _ _ Hu) in Hy. injection Hy as <-. symmetry. by apply Hplain.
      - pose proof (other_agree m' [] k' Hm' ltac:(naive_solver) ltac:(intros ? ? ?; set_solver)) as Ha.
        rewrite Hy in Ha. destruct (getrow d (m_table m') k') as [x|] eqn:Hx; [|done]. exists x. split; [by eapply Hns|].
        intros c (g & Hg & <- & Hgk). apply Ha. right. exists g. split_and!; [done|done|]. unfold plain_or_callback. by rewrite Hgk. }
    destruct Hx as (x & Hx & Hc). apply Hx. split; [done|].
    pose proof (Hself _ _ _ _ _ _ Hm' Hf Hk Hdp Hoth) as Hp.
    destruct (dep_rel dp) as [fk|fk|t c rc|ctc oidc|ctc oidc]; [..|done].
    - by rewrite Hc.
    - by rewrite Hc.
    - destruct Hrel as (lk & lr & Hlr & H1 & H2). destruct Wd as (Wt & _). pose proof (link_agree t lk Wt) as La.
      rewrite Hlr in La. destruct (getrow d t lk) as [lx|] eqn:Hlx; [|done]. exists lk, lx. split_and!; [done|by rewrite La..].
    - destruct Hp. by rewrite !Hc.
  Qed.
End own.

Context (Hset : all_settled S rank).
Lemma settled_covered : all_covered S.
Proof. intros m f fn ds sk Hm Hf Hk. destruct (Hset _ _ _ _ _ Hm Hf Hk) as (rd & ? & _). by exists rd. Qed.

Definition finv (d : db) : Prop := links_ok S d ∧ consistent_or_marked S d ∧ no_self_relation S d.

(** Saving an instance of a stored row makes the row consistent. *)
Lemma save_settles_inst m k r rin d p : m ∈ s_models S → getrow d (m_table m) k = Some r → no_self_relation S d →
  (∀ f fn ds sk dp, f ∈ m_fields m → f_kind f = KCallback fn ds sk → dp ∈ ds → ¬ self_related m d k rin dp) →
  (∀ g a, g ∈ m_fields m → f_kind g = KAgg a → col rin (f_col g) = col r (f_col g)) →
  save_existing E m k rin d = Ok p →
  no_self_relation S p.1 ∧ getrow p.1 (m_table m) k = Some p.2 ∧ (∀ c, plain_col m c → col p.2 c = col rin c) ∧
  ∀ f, f ∈ m_fields m → row_consistent m p.1 k p.2 f.
Proof.
  intros Hm Hr Hns Hnr Hcur H. unfold save_existing in H. inv_bind H. apply m2m_pre_save_none in H0; [subst a|done].
  inv_bind H. inv_bind H. injection H as <-. simpl. rename a into q, a0 into d2, H0 into Hq, H1 into Hx.
  pose proof (presave_all_db _ _ _ _ _ _ _ Hq) as [Tq _].
  assert (Hu : updated E rank (m_table m) k q.2 d d2).
  { assert (Hrq : getrow q.1 (m_table m) k = Some r) by (unfold getrow, tab; by rewrite Tq).
    destruct (exec_updated _ _ _ _ _ _ _ _ Hac Hrq Hx) as [U1 U2 U3]. split; [done|..].
    - intros t' j ??. rewrite U2 by done. unfold getrow, tab. by rewrite Tq.
    - intros t' j Hne. specialize (U3 t' j Hne). unfold getrow, tab in *. by rewrite Tq in U3. }
  assert (Hplain : ∀ c, plain_col m c → col q.2 c = col rin c) by (intros; by eapply presave_plain).
  assert (Hrx : ∀ x : row, getrow d (m_table m) k = Some x → x = r) by (intros; congruence).
  split; [by eapply no_self_updated|]. split; [by apply (ud_own _ _ _ _ _ _ _ Hu)|]. split; [done|].
  intros f Hf. unfold row_consistent. destruct (f_kind f) as [| |fn ds sk|a|ds] eqn:Hk; [done..| |done|done].
  destruct (Hset _ _ _ _ _ Hm Hf Hk) as (rd & Hcv & Hse).
  edestruct (presave_callback E m k r rin f fn ds sk d q rd) as (di & ri & pv & v & Td & Hfn & Hsv & Hcol & Hri).
  { apply (wf_cols _ _ (wf_models _ Hwf _ Hm)). } { done. } { done. } { apply (se_order _ _ _ _ _ Hse). }
  { intros c Hc. by destruct (dr_own _ _ _ _ (cv_decl _ _ _ _ _ _ Hcv) _ Hc) as [? _]. } { done. } { done. } { done. }
  exists pv. split.
  - rewrite <- Hfn. symmetry. apply (cv_reads _ _ _ _ _ _ Hcv); [done|]. intros dp cs Hin.
    assert (Hdp : dp ∈ ds) by (eapply dr_dep; [apply (cv_decl _ _ _ _ _ _ Hcv)|exact Hin]).
    eapply (dep_view_own m k r rin q.2 d d2); eauto.
  - rewrite Hcol. unfold store_value in Hsv. unfold stores. destruct pv as [w|mn j]; [by injection Hsv as ->|].
    destruct (f_fk f) as [rm|]; [|done]. case_decide; [|done]. subst. by injection Hsv as <-.
Qed.
Lemma save_settles m k r d p : m ∈ s_models S → getrow d (m_table m) k = Some r → no_self_relation S d →
  save_existing E m k r d = Ok p →
  no_self_relation S p.1 ∧ ∃ r', getrow p.1 (m_table m) k = Some r' ∧ ∀ f, f ∈ m_fields m → row_consistent m p.1 k r' f.
Proof.
  intros Hm Hr Hns H. destruct (save_settles_inst m k r r d p) as (? & ? & _ & ?); eauto.
Qed.

Lemma marker_of_inj m k m' k' : m ∈ s_models S → m' ∈ s_models S → marker_of m k = marker_of m' k' → m = m' ∧ k = k'.
Proof.
  intros Hm Hm' [= Hct Hk]. split; [|by apply (inj pretty)].
  eapply NoDup_fmap_eq; [apply (wf_cts _ Hwf)|done..].
Qed.
Lemma model_of_ct_self m : m ∈ s_models S → model_of_ct S (m_ct m) = Some m.
Proof.
  intros Hm. unfold model_of_ct. destruct (list_find _ _) as [[i m']|] eqn:Hf.
  - apply list_find_Some in Hf as (Hi & [_ Hct] & _). simpl. f_equal.
    eapply NoDup_fmap_eq; [apply (wf_cts _ Hwf)| |done|done]. by eapply elem_of_list_lookup_2.
  - apply list_find_None in Hf. eapply Forall_forall in Hf; [|exact Hm]. exfalso. apply Hf. split; [|done].
    apply (wf_noproxy _ _ (wf_models _ Hwf _ Hm)).
Qed.
Lemma model_of_ct_spec ct m : model_of_ct S ct = Some m → m ∈ s_models S ∧ m_ct m = ct.
Proof.
  unfold model_of_ct. destruct (list_find _ _) as [[i m']|] eqn:Hf; [|done]. simpl. intros [= ->].
  apply list_find_Some in Hf as (Hi & [_ Hct] & _). split; [|done]. by eapply elem_of_list_lookup_2.
Qed.
(** The object a marker refers to. *)
Lemma content_object_some d mk m k r : content_object S d mk = Ok (Some (m, k, r)) →
  m ∈ s_models S ∧ getrow d (m_table m) k = Some r ∧ mk = marker_of m k.
Proof.
  unfold content_object. destruct (model_of_ct S mk.1) as [m0|] eqn:Hct; [|done].
  apply model_of_ct_spec in Hct as [Hm0 Hct]. destruct mk as [ct [s|]]; simpl in *; [|done].
  destruct (list_find _ _) as [[i [k0 r0]]|] eqn:Hf; [|done]. intros [= -> -> ->].
  apply list_find_Some in Hf as (Hi & Hp & _). apply elem_of_list_lookup_2, elem_of_map_to_list in Hi.
  split_and!; [done|done|]. unfold marker_of. simpl in Hp. by rewrite Hct, Hp.
Qed.
Lemma content_object_none d m k : m ∈ s_models S → content_object S d (marker_of m k) = Ok None → getrow d (m_table m) k = None.
Proof.
  intros Hm. unfold content_object, marker_of. simpl. rewrite model_of_ct_self by done.
  destruct (list_find _ _) as [[i [k0 r0]]|] eqn:Hf; [done|]. intros _. apply list_find_None in Hf.
  destruct (getrow d (m_table m) k) as [r|] eqn:Hr; [|done].
  unfold getrow in Hr; apply elem_of_map_to_list in Hr. eapply Forall_forall in Hf; [|exact Hr]. done.
Qed.

Lemma row_consistent_dirty m d k r f rd fn ds sk l' : f_kind f = KCallback fn ds sk → covered S m f fn ds rd →
  row_consistent m d k r f → row_consistent m (set_dirty d l') k r f.
Proof.
  intros Hk Hcv. unfold row_consistent. rewrite Hk. intros (pv & Hfn & Hs). exists pv. split; [|done].
  rewrite <- Hfn. by apply (cv_reads _ _ _ _ _ _ Hcv).
Qed.

(** Every row the marker refers to is consistent. *)
Definition mk_settled (mk : marker) (d : db) : Prop := ∀ m k r,
  m ∈ s_models S → marker_of m k = mk → getrow d (m_table m) k = Some r → ∀ f, f ∈ m_fields m → row_consistent m d k r f.

(** Deleting the markers of a settled row keeps the invariant. *)
Lemma unmark_inv mk d : finv d → mk_settled mk d → finv (unmark d mk).
Proof.
  intros (L & C & N) Hs. split_and!; [done| |exact N].
  intros m k r Hm Hr. change (getrow d (m_table m) k = Some r) in Hr.
  assert (Hcase : (marker_of m k ≠ mk ∧ marker_of m k ∈ d_dirty d) ∨ ∀ f, f ∈ m_fields m → row_consistent m d k r f).
  { destruct (decide (marker_of m k = mk)) as [Heq|Hne].
    - right. intros f Hf. by eapply Hs.
    - destruct (C _ _ _ Hm Hr); [left; done|by right]. }
  destruct Hcase as [[Hne Hin]|Hc]; [left; by apply elem_of_list_filter|right].
  intros f Hf. destruct (f_kind f) as [| |fn ds sk|a|ds] eqn:Hk; try by (unfold row_consistent; rewrite Hk).
  destruct (Hset _ _ _ _ _ Hm Hf Hk) as (rd & Hcv & _). eapply row_consistent_dirty; eauto.
Qed.

Lemma gone_settled mk d : content_object S d mk = Ok None → mk_settled mk d.
Proof. intros Ho m k r Hm <- Hr. apply content_object_none in Ho; [|done]. by rewrite Ho in Hr. Qed.

(** Saving the object of a marker settles it and keeps the invariant. *)
Context (Hsafe : s_bulk_unsafe S = false).
Lemma save_inv mk m k r d p : content_object S d mk = Ok (Some (m, k, r)) → save_existing E m k r d = Ok p →
  finv d → finv p.1 ∧ mk_settled mk p.1.
Proof.
  intros Ho Hsv (L & C & N). destruct (content_object_some _ _ _ _ _ Ho) as (Hm & Hr & ->).
  destruct (save_settles _ _ _ _ _ Hm Hr N Hsv) as (N' & r' & Hr' & Hc').
  assert (L' : links_ok S p.1) by (eapply save_existing_lgood; eauto).
  assert (Hst : mk_settled (marker_of m k) p.1).
  { intros m' k' y Hm' Heq Hy. apply marker_of_inj in Heq as [-> ->]; [|done|done]. rewrite Hr' in Hy. by injection Hy as <-. }
  split; [|done]. split_and!; [done| |done]. intros m' k' y Hm' Hy.
  destruct (decide (marker_of m' k' = marker_of m k)) as [Heq|Hne].
  - right. by eapply Hst.
  - assert (Hdm : dmono d p.1).
    { eapply (save_existing_R E dmono); [apply dmono_trans|intros; by apply dmono_eq|intros; by eapply exec_dmono|exact Hsv]. }
    eapply (row_inv S settled_covered m' k' d p.1); [done| |done|done|by intros; apply C].
    intros. eapply save_existing_vgood; eauto.
Qed.
End settle.

(** ** Flush, from what one save does *)
Section loop.
Context (S : schema) (E : env) (rank : string → nat).
Context (Hwf : wf_schema S) (Htr : all_truthy S) (Hset : all_settled S rank).
Context (Hsave : ∀ mk m k r d p, content_object S d mk = Ok (Some (m, k, r)) → save_existing E m k r d = Ok p →
  finv S d → finv S p.1 ∧ mk_settled S mk p.1).
Notation finv := (finv S).

(** The loop body of flush keeps the invariant, whatever the marker. *)
Lemma process_inv mk d d' : process E S mk d = Ok d' → finv d → finv d'.
Proof.
  intros H Hi. unfold process in H. inv_bind H. rename a into d1, H0 into Hs. injection H as <-.
  unfold process_save in Hs. inv_bind Hs. destruct a as [[[m k] r]|].
  - destruct (content_object_some S _ _ _ _ _ Hs0) as (Hm & _). rewrite (Htr _ r Hm) in Hs. inv_bind Hs. injection Hs as <-.
    destruct (Hsave _ _ _ _ _ _ Hs0 Hs1 Hi). by eapply unmark_inv.
  - injection Hs as <-. eapply unmark_inv; [done|done|by eapply gone_settled].
Qed.

Lemma flush_pass_inv mks d d' o : flush_pass E S mks d = (d', o) → finv d → finv d'.
Proof.
  revert d. induction mks as [|mk mks IH]; intros d H Hi; simpl in H; [by injection H as <- <-|].
  destruct (process E S mk d) eqn:Hp; [|by injection H as <- <-]. eapply IH; [exact H|]. by eapply process_inv.
Qed.
Lemma flush_inv ord n d d' o : flush E S ord n d = (d', o) → finv d → finv d'.
Proof.
  revert d. induction n as [|n IH]; intros d H Hi; simpl in H; [by injection H as <- <-|].
  case_decide; [by injection H as <- <-|].
  destruct (flush_pass E S (snapshot E ord d) d) as [d1 o1] eqn:Hp. pose proof (flush_pass_inv _ _ _ _ Hp Hi) as Hi1.
  destruct o1; [|by injection H as <- <-|by injection H as <- <-]. by eapply IH.
Qed.
Lemma flush_consistent ord n d d' : flush E S ord n d = (d', Done) → finv d → consistent S d'.
Proof.
  intros H Hi. pose proof (flush_inv _ _ _ _ _ H Hi) as (_ & C & _).
  assert (Hd : d_dirty d' = []).
  { clear Hi C. revert d H. induction n as [|n IH]; intros d H; simpl in H; [done|].
    case_decide; [by injection H as <-|]. destruct (flush_pass E S (snapshot E ord d) d) as [d1 o1].
    destruct o1; [|done|done]. by eapply IH. }
  intros m k r f Hm Hf Hr. destruct (C _ _ _ Hm Hr) as [Hin|Hc]; [|by apply Hc]. rewrite Hd in Hin. by apply elem_of_nil in Hin.
Qed.
End loop.

(** Flush only stops normally when no marker is left. *)
Lemma flush_done_clean E S ord n d d' : flush E S ord n d = (d', Done) → d_dirty d' = [].
Proof.
  revert d. induction n as [|n IH]; intros d H; simpl in H; [done|].
  case_decide; [by injection H as <-|]. destruct (flush_pass E S (snapshot E ord d) d) as [d1 o1].
  destruct o1; [|done|done]. by eapply IH.
Qed.
