(** * flush() terminates if value dependencies are acyclic and restless rows do not mark each other in a cycle. *)
From Verif Require Import Base BaseLemmas Schema TrigSet Gen Exec Orm Flush Machine Spec SpecAgg SpecOrder Engine GenLemmas Marking Conditions Invariant Settle Sessions Frame Silent KeyFrame Unique.
From Verif Require Hist Agg AggEngine AggOps AggKeep.

(** ** Sums over lists *)
Section sums.
Local Open Scope nat_scope.
Lemma sum_le {A} (l : list A) (F G : A → nat) e : (∀ x, x ∈ l → G x ≤ F x + e) → sum_list (G <$> l) ≤ sum_list (F <$> l) + length l * e.
Proof.
  induction l as [|a l IH]; intros H; csimpl; [lia|]. assert (G a ≤ F a + e) by (apply H; left).
  assert (sum_list (G <$> l) ≤ sum_list (F <$> l) + length l * e) by (apply IH; intros; apply H; by right). lia.
Qed.
Lemma sum_lt {A} (l : list A) (F G : A → nat) e x0 : x0 ∈ l → G x0 + length l * e < F x0 → (∀ x, x ∈ l → G x ≤ F x + e) →
  sum_list (G <$> l) < sum_list (F <$> l).
Proof.
  intros Hin. assert (Hgen : ∀ N, length l ≤ N → G x0 + N * e < F x0 → (∀ x, x ∈ l → G x ≤ F x + e) → sum_list (G <$> l) + (N - length l) * e < sum_list (F <$> l)).
  { induction Hin as [x0 l|x0 y l Hin IH]; intros N HN Hlt H; csimpl in *.
    - pose proof (sum_le l F G e) as Hs. assert (sum_list (G <$> l) ≤ sum_list (F <$> l) + length l * e) by (apply Hs; intros; apply H; by right).
      nia.
    - assert (G y ≤ F y + e) by (apply H; left). 
      assert (sum_list (G <$> l) + (N - length l) * e < sum_list (F <$> l)) by (apply IH; [lia|done|intros; apply H; by right]).
      nia. }
  intros Hlt H. specialize (Hgen (length l) (le_n _) Hlt H). lia.
Qed.
Lemma min_exists {A} (w : A → nat) (l : list A) : l ≠ [] → ∃ x, x ∈ l ∧ ∀ y, y ∈ l → w x ≤ w y.
Proof.
  induction l as [|a l IH]; [done|]. intros _. destruct l as [|b l].
  - exists a. split; [left|]. by intros y ->%elem_of_list_singleton.
  - destruct IH as (x & Hx & Hmin); [done|]. destruct (le_lt_dec (w a) (w x)).
    + exists a. split; [left|]. intros y [->|Hy]%elem_of_cons; [done|]. specialize (Hmin _ Hy). lia.
    + exists x. split; [by right|]. intros y [->|Hy]%elem_of_cons; [lia|]. by apply Hmin.
Qed.
Lemma max_bound {A} (w : A → nat) (l : list A) : ∃ n, ∀ x, x ∈ l → w x ≤ n.
Proof.
  induction l as [|a l [n IH]]; [exists 0; by intros ? ?%elem_of_nil|]. exists (max (w a) n).
  intros x [->|Hx]%elem_of_cons; [lia|]. specialize (IH _ Hx). lia.
Qed.
End sums.

(** ** The instance seen by a callback during a save *)
Lemma presave_seen E m k f fn ds sk d r q :
  NoDup (f_col <$> m_fields m) → f ∈ m_fields m → f_kind f = KCallback fn ds sk →
  getrow d (m_table m) k = Some r → presave_all E m false (Some k) d r = Ok q →
  ∃ di ri pv, d_tabs di = d_tabs d ∧ fn di (Some k) ri = Ok pv ∧ store_value f pv = Ok (col q.2 (f_col f)) ∧
    ∀ c, col ri c = col r c ∨ col ri c = col q.2 c.
Proof.
  intros Hnd Hf Hk Hrow H. unfold presave_all in H.
  apply elem_of_list_split in Hf as (l1 & l3 & Hl). rewrite Hl in H, Hnd.
  rewrite fmap_app, fmap_cons in Hnd. apply NoDup_app in Hnd as (Hn1 & Hn12 & Hn2). apply NoDup_cons in Hn2 as [Hf3 Hn3].
  rewrite foldM_app in H. inv_bind H. destruct a as [di ri]. rewrite foldM_cons in H. inv_bind H.
  destruct a as [dj rj]. rename H0 into HA, H1 into HB, H into HC.
  pose proof (presave_fold_db _ _ _ _ _ _ _ HA) as TA. simpl in TA.
  pose proof (presave_field_db _ _ _ _ _ _ _ HB) as [TB _]. simpl in TB.
  assert (Hri : getrow di (m_table m) k = Some r) by (unfold getrow, tab; by rewrite TA).
  assert (Hrj : getrow dj (m_table m) k = Some r) by (unfold getrow, tab; by rewrite TB, TA).
  pose proof HB as HB'. unfold presave_field in HB'. rewrite Hk in HB'. simpl in HB'. inv_bind HB'. inv_bind HB'. injection HB' as <- <-.
  exists di, ri, a. split_and!; [done|done| |].
  - rewrite HB'1. f_equal. erewrite (presave_keep E m k r l3 _ _ (f_col f)); [|exact HC|done|].
    + simpl. symmetry. apply col_insert_eq.
    + intros g Hg Heq. exfalso. apply Hf3. rewrite <- Heq. apply elem_of_list_fmap. by exists g.
  - intros c. destruct (decide (c ∈ f_col <$> l1)) as [Hc|Hc].
    + right. symmetry. change ri with ((di, ri).2) at 1. eapply (presave_keep E m k r (f :: l3) (di, ri)); [|done|].
      * rewrite foldM_cons, HB. exact HC.
      * intros g Hg Heq. exfalso. apply (Hn12 c Hc). rewrite <- fmap_cons. apply elem_of_list_fmap. by exists g.
    + left. change r with ((d, r).2) at 1. eapply (presave_keep E m k r l1 (d, r) (di, ri)); [exact HA|done|].
      intros g Hg Heq. exfalso. apply Hc. apply elem_of_list_fmap. by exists g.
Qed.
(** Ordinary columns, aggregates and unknown columns keep their value. *)
Lemma presave_same E m k d r q c :
  NoDup (f_col <$> m_fields m) → getrow d (m_table m) k = Some r → presave_all E m false (Some k) d r = Ok q →
  (∀ g, g ∈ m_fields m → f_col g = c → match f_kind g with KPlain | KAgg _ => True | _ => False end) →
  col q.2 c = col r c.
Proof.
  intros Hnd Hr Hq Hc. change r with ((d, r).2) at 1. eapply (presave_keep E m k r (m_fields m) (d, r)); [exact Hq|done|].
  intros g Hg Heq. specialize (Hc g Hg Heq). destruct (f_kind g); try done; [by left|right]. eauto.
Qed.

Section term.
Context (b : backend) (S : schema) (rand : nat → Z) (imm : bool) (depth : nat) (E : env) (l : list trigger).
Context (Hwf : wf_schema S) (HE : mk_env b S rand imm depth = Ok E) (Hl : gen_all S = Ok l).
Context (Hnames : names_ok b l).

Ltac cases_in H :=
  repeat (apply elem_of_cons in H as [->|H]); try (by apply elem_of_nil in H).

(** ** Which markers an update adds *)
Inductive may_mark (t : string) (k : Z) (mk : marker) : Prop :=
  | mm_own m c : m ∈ s_models S → m_table m = t → callback_col m c → mk = marker_of m k → may_mark t k mk
  | mm_dep : dep_edge S t mk.1 → may_mark t k mk
  | mm_upd t' : tc (updates S) t t' → dep_edge S t' mk.1 → may_mark t k mk
  | mm_self m c : tc (updates S) t (m_table m) → m ∈ s_models S → callback_col m c → mk.1 = m_ct m → may_mark t k mk.

Lemma pk_ref m e rf : m ∈ s_models S → ev_tab e = m_table m → is_Some (ev_row e rf) → ref_val E e rf (m_pk m) = VInt (ev_key e).
Proof.
  intros Hm Ht [r Hr]. unfold ref_val. rewrite Hr. unfold cell. rewrite Ht.
  rewrite decide_True; [done|]. by rewrite (pk_table b S rand imm depth E l Hwf HE Hl).
Qed.
Lemma act_marks_kind it a d e mk : it ∈ e_trigs E → i_tab it = ev_tab e → i_ev it = ev_kind e → ev_kind e = EvUpd → a ∈ i_acts it →
  mk ∈ act_marks E d e a →
  (∃ m c, m ∈ s_models S ∧ m_table m = ev_tab e ∧ callback_col m c ∧ mk = marker_of m (ev_key e)) ∨ dep_edge S (ev_tab e) mk.1.
Proof.
  intros Hit Ht Hev Hk Ha Hmk.
  destruct (io_sound _ _ _ (E_inst b S rand imm depth E l HE Hl) _ Hit) as (tr1 & Htr1 & _ & Ht1 & Hev1 & _ & _ & Hacts).
  destruct (Hacts _ Ha) as (tr2 & Htr2 & Hn & Ha2). destruct (Hnames _ _ Htr2 Htr1 Hn) as (Hnt & Hne2 & _).
  assert (Htt : t_tab tr2 = ev_tab e) by congruence.
  assert (Hrow : ∀ rf, is_Some (ev_row e rf)).
  { destruct e as [et ek []]; try done. intros []; simpl; eauto. }
  apply (origin_spec S l Hwf Hl) in Htr2.
    assert (Hown : ∀ m f fn ds sk rf, m ∈ s_models S → f ∈ m_fields m → f_kind f = KCallback fn ds sk → m_table m = ev_tab e →
      a = AMark (m_ct m) rf (m_pk m) → ∃ m c, m ∈ s_models S ∧ m_table m = ev_tab e ∧ callback_col m c ∧ mk = marker_of m (ev_key e)).
    { intros m f fn ds sk rf Hm Hf Hfk Hmt ->. simpl in Hmk. apply elem_of_list_singleton in Hmk as ->.
      exists m, (f_col f). split_and!; [done|done|by exists f, fn, ds, sk|]. unfold marker_of. by rewrite pk_ref. }
    destruct Htr2 as [m f fn ds sk Hm Hf Hfk Hb Hi|m f fn ds sk dp o Hm Hf Hfk Hdp Hfo Hi|m f ds dp o Hm Hf Hfk Hdp Hfo Hi|m f a' rel Hm Hf Hfk Hfo Hi].
    - left. unfold cb_self_triggers in Hi. cases_in Hi; simpl in Ha2; apply elem_of_list_singleton in Ha2 as ->; (eapply Hown; [exact Hm|exact Hf|exact Hfk|exact Htt|reflexivity]).
    - assert (Hct : mk.1 = m_ct m).
      { apply marks_ct in Hmk as (ct & <- & Hmk). unfold cb_dep_triggers in Hi. destruct (dep_rel dp); cases_in Hi; simpl in Ha2; cases_in Ha2;
          destruct Hmk as [(?&?&[=])|(?&?&?&?&?&[=])]; done. }
      rewrite Hct. unfold cb_dep_triggers in Hi. destruct (dep_rel dp) as [fk|fk|t c rc|ctc oidc|ctc oidc] eqn:Hrl.
      1,2,4: right; cases_in Hi; rewrite <- Htt; simpl; by eapply de_other.
      + right. apply elem_of_cons in Hi as [->|Hi]; [rewrite <- Htt; by eapply de_link|].
        apply elem_of_cons in Hi as [->|Hi]; [rewrite <- Htt; by eapply de_link|].
        apply elem_of_cons in Hi as [->|Hi]; [rewrite <- Htt; by eapply de_link|].
        apply elem_of_list_singleton in Hi as ->. rewrite <- Htt. by eapply de_other.
      + left. cases_in Hi; simpl in Ha2; cases_in Ha2; (eapply Hown; [exact Hm|exact Hf|exact Hfk|exact Htt|reflexivity]).
    - exfalso. apply marks_ct in Hmk as (ct & <- & Hmk). unfold ck_dep_triggers in Hi. destruct (dep_rel dp); cases_in Hi; simpl in Ha2; cases_in Ha2; destruct Hmk as [(?&?&[=])|(?&?&?&?&?&[=])].
    - exfalso. apply marks_ct in Hmk as (ct & <- & Hmk). unfold agg_triggers in Hi. cases_in Hi; simpl in Ha2; cases_in Ha2; destruct Hmk as [(?&?&[=])|(?&?&?&?&?&[=])].
Qed.

Notation marks_in P x y := (∃ ms, d_dirty y = d_dirty x ++ ms ∧ ∀ mk, mk ∈ ms → P mk).
Lemma marks_refl (P : marker → Prop) x : marks_in P x x.
Proof. exists []. rewrite app_nil_r. split; [done|]. by intros ? ?%elem_of_nil. Qed.
Lemma marks_trans (P : marker → Prop) x y z : marks_in P x y → marks_in P y z → marks_in P x z.
Proof.
  intros (l1 & H1 & A1) (l2 & H2 & A2). exists (l1 ++ l2). rewrite H2, H1, (assoc_L app). split; [done|].
  intros mk [?|?]%elem_of_app; eauto.
Qed.
Lemma marks_mono (P Q : marker → Prop) x y : (∀ mk, P mk → Q mk) → marks_in P x y → marks_in Q x y.
Proof. intros HPQ (ms & H & A). exists ms. eauto. Qed.

Lemma fire_marks n : ∀ act x e y, ev_kind e = EvUpd → fire E n act x e = Ok y → marks_in (may_mark (ev_tab e) (ev_key e)) x y.
Proof.
  induction n as [|n IH]; intros act x e y Hev H; [done|]. simpl in H.
  set (R := λ x y : db, marks_in (may_mark (ev_tab e) (ev_key e)) x y).
  change (R x y). revert H. apply (foldM_rel R); [apply marks_refl|intros ???; apply marks_trans|].
  intros u it v Hit Hu. simpl in Hu. destruct (trig_applies E act e it) eqn:Hta; [|injection Hu as <-; apply marks_refl].
  unfold trig_applies in Hta. rewrite !andb_true_iff, !bool_decide_eq_true in Hta. destruct Hta as (((H1 & H2) & _) & H3).
  revert Hu. apply (foldM_rel R); [apply marks_refl|intros ???; apply marks_trans|].
  intros u1 a v1 Ha Hu1.
  assert (Hmarks : ∀ mk, mk ∈ act_marks E u1 e a → may_mark (ev_tab e) (ev_key e) mk).
  { intros mk Hmk. destruct (act_marks_kind it a u1 e mk Hit H1 H2 Hev Ha Hmk) as [(m & c & Hm & Hmt & Hc & ->)|Hd]; [by eapply mm_own|by apply mm_dep]. }
  destruct a as [ct rf c|ct t sc wc rf rc|t c xx w]; simpl in Hu1.
  - injection Hu1 as <-. eexists. split; [done|]. exact Hmarks.
  - injection Hu1 as <-. eexists. split; [done|]. exact Hmarks.
  - clear Hmarks. case_decide; [done|].
    destruct (aupd_source b S rand imm depth E l Hwf HE Hl _ _ _ _ _ Hnames Hit Ha) as (m & Hm & <- & Hs). rewrite H1 in Hs.
    assert (Hup : updates S (ev_tab e) (m_table m)) by (by constructor).
    change (marks_in (may_mark (ev_tab e) (ev_key e)) u1 v1).
    eapply (run_stmt_keep E (λ y, marks_in (may_mark (ev_tab e) (ev_key e)) u1 y) (λ e', ev_tab e' = m_table m ∧ ev_kind e' = EvUpd)); [| |exact Hu1|apply marks_refl].
    + intros x1 ch y1 evs Hch Hst Hap. apply elem_of_list_fmap in Hch as ([k r] & -> & _). simpl in Hap.
      destruct (getrow x1 (m_table m) k) as [o|]; [|by injection Hap as <- <-].
      destruct (expr_val _ _ _ _ _) as [[v0 x2]|] eqn:Hx; [|done]. simpl in Hap. case_match; [|done]. injection Hap as <- <-.
      split; [|by apply Forall_singleton]. by apply expr_val_db in Hx as [-> | ->].
    + intros x1 e1 y1 [He1 He2] Hst Hf. eapply marks_trans; [exact Hst|]. apply IH in Hf; [|done]. eapply marks_mono; [|exact Hf].
      intros mk Hmk. rewrite He1 in Hmk. destruct Hmk as [m1 c1 Hm1 Hmt Hc1 ->|Hd|t' Htc Hd|m1 c1 Htc Hm1 Hc1 Hct].
      * eapply (mm_self _ _ _ m1 c1); [|done|done|done]. rewrite Hmt. by apply tc_once.
      * eapply (mm_upd _ _ _ (m_table m)); [by apply tc_once|done].
      * eapply (mm_upd _ _ _ t'); [by eapply tc_l|done].
      * eapply (mm_self _ _ _ m1 c1); [by eapply tc_l|done|done|done].
Qed.

(** ** What saving a stored row does *)
Context (Hnod : no_m2m_denorm S).
Notation column_not_tw := (column_not_tw b S rand imm depth E l Hwf HE Hl).

Record saved (m : model) (k : Z) (r : row) (q : row) (d d' : db) : Prop := Saved {
  sv_own : ∃ r', getrow d' (m_table m) k = Some r' ∧ ∀ c, column_of m c → col r' c = col q c;
  sv_other : ∀ o j, o ∈ s_models S → o ≠ m ∨ j ≠ k →
     match getrow d (m_table o) j, getrow d' (m_table o) j with
     | None, None => True
     | Some x, Some y => ∀ c, column_of o c → col x c = col y c
     | _, _ => False
     end;
  sv_marks : marks_in (may_mark (m_table m) k) d d'
}.
Lemma save_saved m k r d p : m ∈ s_models S → getrow d (m_table m) k = Some r → save_existing E m k r d = Ok p →
  ∃ q, presave_all E m false (Some k) d r = Ok q ∧ d_tabs q.1 = d_tabs d ∧ d_dirty q.1 = d_dirty d ∧
    exec E (m_table m) [upd_all k q.2] q.1 = Ok p.1 ∧ saved m k r q.2 d p.1.
Proof.
  intros Hm Hr H. unfold save_existing in H. inv_bind H. eapply m2m_pre_save_none in H0; [subst a|done|done].
  inv_bind H. inv_bind H. injection H as <-. simpl. rename a into q, a0 into d2, H0 into Hq, H1 into Hx.
  pose proof (presave_all_db _ _ _ _ _ _ _ Hq) as [Tq Dq]. exists q. split_and!; [done|done|done|done|].
  assert (Hrq : ∀ t j, getrow q.1 t j = getrow d t j) by (intros; unfold getrow, tab; by rewrite Tq).
  unfold exec in Hx. apply run_stmt_single in Hx. unfold run_batch in Hx. inv_bind Hx. destruct a as [d3 evs]. simpl in Hx.
  rewrite apply_all_cons in Hx0. inv_bind Hx0. destruct a as [d4 evs1]. simpl in Hx0. injection Hx0 as <- <-.
  unfold upd_all in Hx1. simpl in Hx1. rewrite Hrq, Hr in Hx1. simpl in Hx1. destruct (_ || _) in Hx1; [|done]. injection Hx1 as <- <-.
  rewrite app_nil_r in Hx. simpl in Hx. inv_bind Hx. injection Hx as <-. rename Hx0 into Hf.
  pose proof (fire_skel _ _ _ _ _ _ Hf) as Hs. apply fire_marks in Hf; [|done]. simpl in Hf.
  split.
  - specialize (Hs (m_table m) k). rewrite getrow_put_eq in Hs. destruct (getrow a (m_table m) k) as [r'|]; [|done].
    exists r'. split; [done|]. intros c Hc. symmetry. apply Hs. by apply column_not_tw.
  - intros o j Ho Hne. specialize (Hs (m_table o) j).
    assert (Hn : ¬ (m_table o = m_table m ∧ j = k)).
    { intros [Ht ->]. destruct Hne as [Hne|]; [|done]. apply Hne. by eapply table_inj. }
    rewrite getrow_put_ne, Hrq in Hs by done. destruct (getrow d (m_table o) j), (getrow a (m_table o) j); try done.
    intros c Hc. apply Hs. by apply column_not_tw.
  - destruct Hf as (ms & Hms & HA). exists ms. by rewrite <- Dq.
Qed.
(** A save that changes no watched column writes the row and nothing else. *)
Lemma save_quiet_rows m k r d q d' : m ∈ s_models S → getrow d (m_table m) k = Some r → d_tabs q.1 = d_tabs d → d_dirty q.1 = d_dirty d →
  presave_all E m false (Some k) d r = Ok q → exec E (m_table m) [upd_all k q.2] q.1 = Ok d' →
  ¬ restless b S m → (∀ c, callback_col m c → col q.2 c = col r c) → rows_updated (m_table m) [k] (λ _, q.2) q.1 d'.
Proof.
  intros Hm Hr Tq Dq Hq Hx Hnr Hcb.
  assert (Hrq : ∀ t j, getrow q.1 t j = getrow d t j) by (intros; unfold getrow, tab; by rewrite Tq).
  pose proof (wf_cols _ _ (wf_models _ Hwf _ Hm)) as Hnd.
  assert (Hu : ∀ g, g ∈ m_fields m → watched S (m_table m) (f_col g) → col q.2 (f_col g) = col r (f_col g)).
  { intros g Hg Hw.
    assert (Huniq : ∀ g', g' ∈ m_fields m → f_col g' = f_col g → g' = g) by (intros; by eapply (NoDup_fmap_eq f_col)).
    destruct (f_kind g) as [| |fn ds sk|a|ds] eqn:Hgk.
    - eapply presave_same; [done|done|done|]. intros g' Hg' Heq. apply Huniq in Heq as ->; [|done]. by rewrite Hgk.
    - destruct Hnr. by eapply rl_auto.
    - apply Hcb. by exists g, fn, ds, sk.
    - eapply presave_same; [done|done|done|]. intros g' Hg' Heq. apply Huniq in Heq as ->; [|done]. by rewrite Hgk.
    - destruct Hnr. by eapply rl_key. }
  eapply (exec_upd_quiet E (m_table m) [k] (λ _, q.2)) in Hx.
  - done.
  - apply NoDup_singleton.
  - intros k' o ->%elem_of_list_singleton Ho it Hit Ht Hev. rewrite Hrq, Hr in Ho. injection Ho as <-.
    eapply (quiet_cond b S rand imm depth E l Hwf HE Hl it (m_table m) k r q.2 Hit Ht Hev).
    + intros c Hw. remember (m_table m) as t eqn:Htm. destruct Hw as [m' sk g Hm' Hso Hg Hsk|m' cf ct g Hm' Hgo Hg|m' g dp t c rc x Hm' Hg Hdp Hrl Hx'].
      * assert (m' = m) as -> by (by eapply table_inj). apply Hu; [done|]. by eapply wa_model.
      * assert (m' = m) as -> by (by eapply table_inj). apply Hu; [done|]. by eapply wa_gen.
      * exfalso. destruct (dep_resolves S l m' g dp Hwf Hl Hm' Hg Hdp) as [o Hfo]. pose proof (wf_deps _ Hwf _ _ _ Hm' Hg Hdp _ Hfo) as Wd.
        rewrite Hrl in Wd. destruct Wd as [Wt _]. by apply (Wt _ Hm).
    + intros Hb cf ct Hg. apply Hnr. by eapply rl_pg.
    + intros Hb m' sk Hm' Ht' Hso Hsk. assert (m' = m) as -> by (by eapply table_inj). apply Hnr. by eapply rl_my.
Qed.
Lemma save_quiet m k r d q d' : m ∈ s_models S → getrow d (m_table m) k = Some r → d_tabs q.1 = d_tabs d → d_dirty q.1 = d_dirty d →
  presave_all E m false (Some k) d r = Ok q → exec E (m_table m) [upd_all k q.2] q.1 = Ok d' →
  ¬ restless b S m → (∀ c, callback_col m c → col q.2 c = col r c) → d_dirty d' = d_dirty d.
Proof.
  intros Hm Hr Tq Dq Hq Hx Hnr Hcb. rewrite <- Dq. by destruct (save_quiet_rows _ _ _ _ _ _ Hm Hr Tq Dq Hq Hx Hnr Hcb) as (Hd & _ & _).
Qed.

(** ** The cells of a run *)
Context (ρ : string → Z → string → nat) (d0 : db) (Hac : value_acyclic S ρ d0).
Definition inv (d : db) : Prop := user_data_kept S d0 d ∧ steady_kept S d0 d.
Lemma inv_start : inv d0.
Proof. split; [apply kept_refl|]. intros o j c _ _ r r' Hr Hr'. congruence. Qed.
Lemma inv_tabs d d' : d_tabs d' = d_tabs d → inv d → inv d'.
Proof.
  intros Ht [H1 H2]. split.
  - eapply kept_trans; [exact H1|]. by apply kept_tabs.
  - intros o j c Ho Hs r r' Hr Hr'. eapply (H2 o j c Ho Hs r r' Hr). unfold getrow, tab in *. by rewrite <- Ht.
Qed.
Lemma inv_steady d d' o j c : inv d → inv d' → o ∈ s_models S → steady S d0 o j c → agree_cell d d' o j c.
Proof.
  intros [K1 A1] [K2 A2] Ho Hs x y Hx Hy. destruct (same_rows_get _ _ _ _ _ _ (proj1 K1 o Ho) Hx) as (z & Hz & _).
  rewrite <- (A1 _ _ _ Ho Hs z x Hz Hx). by apply (A2 _ _ _ Ho Hs).
Qed.
Lemma inv_process mk d d' : inv d → process E S mk d = Ok d' → inv d'.
Proof.
  intros [K A] H. assert (K' : user_data_kept S d0 d') by (eapply kept_trans; [exact K|by eapply process_kept]).
  split; [done|]. intros o j c Ho Hs r r' Hr Hr'. destruct Hs as [Hp|(g & a & rel & Haf & Hg & Hpl & Hv)].
  - pose proof (proj1 K' o Ho j) as Hrow. rewrite Hr, Hr' in Hrow. by apply Hrow.
  - destruct (Hv _ Hr) as [v Hvv]. destruct (same_rows_get _ _ _ _ _ _ (proj1 K' o Ho) Hr') as (z & Hz & _).
    destruct (getrow d (m_table o) j) as [x|] eqn:Hx.
    2:{ exfalso. pose proof (proj1 K o Ho j) as Hrow. by rewrite Hr, Hx in Hrow. }
    assert (Hxv : col x c = VInt v). { rewrite <- Hvv. symmetry. eapply A; [done| |done|done]. right. exists g, a, rel. done. }
    destruct (AggKeep.process_keep b S rand imm depth E l Hwf HE Hl Hnames o g a rel Haf Hpl mk d d' H j x v Hx) as (y & Hy & Hyv).
    { by rewrite Hg. }
    rewrite Hy in Hr'. injection Hr' as <-. rewrite Hvv, <- Hg, Hyv. f_equal. unfold AggEngine.Z0. lia.
Qed.

Lemma plain_not_callback o c : o ∈ s_models S → plain_col o c → callback_col o c → False.
Proof.
  intros Ho (f & Hf & <- & Hk) (g & fn & ds & sk & Hg & Heq & Hgk).
  assert (g = f) as -> by (eapply (NoDup_fmap_eq f_col); [apply (wf_cols _ _ (wf_models _ Hwf _ Ho))|done..]). congruence.
Qed.

(** The value of a callback depends on steady cells and on callback cells of smaller rank. *)
Lemma fn_agree m f fn ds sk k d d' r r' r0 :
  m ∈ s_models S → f ∈ m_fields m → f_kind f = KCallback fn ds sk → inv d → inv d' →
  getrow d0 (m_table m) k = Some r0 → (∀ c, plain_col m c → col r0 c = col r c) →
  (∀ c, steady S d0 m k c → col r c = col r' c) →
  (∀ c, callback_col m c → (ρ (m_table m) k c < ρ (m_table m) k (f_col f))%nat → col r c = col r' c) →
  (∀ o j c, o ∈ s_models S → callback_col o c → (ρ (m_table o) j c < ρ (m_table m) k (f_col f))%nat → agree_cell d d' o j c) →
  fn d (Some k) r = fn d' (Some k) r'.
Proof.
  intros Hm Hf Hk I I' Hr0 Hpl Hst Hcb Hag.
  destruct (Hac m f fn ds sk k r0 Hm Hf Hk Hr0) as (rd & Hro & Hds & Hcells).
  eapply (value_agree S Hwf Hnod d0 d d' (proj1 I) (proj1 I') m f fn ds sk Hm Hf Hk k r0 r r' rd Hds Hpl); [| |done].
  - intros c Hc. destruct (Hcells m k c) as [Hs|[Hc' Hlt]]; [by apply rc_own|by apply Hst|by apply Hcb].
  - intros o j c Ho Hrc. destruct (Hcells _ _ _ Hrc) as [Hs|[Hc' Hlt]]; [by apply inv_steady|by apply Hag].
Qed.

Notation cellid := (model * field * Z)%type.
Definition valid (x : cellid) : Prop := x.1.1 ∈ s_models S ∧ x.1.2 ∈ m_fields x.1.1 ∧
  (∃ fn ds sk, f_kind x.1.2 = KCallback fn ds sk) ∧ is_Some (getrow d0 (m_table x.1.1) x.2).
Definition rk (x : cellid) : nat := ρ (m_table x.1.1) x.2 (f_col x.1.2).
(** The stored value is what the callback returns. *)
Definition okb (d : db) (x : cellid) : bool :=
  match f_kind x.1.2, getrow d (m_table x.1.1) x.2 with
  | KCallback fn _ _, Some r =>
      match fn d (Some x.2) r with
      | Ok pv => match store_value x.1.2 pv with Ok v => bool_decide (v = col r (f_col x.1.2)) | Err _ => false end
      | Err _ => false
      end
  | _, _ => true
  end.
Lemma inv_row d x : inv d → valid x → ∃ r0 r, getrow d0 (m_table x.1.1) x.2 = Some r0 ∧ getrow d (m_table x.1.1) x.2 = Some r ∧
  ∀ c, plain_col x.1.1 c → col r0 c = col r c.
Proof.
  intros [K _] (Hm & _ & _ & [r0 Hr0]). pose proof (proj1 K _ Hm x.2) as Hrow. rewrite Hr0 in Hrow.
  destruct (getrow d (m_table x.1.1) x.2) as [r|]; [|done]. eauto.
Qed.
Lemma okb_same d d' x : inv d → inv d' → valid x →
  (∀ o j c, o ∈ s_models S → callback_col o c → (ρ (m_table o) j c < rk x)%nat → agree_cell d d' o j c) →
  agree_cell d d' x.1.1 x.2 (f_col x.1.2) → okb d' x = okb d x.
Proof.
  intros I I' Hv Hag Hself. destruct (inv_row d x I Hv) as (r0 & r & Hr0 & Hr & Hpl). destruct (inv_row d' x I' Hv) as (r0' & r' & _ & Hr' & _).
  destruct Hv as (Hm & Hf & (fn & ds & sk & Hk) & _). unfold okb. rewrite Hk, Hr, Hr'.
  rewrite (fn_agree x.1.1 x.1.2 fn ds sk x.2 d d' r r' r0 Hm Hf Hk I I' Hr0 Hpl).
  - rewrite (Hself r r' Hr Hr'). done.
  - intros c Hs. eapply (inv_steady d d'); [exact I|exact I'|exact Hm|exact Hs|done|done].
  - intros c Hc Hlt. by eapply (Hag x.1.1 x.2 c).
  - exact Hag.
Qed.

(** ** One save *)
Section step.
  Context (m : model) (k : Z) (r : row) (d : db) (q : db * row) (d' : db).
  Context (Hm : m ∈ s_models S) (Hr : getrow d (m_table m) k = Some r) (I : inv d) (I' : inv d').
  Context (Hq : presave_all E m false (Some k) d r = Ok q) (Hsv : saved m k r q.2 d d').

  Lemma step_row0 : ∃ r0, getrow d0 (m_table m) k = Some r0 ∧ ∀ c, plain_col m c → col r0 c = col r c.
  Proof using Hm Hr I. apply (same_rows_get _ _ _ _ _ _ (proj1 (proj1 I) m Hm) Hr). Qed.
  Lemma callback_column o c : callback_col o c → column_of o c.
  Proof using. intros (f & fn & ds & sk & Hf & Hc & Hk). exists f. split_and!; [done|done|]. unfold plain_or_callback. by rewrite Hk. Qed.
  Lemma step_steady c : steady S d0 m k c → col q.2 c = col r c.
  Proof using Hwf Hm Hr Hq.
    intros Hs. pose proof (wf_cols _ _ (wf_models _ Hwf _ Hm)) as Hnd. eapply presave_same; [exact Hnd|done|done|].
    intros g Hg <-. destruct Hs as [(f & Hf & Heq & Hk)|(f & a & rel & Haf & Heq & _)].
    - assert (f = g) as <- by (by eapply (NoDup_fmap_eq f_col)). by rewrite Hk.
    - assert (f = g) as <- by (eapply (NoDup_fmap_eq f_col); [exact Hnd|apply (af_field _ _ _ _ _ Haf)|done..]). by rewrite (af_kind _ _ _ _ _ Haf).
  Qed.
  (** A callback cell keeps its value unless it belongs to the saved row and is recomputed. *)
  Lemma step_agree o j c : o ∈ s_models S → callback_col o c → (o = m → j = k → col q.2 c = col r c) → agree_cell d d' o j c.
  Proof using Hm Hr Hsv Hwf.
    intros Ho Hc Hsame x y Hx Hy. destruct (decide (m_name o = m_name m ∧ j = k)) as [[Hn ->]|Hne].
    - assert (o = m) as -> by (eapply (NoDup_fmap_eq m_name); [apply (wf_names _ Hwf)|done..]).
      destruct (sv_own _ _ _ _ _ _ Hsv) as (r' & Hr' & Hcol). rewrite Hr in Hx. rewrite Hr' in Hy. injection Hx as <-. injection Hy as <-.
      rewrite Hcol by by apply callback_column. symmetry. by apply Hsame.
    - assert (Hor : o ≠ m ∨ j ≠ k). { destruct (decide (j = k)); [left|by right]. intros ->. by apply Hne. }
      pose proof (sv_other _ _ _ _ _ _ Hsv o j Ho Hor) as Hrow. rewrite Hx, Hy in Hrow. apply Hrow. by apply callback_column.
  Qed.

  Definition changed (f : field) : Prop := (∃ fn ds sk, f_kind f = KCallback fn ds sk) ∧ col q.2 (f_col f) ≠ col r (f_col f).
  #[global] Instance changed_dec f : Decision (changed f).
  Proof using.
    unfold changed. destruct (f_kind f) as [| |fn ds sk|a|ds]; try (right; naive_solver).
    destruct (decide (col q.2 (f_col f) = col r (f_col f))); [right; naive_solver|left]. split; eauto.
  Qed.
  (** If all cells of smaller rank of this row stay the same, the new value is what the
      callback returned before. *)
  Lemma step_value f fn ds sk : f ∈ m_fields m → f_kind f = KCallback fn ds sk →
    (∀ c, callback_col m c → (ρ (m_table m) k c < ρ (m_table m) k (f_col f))%nat → col q.2 c = col r c) →
    ∃ pv, fn d (Some k) r = Ok pv ∧ store_value f pv = Ok (col q.2 (f_col f)).
  Proof using Hwf Hnod Hac Hm Hr I Hq HE Hl.
    intros Hf Hk Hlow. pose proof (wf_cols _ _ (wf_models _ Hwf _ Hm)) as Hnd.
    destruct (presave_seen E m k f fn ds sk d r q Hnd Hf Hk Hr Hq) as (di & ri & pv & Td & Hfn & Hst & Hseen).
    exists pv. split; [|done]. rewrite <- Hfn. destruct step_row0 as (r0 & Hr0 & Hpl).
    assert (Ii : inv di) by by eapply inv_tabs.
    assert (Hg : ∀ t j, getrow di t j = getrow d t j) by (intros; unfold getrow, tab; by rewrite Td).
    eapply (fn_agree m f fn ds sk k d di r ri r0); [done..| | | ].
    - intros c Hs. destruct (Hseen c) as [->| ->]; [done|]. symmetry. by apply step_steady.
    - intros c Hc Hlt. destruct (Hseen c) as [->| ->]; [done|]. symmetry. by apply Hlow.
    - intros o j c _ _ _ x y Hx Hy. rewrite Hg in Hy. congruence.
  Qed.

  Lemma step_right n : (∀ c, callback_col m c → (ρ (m_table m) k c < n)%nat → col q.2 c = col r c) →
    ∀ f, f ∈ m_fields m → (∃ fn ds sk, f_kind f = KCallback fn ds sk) → (ρ (m_table m) k (f_col f) ≤ n)%nat → okb d' (m, f, k) = true.
  Proof.
    intros Hlow f Hf (fn & ds & sk & Hk) Hle.
    assert (Hag : ∀ o j c, o ∈ s_models S → callback_col o c → (ρ (m_table o) j c < n)%nat → agree_cell d d' o j c).
    { intros o j c Ho Hc Hlt. apply step_agree; [done|done|]. intros -> ->. by apply Hlow. }
    destruct (step_value f fn ds sk Hf Hk) as (pv & Hfn & Hst).
    { intros c Hc Hlt. apply Hlow; [done|lia]. }
    destruct (sv_own _ _ _ _ _ _ Hsv) as (r' & Hr' & Hcol). destruct step_row0 as (r0 & Hr0 & Hpl).
    unfold okb. simpl. rewrite Hk, Hr'. rewrite <- (fn_agree m f fn ds sk k d d' r r' r0 Hm Hf Hk I I' Hr0 Hpl).
    - rewrite Hfn, Hst. apply bool_decide_eq_true. symmetry. apply Hcol. exists f. split_and!; [done|done|]. unfold plain_or_callback. by rewrite Hk.
    - intros c Hs. eapply (inv_steady d d' m k c I I' Hm Hs); done.
    - intros c Hc Hlt. eapply (Hag m k c Hm Hc); [lia|done|done].
    - intros o j c Ho Hc Hlt. apply Hag; [done|done|]. lia.
  Qed.
  Lemma step_unchanged x : valid x → (∀ f, f ∈ m_fields m → ¬ changed f) → okb d' x = okb d x.
  Proof.
    intros Hv Hno. assert (Hag : ∀ o j c, o ∈ s_models S → callback_col o c → agree_cell d d' o j c).
    { intros o j c Ho Hc. apply step_agree; [done|done|]. intros -> ->. destruct Hc as (f & fn & ds & sk & Hf & <- & Hk).
      destruct (decide (col q.2 (f_col f) = col r (f_col f))); [done|]. destruct (Hno f Hf). split; eauto. }
    apply okb_same; [done..| |]; intros; [by apply Hag|]. destruct Hv as (Hm' & Hf & (fn & ds & sk & Hk) & _). apply Hag; [done|].
    by exists x.1.2, fn, ds, sk.
  Qed.
  Lemma step_changed f0 : f0 ∈ m_fields m → changed f0 →
    (∀ f, f ∈ m_fields m → changed f → (ρ (m_table m) k (f_col f0) ≤ ρ (m_table m) k (f_col f))%nat) →
    okb d (m, f0, k) = false ∧ okb d' (m, f0, k) = true ∧
    ∀ x, valid x → (rk x ≤ ρ (m_table m) k (f_col f0))%nat → okb d' x = false → okb d x = false.
  Proof.
    intros Hf0 [(fn0 & ds0 & sk0 & Hk0) Hch] Hmin. set (n := ρ (m_table m) k (f_col f0)) in *.
    assert (Hlow : ∀ c, callback_col m c → (ρ (m_table m) k c < n)%nat → col q.2 c = col r c).
    { intros c (f & fn & ds & sk & Hf & <- & Hk) Hlt. destruct (decide (col q.2 (f_col f) = col r (f_col f))); [done|].
      assert (changed f) as Hc by (split; eauto). specialize (Hmin f Hf Hc). lia. }
    assert (Hag : ∀ o j c, o ∈ s_models S → callback_col o c → (ρ (m_table o) j c < n)%nat → agree_cell d d' o j c).
    { intros o j c Ho Hc Hlt. apply step_agree; [done|done|]. intros -> ->. by apply Hlow. }
    assert (Hrow := step_right n Hlow).
    split_and!.
    - destruct (step_value f0 fn0 ds0 sk0 Hf0 Hk0 Hlow) as (pv & Hfn & Hst). unfold okb. simpl. rewrite Hk0, Hr, Hfn, Hst.
      by apply bool_decide_eq_false.
    - apply Hrow; [done|eauto|lia].
    - intros x Hv Hle Hno. destruct x as [[m' f'] k']. destruct (decide (m_name m' = m_name m ∧ k' = k)) as [[Hn ->]|Hne].
      + destruct Hv as (Hm' & Hf' & Hk' & _). simpl in *.
        assert (m' = m) as -> by (eapply (NoDup_fmap_eq m_name); [apply (wf_names _ Hwf)|done..]).
        unfold rk in Hle. simpl in Hle. rewrite Hrow in Hno; done.
      + rewrite <- Hno. symmetry. apply okb_same; [done|done|done| |].
        * intros o j c Ho Hc Hlt. apply Hag; [done|done|]. lia.
        * destruct Hv as (Hm' & Hf' & (fn & ds & sk & Hk') & _). simpl in *. apply step_agree; [done|by exists f', fn, ds, sk|].
          intros -> ->. by destruct Hne.
  Qed.
End step.

(** ** The measure *)
Context (cells : list cellid) (Hvalid : ∀ x, x ∈ cells → valid x).
Context (Hall : ∀ m f fn ds sk k, m ∈ s_models S → f ∈ m_fields m → f_kind f = KCallback fn ds sk → is_Some (getrow d0 (m_table m) k) →
  (m, f, k) ∈ cells).
Context (R : nat) (HR : ∀ x, x ∈ cells → (rk x ≤ R)%nat).
Definition weight (n : nat) : nat := Nat.pow (Datatypes.S (length cells)) (R - n).
Definition mu (d : db) : nat := sum_list ((λ x, if okb d x then 0%nat else weight (rk x)) <$> cells).

Lemma mu_same d d' : (∀ x, x ∈ cells → okb d' x = okb d x) → mu d' = mu d.
Proof. intros H. unfold mu. f_equal. apply fmap_ext_in. intros x Hx. by rewrite H. Qed.
Lemma mu_less d d' x0 : x0 ∈ cells → okb d x0 = false → okb d' x0 = true →
  (∀ x, x ∈ cells → (rk x ≤ rk x0)%nat → okb d' x = false → okb d x = false) → (mu d' < mu d)%nat.
Proof.
  intros Hin H0 H1 Hle. set (e := if decide (rk x0 < R)%nat then weight (Datatypes.S (rk x0)) else 0%nat).
  assert (Hpos : ∀ n, (0 < weight n)%nat) by (intros; unfold weight; apply Nat.neq_0_lt_0, Nat.pow_nonzero; lia).
  apply (sum_lt cells _ _ e x0); [done| |].
  - rewrite H0, H1. unfold e. case_decide as Hd; [|specialize (Hpos (rk x0)); lia].
    unfold weight. replace (R - rk x0)%nat with (Datatypes.S (R - Datatypes.S (rk x0))) by lia. rewrite Nat.pow_succ_r'.
    specialize (Hpos (Datatypes.S (rk x0))). unfold weight in Hpos. nia.
  - intros x Hx. destruct (okb d' x) eqn:Ho; [lia|]. destruct (decide (rk x ≤ rk x0)%nat) as [Hr|Hr].
    + rewrite (Hle x Hx Hr Ho). lia.
    + specialize (HR x Hx). unfold e. rewrite decide_True by lia.
      assert (weight (rk x) ≤ weight (Datatypes.S (rk x0)))%nat; [|lia]. unfold weight. apply Nat.pow_le_mono_r; lia.
Qed.

Lemma mu_tabs d d' : inv d → d_tabs d' = d_tabs d → mu d' = mu d.
Proof.
  intros I Ht. apply mu_same. intros x Hx.
  assert (Hg : ∀ o j c, agree_cell d d' o j c).
  { intros o j c u v Hu Hv. unfold getrow, tab in *. rewrite Ht in Hv. congruence. }
  apply okb_same; [done|by eapply inv_tabs|by apply Hvalid|done|done].
Qed.

Context (σ : Z → nat) (Hcalm : calm b S σ).
(** Processing one marker makes the measure smaller, or adds only markers that a
    restless row causes. *)
Lemma process_step mk d d' : inv d → process E S mk d = Ok d' →
  (mu d' < mu d)%nat ∨ (mu d' = mu d ∧ ∀ x, x ∈ d_dirty d' → x ≠ mk ∧
    (x ∈ d_dirty d ∨ (σ x.1 < σ mk.1)%nat)).
Proof.
  intros I H. pose proof (inv_process _ _ _ I H) as I'. unfold process in H. inv_bind H. injection H as <-. rename a into d1, H0 into Hps.
  assert (I1 : inv d1) by (by eapply inv_tabs; [|exact I']).
  assert (Hmu : mu (unmark d1 mk) = mu d1) by (by apply mu_tabs). rewrite Hmu.
  assert (Hne : ∀ x, x ∈ d_dirty (unmark d1 mk) → x ≠ mk ∧ x ∈ d_dirty d1) by (intros x Hx; simpl in Hx; by apply elem_of_list_filter in Hx).
  assert (Hsame : d1 = d → (mu d1 < mu d)%nat ∨ (mu d1 = mu d ∧ ∀ x, x ∈ d_dirty (unmark d1 mk) → x ≠ mk ∧
    (x ∈ d_dirty d ∨ (σ x.1 < σ mk.1)%nat))).
  { intros ->. right. split; [done|]. intros x Hx. apply Hne in Hx as [? ?]. auto. }
  unfold process_save in Hps. inv_bind Hps. destruct a as [[[m k] r]|]; [|injection Hps as <-; by apply Hsame].
  destruct (content_object_some _ _ _ _ _ _ Hps0) as (Hm & Hr & Hmk). destruct (m_truthy m r); [|injection Hps as <-; by apply Hsame].
  clear Hsame. inv_bind Hps. injection Hps as <-. rename a into p, Hps1 into Hsave.
  destruct (save_saved m k r d p Hm Hr Hsave) as (q & Hq & Tq & Dq & Hx & Hsv).
  pose (ch := filter (changed r q) (m_fields m)).
  destruct (decide (ch = [])) as [Hch|Hch].
  - right. assert (Hno : ∀ f, f ∈ m_fields m → ¬ changed r q f).
    { intros f Hf Hc. assert (Hin : f ∈ ch) by (by apply elem_of_list_filter). rewrite Hch in Hin. by apply elem_of_nil in Hin. }
    split. { apply mu_same. intros x Hin. eapply (step_unchanged m k r d q p.1); eauto. }
    intros x Hin. apply Hne in Hin as [Hxne Hin]. split; [done|].
    destruct (sv_marks _ _ _ _ _ _ Hsv) as (ms & Hms & HA).
    rewrite Hms in Hin. apply elem_of_app in Hin as [Hin|Hin]; [by left|].
    right. assert (Hec : echo S m x.1).
    { specialize (HA x Hin). destruct HA as [m1 c1 Hm1 Ht1 Hc1 ->|Hd|t' Htc Hd|m1 c1 Htc Hm1 Hc1 Hct].
      - exfalso. apply Hxne. assert (m1 = m) as -> by (by eapply table_inj). done.
      - by apply ec_dep.
      - by eapply ec_upd.
      - by eapply ec_self. }
    subst mk. simpl. destruct (decide (σ x.1 < σ (m_ct m))%nat) as [|Hn]; [done|exfalso].
    assert (Hq' : d_dirty p.1 = d_dirty d).
    { eapply (save_quiet m k r d q p.1); [done..| |].
      - intros Hrl. apply Hn. by apply Hcalm.
      - intros c (f & fn & ds & sk & Hf & <- & Hk). destruct (decide (col q.2 (f_col f) = col r (f_col f))); [done|].
        destruct (Hno f Hf). split; eauto. }
    rewrite Hq' in Hms. assert (ms = []) as ->; [|by apply elem_of_nil in Hin].
    apply (f_equal length) in Hms. rewrite app_length in Hms. apply nil_length_inv. lia.
  - left. destruct (min_exists (λ f, ρ (m_table m) k (f_col f)) ch Hch) as (f0 & Hf0 & Hmin).
    apply elem_of_list_filter in Hf0 as [Hc0 Hf0].
    destruct (step_changed m k r d q p.1 Hm Hr I I1 Hq Hsv f0 Hf0 Hc0) as (A1 & A2 & A3).
    { intros f Hf Hc. apply Hmin. by apply elem_of_list_filter. }
    destruct Hc0 as [(fn & ds & sk & Hk) _].
    apply (mu_less d p.1 (m, f0, k)); [|done|done|].
    + eapply Hall; [done..|]. destruct (same_rows_get _ _ _ _ _ _ (proj1 (proj1 I) m Hm) Hr) as (r0 & Hr0 & _). by rewrite Hr0.
    + intros x Hin Hle. apply A3; [by apply Hvalid|exact Hle].
Qed.

Lemma pass_step mks d d' : inv d → flush_pass E S mks d = (d', Done) →
  inv d' ∧ ((mu d' < mu d)%nat ∨ (mu d' = mu d ∧ ∀ x, x ∈ d_dirty d' →
    (x ∈ d_dirty d ∧ x ∉ mks) ∨ ∃ mk, mk ∈ mks ∧ (σ x.1 < σ mk.1)%nat)).
Proof.
  revert d. induction mks as [|mk mks IH]; intros d I H; simpl in H.
  { injection H as <-. split; [done|]. right. split; [done|]. intros x Hx. left. split; [done|]. by intros ?%elem_of_nil. }
  destruct (process E S mk d) as [d1|] eqn:Hp; [|done]. pose proof (inv_process _ _ _ I Hp) as I1.
  destruct (IH d1 I1 H) as [I' Hpass]. split; [done|]. destruct (process_step _ _ _ I Hp) as [Hlt|[Heq Hx]].
  { left. destruct Hpass as [?|[? _]]; lia. }
  destruct Hpass as [?|[Heq' Hx']]; [left; lia|]. right. split; [lia|]. intros x Hin.
  destruct (Hx' x Hin) as [[Hin1 Hnot]|(mk' & Hmk' & Hlt)]; [|right; exists mk'; split; [by right|done]].
  destruct (Hx x Hin1) as [Hne [Hd|Hlt]].
  - left. split; [done|]. intros [?|?]%elem_of_cons; done.
  - right. exists mk. split; [left|done].
Qed.
Lemma flush_pass_stops mks d d' : flush_pass E S mks d ≠ (d', Running).
Proof. revert d. induction mks as [|mk mks IH]; intros d; simpl; [done|]. destruct (process E S mk d); [apply IH|done]. Qed.

Context (ord : db → list marker → list marker) (Hord : ∀ x l mk, mk ∈ ord x l ↔ mk ∈ l).
Lemma snapshot_elem d mk : mk ∈ snapshot E ord d ↔ mk ∈ d_dirty d.
Proof. unfold snapshot. destruct (e_be E); rewrite Hord; [done|apply elem_of_remove_dups|done]. Qed.
Lemma flush_stops N : ∀ B d, inv d → (mu d ≤ N)%nat → (∀ x, x ∈ d_dirty d → (σ x.1 < B)%nat) → ∃ n, (flush E S ord n d).2 ≠ Running.
Proof.
  induction N as [N IHN] using lt_wf_ind. induction B as [|B IHB]; intros d I HN HB.
  { exists 1%nat. simpl. rewrite decide_True; [done|]. destruct (d_dirty d) as [|x ?]; [done|]. specialize (HB x ltac:(left)). lia. }
  destruct (decide (d_dirty d = [])) as [He|He]; [exists 1%nat; simpl; by rewrite decide_True|].
  destruct (flush_pass E S (snapshot E ord d) d) as [d1 o] eqn:Hp. destruct o as [|e|].
  - destruct (pass_step _ _ _ I Hp) as [I1 Hs].
    assert (Hn : ∃ n, (flush E S ord n d1).2 ≠ Running).
    { destruct Hs as [Hlt|[Heq Hx]].
      - destruct (max_bound (λ x : marker, σ x.1) (d_dirty d1)) as [M HM].
        eapply (IHN (mu d1) ltac:(lia) (Datatypes.S M)); [done|done|]. intros x Hin. specialize (HM x Hin). simpl in HM. lia.
      - apply IHB; [done|lia|]. intros x Hin. destruct (Hx x Hin) as [[Hd Hn]|(mk & Hmk & Hlt)].
        + exfalso. apply Hn. by apply snapshot_elem.
        + apply snapshot_elem, HB in Hmk. lia. }
    destruct Hn as [n Hn]. exists (Datatypes.S n). simpl. rewrite decide_False, Hp by done. exact Hn.
  - exists 1%nat. simpl. by rewrite decide_False, Hp by done.
  - by apply flush_pass_stops in Hp.
Qed.
End term.

Definition all_cells (S : schema) (d : db) : list (model * field * Z) :=
  m ← s_models S; f ← m_fields m;
  match f_kind f with KCallback _ _ _ => (λ p : Z * row, (m, f, p.1)) <$> map_to_list (tab d (m_table m)) | _ => [] end.
Lemma all_cells_spec S d m f k : (m, f, k) ∈ all_cells S d ↔
  m ∈ s_models S ∧ f ∈ m_fields m ∧ (∃ fn ds sk, f_kind f = KCallback fn ds sk) ∧ is_Some (getrow d (m_table m) k).
Proof.
  unfold all_cells. rewrite elem_of_list_bind. setoid_rewrite elem_of_list_bind. split.
  - intros (m' & (f' & Hin & Hf) & Hm). destruct (f_kind f') as [| |fn ds sk|a|ds] eqn:Hk; try by apply elem_of_nil in Hin.
    apply elem_of_list_fmap in Hin as ([k' r] & [= -> -> ->] & Hin). apply elem_of_map_to_list in Hin. split_and!; [done|done|eauto|].
    by exists r.
  - intros (Hm & Hf & (fn & ds & sk & Hk) & [r Hr]). exists m. split; [|done]. exists f. split; [|done]. rewrite Hk.
    apply elem_of_list_fmap. exists (k, r). split; [done|]. by apply elem_of_map_to_list.
Qed.

Lemma flush_terminates_ok b S rand imm depth E ρ σ ord d :
  mk_env b S rand imm depth = Ok E → wf_schema S → names_apart S → no_m2m_denorm S →
  value_acyclic S ρ d → calm b S σ → (∀ x l mk, mk ∈ ord x l ↔ mk ∈ l) →
  ∃ n, (flush E S ord n d).2 ≠ Running.
Proof.
  intros HE Hwf Hna Hnod Hac Hcalm Hord. destruct (mk_env_gen _ _ _ _ _ _ HE) as [l Hl].
  destruct (max_bound (rk ρ) (all_cells S d)) as [R HR].
  destruct (max_bound (λ x : marker, σ x.1) (d_dirty d)) as [M HM].
  eapply (flush_stops b S rand imm depth E l Hwf HE Hl ltac:(by eapply names_apart_ok) Hnod ρ d Hac (all_cells S d)) with (R := R) (σ := σ) (B := Datatypes.S M); [| |exact HR|exact Hcalm|exact Hord|apply inv_start|reflexivity|].
  - intros [[m f] k] Hx. by apply all_cells_spec in Hx.
  - intros m f fn ds sk k Hm Hf Hk Hr. apply all_cells_spec. split_and!; [done|done|eauto|done].
  - intros x Hin. specialize (HM x Hin). simpl in HM. lia.
Qed.
