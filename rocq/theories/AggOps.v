(** * Statements, operations, flushes and rebuilds keep aggregates exact. *)
From Verif Require Import Base BaseLemmas Schema TrigSet Gen Exec Orm Flush Machine Spec SpecAgg Engine GenLemmas Marking Conditions Invariant Settle Sessions Frame Hist Agg AggEngine.

Section agg.
Context (b : backend) (S : schema) (rand : nat → Z) (depth : nat) (E : env) (l : list trigger).
Context (Hwf : wf_schema S) (HE : mk_env b S rand true depth = Ok E) (Hl : gen_all S = Ok l) (Hnames : names_ok b l).
Context (m : model) (f : field) (a : agg) (rel : model) (Haf : agg_link S m f a rel).
Notation T := (m_table m).
Notation R := (m_table rel).
Notation c := (f_col f).
Notation delta := (delta a rel).
Notation Rz := (Rz m f).

Lemma fk_in : e_fkimm E = true ∧ (R, ag_fk a, T) ∈ e_fks E.
Proof.
  destruct (E_fields _ _ _ _ _ _ _ HE Hl) as (_ & _ & _ & -> & -> & _). split; [done|].
  destruct (al_fk _ _ _ _ _ Haf) as (g & Hg & Hc & Hfk). unfold schema_fks. apply elem_of_list_bind. exists rel.
  pose proof (rel_in S m f a rel Haf) as Hr. split; [|done].
  rewrite (wf_noproxy _ _ (wf_models _ Hwf _ Hr)). apply elem_of_app. left. apply elem_of_list_bind.
  exists g. split; [|done]. rewrite Hfk. simpl. rewrite (find_model_self S m (wf_names _ Hwf) (al_model _ _ _ _ _ Haf)).
  rewrite decide_True by (by apply (wf_owner _ _ (wf_models _ Hwf _ Hr))). rewrite Hc. by left.
Qed.
Lemma fk_row dd j r k : fk_row_ok E dd R j r = true → col r (ag_fk a) = VInt k → is_Some (getrow dd T k).
Proof.
  destruct fk_in as [_ Hfk]. intros Hok Hc. unfold fk_row_ok in Hok. rewrite forallb_forall in Hok.
  specialize (Hok _ (proj1 (elem_of_list_In _ _) Hfk)). simpl in Hok.
  rewrite bool_decide_true in Hok by done. simpl in Hok.
  rewrite (cell_col b S rand true depth E l Hwf HE Hl m f a rel Haf) in Hok by left. rewrite Hc in Hok. by apply bool_decide_eq_true in Hok.
Qed.
Lemma fk_del dd k j r : fk_del_ok E dd T k = true → getrow dd R j = Some r → col r (ag_fk a) ≠ VInt k.
Proof.
  destruct fk_in as [_ Hfk]. intros Hok Hg Hc. unfold fk_del_ok in Hok. rewrite forallb_forall in Hok.
  specialize (Hok _ (proj1 (elem_of_list_In _ _) Hfk)). simpl in Hok.
  rewrite bool_decide_true in Hok by done. simpl in Hok. rewrite forallb_forall in Hok.
  assert (Hin : (j, r) ∈ map_to_list (tab dd R)) by (by apply elem_of_map_to_list).
  specialize (Hok _ (proj1 (elem_of_list_In _ _) Hin)). simpl in Hok.
  rewrite (cell_col b S rand true depth E l Hwf HE Hl m f a rel Haf) in Hok by left. rewrite Hc in Hok. by rewrite bool_decide_true in Hok.
Qed.

(** The aggregate is short of [z k] in every row [k]; nothing is pending for missing
    rows except those whose key was already handled by the running statement. *)
Record owed (D : list Z) (z : Z → Z) (d : db) : Prop := Owed {
  ow_fk : fk_valid m a rel d;
  ow_row : ∀ k r, getrow d T k = Some r → ∃ v, col r c = VInt v ∧ v + z k = recount a R d k;
  ow_none : ∀ k, getrow d T k = None → k ∈ D ∨ z k = 0
}.
Definition clean_in (d : db) (t : string) (ch : change) : Prop := t = T →
  match ch with
  | CIns _ r => col r c = VInt 0
  | CUpd k g => ∀ o p, getrow d T k = Some o → g d o = Ok p → col p.1 c = col o c
  | CDel _ => True
  end.
Definition evsum (evs : list event) (k : Z) : Z := zsum (λ e, delta e k) evs.
Lemma contrib_fk k r : contrib a k r ≠ 0 → col r (ag_fk a) = VInt k.
Proof. unfold contrib. case_decide; naive_solver. Qed.
Lemma recount_gone d k : fk_valid m a rel d → getrow d T k = None → recount a R d k = 0.
Proof.
  intros Hv Hn. unfold recount. apply msum_zero. intros j z Hz. rewrite lookup_fmap in Hz.
  destruct (tab d R !! j) as [r|] eqn:Hj; [|done]. injection Hz as <-.
  destruct (decide (contrib a k r = 0)) as [|Hne]; [done|]. apply contrib_fk in Hne.
  destruct (Hv j r k Hj Hne) as [? Hs]. congruence.
Qed.

Lemma change_owed D z t d ch d' evs : ch_quiet ch → clean_in d t ch → ch_key ch ∉ D →
  apply_change E t d ch = Ok (d', evs) → owed D z d → owed (ch_key ch :: D) (λ k, z k + evsum evs k) d'.
Proof.
  intros Hq Hcl Hnk H Ho. pose proof fk_in as [Himm _].
  destruct ch as [k r|k g|k]; simpl in H, Hnk.
  - destruct (getrow d t k) eqn:Hg; [done|]. rewrite Himm in H. cbn [negb orb] in H.
    destruct (fk_row_ok _ _ _ _ _) eqn:Hok; [|done]. injection H as <- <-. unfold evsum. cbn [zsum foldr].
    assert (Hmono : ∀ k', is_Some (getrow d T k') → is_Some (getrow (put_row d t k r) T k')).
    { intros k' Hs. rewrite getrow_put. case_decide; [by eexists|done]. }
    assert (Hvalid : fk_valid m a rel (put_row d t k r)).
    { intros j r' k' Hj Hc. rewrite getrow_put in Hj. case_decide as Hd.
      - destruct Hd as [<- <-]. injection Hj as ->. by eapply fk_row.
      - apply Hmono. by eapply (ow_fk _ _ _ Ho). }
    assert (Hrc : ∀ k', recount a R (put_row d t k r) k' = recount a R d k' + delta (Ev t k (ChIns r)) k').
    { intros k'. rewrite recount_put. unfold AggEngine.delta. cbn [ev_tab]. destruct (decide (t = R)) as [->|]; [|done]. rewrite Hg. simpl. lia. }
    split; [done|..].
    + intros k' r' Hr'. rewrite getrow_put in Hr'. case_decide as Hd.
      * destruct Hd as [<- <-]. injection Hr' as <-. exists 0. split; [by apply Hcl|]. rewrite Hrc, (recount_gone d) by (done || apply Ho).
        destruct (ow_none _ _ _ Ho _ Hg) as [?| -> ]; [done|]. lia.
      * destruct (ow_row _ _ _ Ho _ _ Hr') as (v & Hv & Hs). exists v. split; [done|]. rewrite Hrc. lia.
    + intros k' Hn. rewrite getrow_put in Hn. case_decide as Hd; [done|]. destruct (ow_none _ _ _ Ho k' Hn) as [?|Hz]; [left; by right|].
      right. rewrite Hz. unfold AggEngine.delta. cbn [ev_tab]. destruct (decide (t = R)) as [->|]; [|done]. simpl.
      destruct (decide (contrib a k' r = 0)) as [->|Hne]; [done|]. apply contrib_fk in Hne.
      destruct (fk_row _ _ _ _ Hok Hne) as [? Hs]. rewrite getrow_put, decide_False in Hs by done. congruence.
  - destruct (getrow d t k) as [o|] eqn:Hg.
    2: { injection H as <- <-. destruct Ho as [H1 H2 H3]. unfold evsum. cbn [zsum foldr]. split; [done|..].
         - intros k' r' Hr'. destruct (H2 _ _ Hr') as (v & ? & ?). exists v. split; [done|]. lia.
         - intros k' Hn. destruct (H3 _ Hn); [left; by right|right; lia]. }
    inv_bind H. rewrite Himm in H. cbn [negb orb] in H.
    destruct (fk_row_ok _ _ _ _ _) eqn:Hok; [|done]. injection H as <- <-. destruct a0 as [r d1]. simpl in Hok. cbn [fst snd].
    unfold evsum. cbn [zsum foldr]. pose proof (Hq _ _ _ H0) as [_ Hts]. simpl in Hts.
    assert (Heq : ∀ t' k', getrow d1 t' k' = getrow d t' k') by (intros; unfold getrow, tab; by rewrite Hts).
    assert (Hmono : ∀ k', is_Some (getrow d T k') → is_Some (getrow (put_row d1 t k r) T k')).
    { intros k' Hs. rewrite getrow_put. case_decide; [by eexists|by rewrite Heq]. }
    assert (Hvalid : fk_valid m a rel (put_row d1 t k r)).
    { intros j r' k' Hj Hc. rewrite getrow_put in Hj. case_decide as Hd.
      - destruct Hd as [<- <-]. injection Hj as ->. by eapply fk_row.
      - apply Hmono. rewrite Heq in Hj. by eapply (ow_fk _ _ _ Ho). }
    assert (Hrc : ∀ k', recount a R (put_row d1 t k r) k' = recount a R d k' + delta (Ev t k (ChUpd o r)) k').
    { intros k'. rewrite recount_put, (recount_tabs _ _ d) by done. unfold AggEngine.delta. cbn [ev_tab]. destruct (decide (t = R)) as [->|]; [|done].
      rewrite Heq, Hg. done. }
    split; [done|..].
    + intros k' r' Hr'. rewrite getrow_put in Hr'. case_decide as Hd.
      * destruct Hd as [<- <-]. injection Hr' as <-. destruct (ow_row _ _ _ Ho _ _ Hg) as (v & Hv & Hs). exists v. split.
        -- rewrite <- Hv. apply (Hcl eq_refl _ _ Hg H0).
        -- rewrite Hrc. lia.
      * rewrite Heq in Hr'. destruct (ow_row _ _ _ Ho _ _ Hr') as (v & Hv & Hs). exists v. split; [done|]. rewrite Hrc. lia.
    + intros k' Hn. rewrite getrow_put in Hn. case_decide as Hd; [done|]. rewrite Heq in Hn.
      destruct (ow_none _ _ _ Ho k' Hn) as [?|Hz]; [left; by right|].
      right. rewrite Hz. unfold AggEngine.delta. cbn [ev_tab]. destruct (decide (t = R)) as [->|]; [|done]. simpl.
      assert (contrib a k' r = 0) as ->.
      { destruct (decide (contrib a k' r = 0)) as [|Hne]; [done|]. apply contrib_fk in Hne.
        destruct (fk_row _ _ _ _ Hok Hne) as [? Hs]. rewrite getrow_put, decide_False in Hs by done. rewrite Heq in Hs. congruence. }
      assert (contrib a k' o = 0) as ->; [|done].
      destruct (decide (contrib a k' o = 0)) as [|Hne]; [done|]. apply contrib_fk in Hne.
      destruct (ow_fk _ _ _ Ho _ _ _ Hg Hne). congruence.
  - destruct (getrow d t k) as [o|] eqn:Hg.
    2: { injection H as <- <-. destruct Ho as [H1 H2 H3]. unfold evsum. cbn [zsum foldr]. split; [done|..].
         - intros k' r' Hr'. destruct (H2 _ _ Hr') as (v & ? & ?). exists v. split; [done|]. lia.
         - intros k' Hn. destruct (H3 _ Hn); [left; by right|right; lia]. }
    rewrite Himm in H. cbn [negb orb] in H.
    destruct (fk_del_ok _ _ _ _) eqn:Hok; [|done]. injection H as <- <-. unfold evsum. cbn [zsum foldr ch_key].
    assert (Hrc : ∀ k', recount a R (del_row d t k) k' = recount a R d k' + delta (Ev t k (ChDel o)) k').
    { intros k'. rewrite recount_del. unfold AggEngine.delta. cbn [ev_tab]. destruct (decide (t = R)) as [->|]; [|lia]. rewrite Hg. cbn. lia. }
    split.
    + intros j r' k' Hj Hc. rewrite getrow_del. case_decide as Hd.
      * destruct Hd as [<- <-]. exfalso. by eapply fk_del.
      * rewrite getrow_del in Hj. case_decide; [done|]. by eapply (ow_fk _ _ _ Ho).
    + intros k' r' Hr'. rewrite getrow_del in Hr'. case_decide; [done|].
      destruct (ow_row _ _ _ Ho _ _ Hr') as (v & Hv & Hs). exists v. split; [done|]. rewrite Hrc. lia.
    + intros k' Hn. rewrite getrow_del in Hn. case_decide as Hd; [destruct Hd as [_ ->]; left; left|].
      destruct (ow_none _ _ _ Ho k' Hn) as [?|Hz]; [left; by right|]. right. rewrite Hz. unfold AggEngine.delta. cbn [ev_tab].
      destruct (decide (t = R)) as [->|]; [|done]. simpl.
      destruct (decide (contrib a k' o = 0)) as [->|Hne]; [done|]. apply contrib_fk in Hne.
      destruct (ow_fk _ _ _ Ho _ _ _ Hg Hne). congruence.
Qed.
Lemma changes_owed t cs : (∀ d ch, ch ∈ cs → clean_in d t ch) → Forall ch_quiet cs → NoDup (ch_key <$> cs) →
  ∀ D z d d' evs, (∀ ch, ch ∈ cs → ch_key ch ∉ D) → apply_all E t cs d = Ok (d', evs) → owed D z d →
  ∃ D', owed D' (λ k, z k + evsum evs k) d'.
Proof.
  induction cs as [|ch cs IH]; intros Hcl Hq Hnd D z d d' evs HD H Ho.
  - injection H as <- <-. exists D. destruct Ho as [H1 H2 H3]. unfold evsum. cbn [zsum foldr]. split; [done|..].
    + intros k' r' Hr'. destruct (H2 _ _ Hr') as (v & ? & ?). exists v. split; [done|]. lia.
    + intros k' Hn. destruct (H3 _ Hn); [by left|right; lia].
  - rewrite apply_all_cons in H. inv_bind H. destruct a0 as [d1 e1]. simpl in H. inv_bind H. destruct a0 as [d2 e2]. simpl in H. injection H as <- <-.
    apply Forall_cons in Hq as [Hq1 Hq2]. csimpl in Hnd. apply NoDup_cons in Hnd as [Hn1 Hn2].
    eapply change_owed in H0; [|done|apply Hcl; left|apply HD; left|exact Ho].
    destruct (IH ltac:(intros; apply Hcl; by right) Hq2 Hn2 _ _ _ _ _ ltac:(intros ch' Hch'; rewrite elem_of_cons; intros [Heq|Hin];
      [apply Hn1; rewrite <- Heq; apply elem_of_list_fmap; by exists ch'|by eapply (HD ch'); [right|]]) H1 H0) as [D' [O1 O2 O3]].
    exists D'. unfold evsum in *. split; [done|..].
    + intros k r Hr. destruct (O2 _ _ Hr) as (v & ? & ?). exists v. split; [done|]. rewrite zsum_app. lia.
    + intros k Hn. destruct (O3 _ Hn); [by left|right]. rewrite zsum_app. lia.
Qed.

(** ** Statements *)
Definition exact (d : db) : Prop := fk_valid m a rel d ∧ ∀ k r, getrow d T k = Some r → col r c = VInt (recount a R d k).
Lemma exact_owed d : exact d → owed [] Z0 d.
Proof. intros [H1 H2]. split; [done|..]; [|by right]. intros k r Hr. exists (recount a R d k). rewrite (H2 _ _ Hr). unfold Z0. split; [done|lia]. Qed.
Lemma exact_tabs d d' : d_tabs d' = d_tabs d → exact d → exact d'.
Proof.
  intros Ht [H1 H2]. assert (Hg : ∀ t k, getrow d' t k = getrow d t k) by (intros; unfold getrow, tab; by rewrite Ht). split.
  - intros j r k. rewrite !Hg. apply H1.
  - intros k r. rewrite Hg, (recount_tabs _ _ d) by done. apply H2.
Qed.
Lemma skel_none d d' t k : skel E d d' → getrow d t k = None → getrow d' t k = None.
Proof. intros Hs Hr. specialize (Hs t k). rewrite Hr in Hs. by destruct (getrow d' t k). Qed.
Lemma skel_some d d' t k : skel E d d' → is_Some (getrow d t k) → is_Some (getrow d' t k).
Proof. intros Hs [r Hr]. specialize (Hs t k). rewrite Hr in Hs. destruct (getrow d' t k); [by eexists|done]. Qed.
(** [settles z d d']: column [c] of every row k of [T] grew by [z k] and by the change of
    the aggregate. *)
Definition settles (z : Z → Z) (d d' : db) : Prop := ∀ k r v, getrow d T k = Some r → col r c = VInt v →
  ∃ r', getrow d' T k = Some r' ∧ col r' c = VInt (v + z k + (recount a R d' k - recount a R d k)).
Lemma skel_fk d d' k r : skel E d d' → getrow d R k = Some r → ∃ r', getrow d' R k = Some r' ∧ col r' (ag_fk a) = col r (ag_fk a).
Proof.
  intros Hs Hr. specialize (Hs R k). rewrite Hr in Hs. destruct (getrow d' R k) as [r'|]; [|done]. exists r'. split; [done|].
  symmetry. apply Hs. eapply column_not_tw; eauto using rel_in.
  destruct Haf. by eapply (wf_aggs _ Hwf).
Qed.
Lemma fire_exact D z d d' : skel E d d' → settles z d d' → owed D z d → exact d'.
Proof.
  intros Hs Hz [H1 H2 H3]. split.
  - intros j r' k Hj Hc. destruct (getrow d R j) as [r|] eqn:Hr; [|by rewrite (skel_none _ _ _ _ Hs Hr) in Hj].
    destruct (skel_fk _ _ _ _ Hs Hr) as (r2 & Hr2 & Hx). rewrite Hr2 in Hj. injection Hj as ->.
    eapply skel_some; [exact Hs|]. eapply H1; [exact Hr|]. by rewrite <- Hx.
  - intros k r' Hr'. destruct (getrow d T k) as [r|] eqn:Hr; [|by rewrite (skel_none _ _ _ _ Hs Hr) in Hr'].
    destruct (H2 _ _ Hr) as (v & Hv & He). destruct (Hz _ _ _ Hr Hv) as (r2 & Hr2 & Hv2). rewrite Hr2 in Hr'. injection Hr' as ->.
    rewrite Hv2. f_equal. lia.
Qed.
Lemma unblocked_nil t : unblocked E [] t.
Proof. intros _ tr _ _. by apply not_elem_of_nil. Qed.
(** From here on triggers settle what their events owe. *)
Definition settling : Prop := ∀ n evs d d', foldM (fire E n []) d evs = Ok d' → settles (evsum evs) d d'.
Context (Hset : settling).
Lemma fires_settle n evs d d' : foldM (fire E n []) d evs = Ok d' → settles (evsum evs) d d' ∧ skel E d d'.
Proof.
  intros H. split; [by eapply Hset|].
  eapply (foldM_rel (skel E)); [apply skel_refl|apply skel_trans| |exact H]. intros d1 e d2 _ Hf. by eapply fire_skel.
Qed.
Lemma batch_exact n t cs d d' : (∀ d ch, ch ∈ cs → clean_in d t ch) → Forall ch_quiet cs → NoDup (ch_key <$> cs) →
  run_batch E (fire E n []) t cs d = Ok d' → exact d → exact d'.
Proof.
  intros Hcl Hq Hnd H Hex. unfold run_batch in H. inv_bind H. destruct a0 as [d1 evs]. simpl in H.
  destruct (changes_owed t cs Hcl Hq Hnd [] Z0 d d1 evs ltac:(intros; by apply not_elem_of_nil) H0 (exact_owed _ Hex)) as [D' Ho].
  destruct (fires_settle _ _ _ _ H) as [Hz Hs]. eapply fire_exact; [exact Hs|exact Hz|].
  destruct Ho as [O1 O2 O3]. exact (Owed D' _ _ O1 O2 O3).
Qed.
Lemma single_exact n t ch d d' : clean_in d t ch → ch_quiet ch → run_batch E (fire E n []) t [ch] d = Ok d' → exact d → exact d'.
Proof.
  intros Hcl Hq H Hex. unfold run_batch in H. inv_bind H. destruct a0 as [d1 evs]. simpl in H.
  rewrite apply_all_cons in H0. inv_bind H0. destruct a0 as [d2 e2]. simpl in H0. injection H0 as <- <-. rewrite app_nil_r in H.
  destruct (fires_settle _ _ _ _ H) as [Hz Hs].
  eapply change_owed in H1; [|done|done|by apply not_elem_of_nil|by apply exact_owed].
  eapply fire_exact; [exact Hs|exact Hz|]. destruct H1 as [O1 O2 O3]. exact (Owed _ _ _ O1 O2 O3).
Qed.
Lemma exec_exact t cs d d' : (∀ d ch, ch ∈ cs → clean_in d t ch) → Forall ch_quiet cs → (e_be E = Postgres → NoDup (ch_key <$> cs)) →
  exec E t cs d = Ok d' → exact d → exact d'.
Proof.
  intros Hcl Hq Hnd H. destruct (decide (e_be E = Postgres)) as [Hb|Hb].
  - unfold exec, run_stmt in H. rewrite Hb in H. intros Hex. eapply batch_exact; eauto.
  - unfold exec, run_stmt in H.
    assert (H' : foldM (λ d c, run_batch E (fire E (e_depth E) []) t [c] d) d cs = Ok d') by by destruct (e_be E).
    eapply (foldM_rel (λ d d', exact d → exact d')); [by intros ?|by eauto| |exact H']. intros d1 ch d2 Hin Hr.
    eapply single_exact; [by apply Hcl| |exact Hr]. by eapply Forall_forall in Hq.
Qed.
Lemma exec1_exact t ch d d' : clean_in d t ch → ch_quiet ch → exec E t [ch] d = Ok d' → exact d → exact d'.
Proof. intros Hcl Hq H. apply run_stmt_single in H. by eapply single_exact. Qed.

(** ** Saving *)
Lemma presave_other add pk p q fs : (∀ g, g ∈ fs → f_col g ≠ c) → foldM (presave_field E m add pk) p fs = Ok q →
  d_tabs q.1 = d_tabs p.1 ∧ col q.2 c = col p.2 c.
Proof.
  intros Hfs. apply (foldM_rel (λ p q : db * row, d_tabs q.1 = d_tabs p.1 ∧ col q.2 c = col p.2 c)).
  - done.
  - intros x y z [] []. split; congruence.
  - intros x g y Hg H. apply Hfs in Hg. pose proof H as Hdb. apply presave_field_db in Hdb as [Hdb _]. split; [done|].
    unfold presave_field in H. destruct (f_kind g).
    + by injection H as <-.
    + injection H as <-. simpl. by rewrite col_insert_ne.
    + inv_bind H. inv_bind H. injection H as <-. simpl. by rewrite col_insert_ne.
    + destruct add; [injection H as <-; simpl; by rewrite col_insert_ne|]. repeat case_match; try done. injection H as <-. simpl. by rewrite col_insert_ne.
    + injection H as <-. simpl. by rewrite col_insert_ne.
Qed.
Lemma presave_agg add pk d r q : presave_all E m add pk d r = Ok q →
  if add then col q.2 c = VInt 0 else ∃ k r0, pk = Some k ∧ getrow d T k = Some r0 ∧ col q.2 c = col r0 c.
Proof.
  pose proof (al_field _ _ _ _ _ Haf) as Hf. pose proof (wf_cols _ _ (wf_models _ Hwf _ (al_model _ _ _ _ _ Haf))) as Hnd.
  apply elem_of_list_split in Hf as (l1 & l2 & Hsp). unfold presave_all. rewrite Hsp in *. rewrite foldM_app.
  rewrite fmap_app, fmap_cons in Hnd. apply NoDup_app in Hnd as (_ & Hd & Hnd). apply NoDup_cons in Hnd as [Hn2 _].
  intros H. inv_bind H. rewrite foldM_cons in H. inv_bind H.
  apply presave_other in H0 as [T0 _]. 2: { intros g Hg Hc. apply (Hd (f_col g)); [apply elem_of_list_fmap; by exists g|]. rewrite Hc. left. }
  apply presave_other in H as [_ C2]. 2: { intros g Hg Hc. apply Hn2. apply elem_of_list_fmap. by exists g. }
  unfold presave_field in H1. rewrite (al_kind _ _ _ _ _ Haf) in H1. destruct add.
  - injection H1 as <-. rewrite C2. simpl. apply col_insert_eq.
  - destruct pk as [k|]; [|done]. simpl in H1. destruct (getrow a0.1 T k) as [r0|] eqn:Hr0; [|done]. case_match; [|done].
    injection H1 as <-. exists k, r0. split; [done|]. split.
    + unfold getrow, tab in *. by rewrite T0 in Hr0.
    + rewrite C2. simpl. apply col_insert_eq.
Qed.
Lemma model_T m' : m' ∈ s_models S → m_table m' = T → m' = m.
Proof. intros. eapply table_inj; [exact Hwf|done|apply Haf|done]. Qed.
Lemma link_exact t cs d d' : (∀ m', m' ∈ s_models S → t ≠ m_table m') → Forall ch_quiet cs → (e_be E = Postgres → NoDup (ch_key <$> cs)) →
  exec E t cs d = Ok d' → exact d → exact d'.
Proof. intros Ht. apply exec_exact. intros d1 ch _ ->. exfalso. by eapply Ht; [apply Haf|]. Qed.
Lemma m2m_set_exact mm k' vals d d' : (∀ m', m' ∈ s_models S → mm_table mm ≠ m_table m') → m2m_set E mm k' vals d = Ok d' → exact d → exact d'.
Proof.
  intros Ht H. unfold m2m_set in H. inv_bind H.
  assert (Hnd1 : NoDup (ch_key <$> (CDel <$> (filter (λ p : Z * val, p.2 ∉ VInt <$> vals) (links d mm k')).*1))).
  { rewrite <- list_fmap_compose. rewrite (list_fmap_ext _ id) by done. rewrite list_fmap_id.
    apply NoDup_fmap_fst.
    * intros x v1 v2 H1 H2. apply elem_of_list_filter in H1 as [_ H1]. apply elem_of_list_filter in H2 as [_ H2].
      unfold links in H1, H2. apply elem_of_list_fmap in H1 as ([x1 r1] & [= -> ->] & H1). apply elem_of_list_fmap in H2 as ([x2 r2] & [= -> ->] & H2).
      apply elem_of_list_filter in H1 as [_ H1]. apply elem_of_list_filter in H2 as [_ H2].
      apply elem_of_map_to_list in H1, H2. congruence.
    * apply NoDup_filter. unfold links. apply (NoDup_fmap_2_strong _ _).
      -- intros [x1 r1] [x2 r2] H1 H2 [= -> _].
         apply elem_of_list_filter in H1 as [_ H1]. apply elem_of_list_filter in H2 as [_ H2].
         apply elem_of_map_to_list in H1, H2. congruence.
      -- apply NoDup_filter, NoDup_map_to_list. }
  intros Hex. eapply (link_exact (mm_table mm)); [done|apply number_quiet|intros _; apply number_nodup|exact H|].
  eapply (link_exact (mm_table mm)); [done| |intros _; exact Hnd1|exact H0|done].
  apply Forall_forall. intros x Hx. by apply elem_of_list_fmap in Hx as (y & -> & _).
Qed.
Lemma m2m_pre_save_exact m' pk r d d' : m' ∈ s_models S → m2m_pre_save E m' pk r d = Ok d' → exact d → exact d'.
Proof.
  intros Hm'. unfold m2m_pre_save. destruct pk as [k'|]; [|intros [= <-]; done].
  case_decide; [intros [= <-]; done|].
  apply (foldM_rel (λ d d', exact d → exact d')); [by intros ?|by eauto|].
  intros d1 mm d2 Hmm Ha. destruct (mm_denorm mm) as [[fn' ds']|]; [|by injection Ha as <-].
  inv_bind Ha. eapply m2m_set_exact; [|exact Ha]. intros m'' Hm''. by apply (wf_m2mtab _ _ (wf_models _ Hwf _ Hm')).
Qed.
Lemma save_existing_exact m' k r d p : m' ∈ s_models S → save_existing E m' k r d = Ok p → exact d → exact p.1.
Proof.
  intros Hm'. unfold save_existing. intros H Hex. inv_bind H. inv_bind H. inv_bind H. injection H as <-. simpl.
  eapply m2m_pre_save_exact in H0; [|done|done]. pose proof H1 as Hps. apply presave_all_db in H1 as [Ht _].
  eapply exec1_exact; [| |exact H2|by eapply exact_tabs].
  - intros HT. apply model_T in HT as ->; [|done]. simpl. intros o p Ho [= <-]. simpl.
    apply presave_agg in Hps as (k0 & r0 & [= <-] & Hr0 & ->). unfold getrow, tab in *. rewrite Ht in Ho. rewrite Ho in Hr0. congruence.
  - simpl. by intros ??? [= <-].
Qed.
Lemma post_save_exact m' k r d p : m' ∈ s_models S → post_save_created E m' k r d = Ok p → exact d → exact p.1.
Proof. intros Hm'. unfold post_save_created. case_match; [by apply save_existing_exact|]. by intros [= <-]. Qed.
Lemma save_exact m' pk r d p : m' ∈ s_models S → save E m' pk r d = Ok p → exact d → exact p.1.1.
Proof.
  intros Hm' H. unfold save in H.
  assert (Hins : ∀ k r d q d2 s, presave_all E m' true pk d r = Ok q →
    exec E (m_table m') [CIns k q.2] q.1 = Ok d2 → post_save_created E m' k q.2 d2 = Ok s → exact d → exact s.1).
  { intros k0 r0 d3 q d2 s Hq Hx Hs Hex. pose proof Hq as Hps. apply presave_all_db in Hq as [Ht _].
    eapply post_save_exact; [done|exact Hs|]. eapply exec1_exact; [| |exact Hx|by eapply exact_tabs]; [|done].
    intros HT. apply model_T in HT as ->; [|done]. by apply presave_agg in Hps. }
  intros Hex. destruct pk as [k'|].
  - destruct (getrow d (m_table m') k').
    + inv_bind H. injection H as <-. by eapply save_existing_exact.
    + inv_bind H. inv_bind H. inv_bind H. inv_bind H. inv_bind H. injection H as <-. simpl.
      eapply m2m_pre_save_exact in H0; [|done|done]. apply presave_all_db in H1 as [Ht _].
      eapply Hins; [exact H2|exact H3|exact H4|]. by eapply exact_tabs.
  - inv_bind H. inv_bind H. inv_bind H. injection H as <-. simpl. by eapply Hins.
Qed.

(** ** Operations, flush, rebuild *)
Definition clean_op (o : op) : Prop :=
  match o with
  | OSave _ _ _ | ODelete _ _ => True
  | OInsert t rows => t = T → ∀ k r, (k, r) ∈ rows → col r c = VInt 0
  | OUpdate t _ g => t = T → ∀ r, col (g r) c = col r c
  end.
Lemma run_op_exact o d d' : clean_op o → run_op E S o d = Ok d' → exact d → exact d'.
Proof.
  intros Hcl H. destruct o as [mn pk r|t rows|t ks g|t ks]; simpl in H.
  - destruct (find_model S mn) as [m'|] eqn:Hm'; [|done]. inv_bind H. injection H as <-. eapply save_exact; [|exact H0].
    by apply find_model_in in Hm' as [].
  - eapply exec_exact; [..|exact H].
    + intros d1 ch Hch HT. apply elem_of_list_fmap in Hch as ([k r] & -> & Hin). simpl. by eapply Hcl.
    + apply Forall_forall. intros x Hx. by apply elem_of_list_fmap in Hx as (y & -> & _).
    + intros Hb. rewrite <- list_fmap_compose. rewrite (list_fmap_ext _ fst) by done.
      unfold exec, run_stmt in H. rewrite Hb in H. unfold run_batch in H. inv_bind H. destruct a0. by apply apply_ins_nodup in H0 as [].
  - eapply exec_exact; [..|exact H].
    + intros d1 ch Hch HT. apply elem_of_list_fmap in Hch as (k & -> & Hin). simpl. intros o p _ [= <-]. simpl. by apply Hcl.
    + apply Forall_forall. intros x Hx. apply elem_of_list_fmap in Hx as (y & -> & _). simpl. by intros ??? [= <-].
    + intros _. rewrite <- list_fmap_compose. rewrite (list_fmap_ext _ id) by done. rewrite list_fmap_id. apply NoDup_remove_dups.
  - eapply exec_exact; [..|exact H].
    + intros d1 ch Hch HT. by apply elem_of_list_fmap in Hch as (k & -> & Hin).
    + apply Forall_forall. intros x Hx. by apply elem_of_list_fmap in Hx as (y & -> & _).
    + intros _. rewrite <- list_fmap_compose. rewrite (list_fmap_ext _ id) by done. rewrite list_fmap_id. apply NoDup_remove_dups.
Qed.
Lemma process_exact mk d d' : process E S mk d = Ok d' → exact d → exact d'.
Proof.
  unfold process, process_save. intros H Hex. inv_bind H. injection H as <-. eapply (exact_tabs a0); [done|]. inv_bind H0.
  destruct a1 as [[[m' k] r]|]; [|by injection H0 as <-]. case_match; [|by injection H0 as <-]. inv_bind H0. injection H0 as <-.
  eapply save_existing_exact; [|exact H2|done]. unfold content_object in H1.
  destruct (model_of_ct S mk.1) as [m2|] eqn:Hm2; [|done]. repeat case_match; try done. injection H1 as -> -> ->.
  unfold model_of_ct in Hm2. destruct (list_find _ _) as [[i m3]|] eqn:Hfind; [|done]. injection Hm2 as <-.
  apply list_find_Some in Hfind as (Hin & _). by eapply elem_of_list_lookup_2.
Qed.
Lemma flush_pass_exact ml d : exact d → exact (flush_pass E S ml d).1.
Proof.
  revert d. induction ml as [|mk ml IH]; intros d Hex; simpl; [done|].
  destruct (process E S mk d) as [d1|] eqn:Hp; [|done]. apply IH. by eapply process_exact.
Qed.
Lemma flush_exact ord n d : exact d → exact (flush E S ord n d).1.
Proof.
  revert d. induction n as [|n IH]; intros d Hex; simpl; [done|]. case_decide; [done|].
  pose proof (flush_pass_exact (snapshot E ord d) d Hex) as Hp. destruct (flush_pass E S (snapshot E ord d) d) as [d1 []]; simpl in *; auto.
Qed.
Definition clean_hop (h : hop) : Prop := match h with HOp o => clean_op o | _ => True end.
Lemma hstep_exact h d : clean_hop h → exact d → exact (hstep E S d h).
Proof.
  intros Hcl Hex. destruct h as [o|ord n|ord n mn fn]; simpl.
  - unfold step. destruct (run_op E S o d) eqn:Ho; [|done]. by eapply run_op_exact.
  - by apply flush_exact.
  - unfold rebuildall. apply flush_exact. by eapply exact_tabs.
Qed.
Lemma hist_exact hs d : Forall clean_hop hs → exact d → exact (foldl (hstep E S) d hs).
Proof. revert d. induction hs as [|h hs IH]; intros d Hcl Hex; [done|]. apply Forall_cons in Hcl as [H1 H2]. simpl. apply IH; [done|]. by apply hstep_exact. Qed.
Lemma exact_spec d : exact d ↔ fk_valid m a rel d ∧ agg_exact m f a rel d.
Proof.
  unfold exact, agg_exact. setoid_rewrite agg_value_recount. done.
Qed.
Lemma exact_empty d : d_tabs d = ∅ → exact d.
Proof.
  intros Hd. assert (Hn : ∀ t k, getrow d t k = None) by (intros; unfold getrow, tab; by rewrite Hd, lookup_empty).
  split; intros ?*; by rewrite Hn.
Qed.
End agg.

(** ** Aggregates over ordinary columns *)
Section field.
Context (b : backend) (S : schema) (rand : nat → Z) (depth : nat) (E : env) (l : list trigger).
Context (Hwf : wf_schema S) (HE : mk_env b S rand true depth = Ok E) (Hl : gen_all S = Ok l) (Hnames : names_ok b l).
Context (m : model) (f : field) (a : agg) (rel : model) (Haf : agg_field S m f a rel).
Notation R := (m_table rel).
Lemma skel_row d d' k r : skel E d d' → getrow d R k = Some r → ∃ r', getrow d' R k = Some r' ∧ ∀ x, x ∈ agg_cols a → col r' x = col r x.
Proof.
  intros Hs Hr. specialize (Hs R k). rewrite Hr in Hs. destruct (getrow d' R k) as [r'|]; [|done]. exists r'. split; [done|].
  intros x Hx. symmetry. apply Hs. by eapply cols_not_tw.
Qed.
Lemma skel_recount d d' k : skel E d d' → recount a R d' k = recount a R d k.
Proof.
  intros Hs. apply recount_ext. intros j. destruct (getrow d R j) as [r|] eqn:Hj.
  - destruct (skel_row _ _ _ _ Hs Hj) as (r' & -> & Hx). simpl. f_equal. by apply contrib_cols.
  - by rewrite (skel_none _ _ _ _ _ Hs Hj).
Qed.
Lemma field_settling : settling E m f a rel.
Proof.
  intros n evs d d' H k r v Hr Hv.
  assert (Hz : Rz m f (evsum a rel evs) d d').
  { eapply (foldM_Rz m f _ (delta a rel)); [|exact H]. intros e d1 d2 _ Hf.
    eapply (fire_agg b S rand true depth E l Hwf HE Hl Hnames m f a rel Haf); [by eapply cols_not_tw| |exact Hf]. left. apply unblocked_nil. }
  destruct (Hz _ _ _ Hr Hv) as (r' & Hr' & Hv'). exists r'. split; [done|]. rewrite (skel_recount d d').
  - rewrite Hv'. f_equal. lia.
  - eapply (foldM_rel (skel E)); [apply skel_refl|apply skel_trans| |exact H]. intros d1 e d2 _ Hf. by eapply fire_skel.
Qed.
End field.
