(** * bulk_create() with DENORM_BULK_UNSAFE_TRIGGERS on PostgreSQL.
    The row triggers run when all rows of the batch are there, so a row that should see
    another row of its batch gets a marker from that row's triggers. *)
From stdpp Require Import relations.
From Verif Require Import Base BaseLemmas Schema TrigSet Gen Exec Orm Flush Machine Spec SpecAgg SpecOrder SpecSave Engine GenLemmas Marking Conditions Invariant Settle Sessions Bulk BulkCreate.

(** ** The rows of an INSERT *)
Lemma apply_ins E t rows : ∀ d d1 evs, apply_all E t ((λ p : Z * row, CIns p.1 p.2) <$> rows) d = Ok (d1, evs) →
  evs = (λ p : Z * row, Ev t p.1 (ChIns p.2)) <$> rows ∧ NoDup rows.*1 ∧ (∀ k, k ∈ rows.*1 → getrow d t k = None).
Proof.
  induction rows as [|[k r] rows IH]; intros d d1 evs H; [injection H as <- <-; split_and!; [done|constructor|by intros k ?%elem_of_nil]|].
  rewrite fmap_cons, apply_all_cons in H. inv_bind H. destruct a as [d2 e2]. cbn [fst snd] in *. simpl in H0.
  destruct (getrow d t k) eqn:Hk; [done|]. destruct (_ || _) in H0; [|done]. injection H0 as <- <-.
  inv_bind H. destruct a as [d3 e3]. cbn [fst snd] in H. injection H as <- <-. destruct (IH _ _ _ H0) as (-> & Hnd & Hfree).
  split_and!; [done| |].
  - constructor; [|done]. intros Hin. specialize (Hfree _ Hin). by rewrite getrow_put_eq in Hfree.
  - intros j [->|Hj]%elem_of_cons; [done|]. specialize (Hfree _ Hj). destruct (decide (j = k)) as [->|Hne]; [done|].
    rewrite getrow_put_ne in Hfree; [done|naive_solver].
Qed.

Section pg.
Context (S : schema) (rand : nat → Z) (imm : bool) (depth : nat) (E : env) (l : list trigger).
Context (HE : mk_env Postgres S rand imm depth = Ok E) (Hl : gen_all S = Ok l) (Hnames : names_ok Postgres l).
Context (rank : string → nat) (Hsa : savable S rank imm) (Hac : acyclic E rank) (Hos : own_stored S rank).

Let Hwf : wf_schema S := sa_wf _ _ _ Hsa.
Let Hlk : wf_links S := sa_links _ _ _ Hsa.

Lemma pg_be : e_be E = Postgres.
Proof. unfold mk_env in HE. inv_bind HE. by injection HE as <-. Qed.

(** Rows are only added, and only columns kept by triggers change. *)
Definition grows (d d' : db) : Prop := ∀ t j x, getrow d t j = Some x →
  ∃ y, getrow d' t j = Some y ∧ ∀ c, ¬ tw E t c → col x c = col y c.
Lemma grows_refl d : grows d d.
Proof. intros t j x Hx. by exists x. Qed.
Lemma grows_trans a c d : grows a c → grows c d → grows a d.
Proof.
  intros H1 H2 t j x Hx. destruct (H1 _ _ _ Hx) as (y & Hy & Hc). destruct (H2 _ _ _ Hy) as (z & Hz & Hc').
  exists z. split; [done|]. intros c0 Hn. rewrite Hc, Hc'; done.
Qed.
Lemma grows_skel d d' : skel E d d' → grows d d'.
Proof. intros Hs t j x Hx. specialize (Hs t j). rewrite Hx in Hs. destruct (getrow d' t j) as [y|]; [|done]. by exists y. Qed.
Lemma fire_all_skel n evs : ∀ d d', foldM (fire E n []) d evs = Ok d' → skel E d d'.
Proof.
  induction evs as [|e evs IH]; intros d d' H; [injection H as <-; apply skel_refl|].
  rewrite foldM_cons in H. inv_bind H. eapply skel_trans; [by eapply fire_skel|by apply IH].
Qed.
(** A row related to itself stays so. *)
Lemma self_related_grows m f fn ds sk dp d d' k x y : m ∈ s_models S → f ∈ m_fields m → f_kind f = KCallback fn ds sk → dp ∈ ds →
  grows d d' → (∀ c, ¬ tw E (m_table m) c → col x c = col y c) → self_related m d k x dp → self_related m d' k y dp.
Proof.
  intros Hm Hf Hk Hdp Hg Hc [Hoth Hrel]. split; [done|].
  assert (Hdpf : dp ∈ field_deps f) by (unfold field_deps; by rewrite Hk).
  assert (Hfo : find_model S (dep_other dp) = Some m) by (rewrite Hoth; apply find_model_self; [apply (wf_names _ Hwf)|done]).
  pose proof (wf_deps _ Hwf _ _ _ Hm Hf Hdpf _ Hfo) as Wd.
  assert (Hp : ∀ c, plain_col m c → col x c = col y c).
  { intros c (g & Hgm & <- & Hgk). apply Hc. apply (column_not_tw Postgres S rand imm depth E l Hwf HE Hl m _ Hm).
    exists g. split_and!; [done|done|]. unfold plain_or_callback. by rewrite Hgk. }
  pose proof (sa_self _ _ _ Hsa _ _ _ _ _ _ Hm Hf Hk Hdp Hoth) as Hself.
  destruct (dep_rel dp) as [fk|fk|t' c rc|ctc oidc|ctc oidc]; [..|done].
  - by rewrite <- Hp.
  - by rewrite <- Hp.
  - destruct Hrel as (lk & lr & Hlr & H1 & H2). destruct Wd as (Wt & _). destruct (Hg _ _ _ Hlr) as (ly & Hly & Hlc).
    exists lk, ly. split_and!; [done| |]; (rewrite <- Hlc; [done|]; by eapply link_not_tw).
  - destruct Hself. by rewrite <- !Hp.
Qed.
Lemma no_self_grows d d' : grows d d' → no_self_relation S d' → no_self_relation S d.
Proof.
  intros Hg N m f fn ds sk dp k x Hm Hf Hk Hdp Hx Hs. destruct (Hg _ _ _ Hx) as (y & Hy & Hc).
  apply (N m f fn ds sk dp k y Hm Hf Hk Hdp Hy). by eapply self_related_grows.
Qed.
(** Adding rows to the table of a model breaks no link. *)
Lemma links_grow m d d' : m ∈ s_models S → (∀ t j, t ≠ m_table m → getrow d' t j = getrow d t j) →
  (∀ j, is_Some (getrow d (m_table m) j) → is_Some (getrow d' (m_table m) j)) → links_ok S d → links_ok S d'.
Proof.
  intros Hm Hoth Hown L m' f dp o t c rc Hm' Hf Hdp Hrel Hfo lk r Hr j Hj.
  pose proof (wf_deps _ Hwf _ _ _ Hm' Hf Hdp _ Hfo) as Wd. unfold wf_dep in Wd. rewrite Hrel in Wd. destruct Wd as (Wt & _).
  rewrite Hoth in Hr by (by apply Wt). pose proof (L m' f dp o t c rc Hm' Hf Hdp Hrel Hfo lk r Hr j Hj) as Hsome.
  destruct (decide (m_table o = m_table m)) as [Heq|Hne]; [rewrite Heq in *; by apply Hown|by rewrite Hoth].
Qed.

(** ** One row of the batch *)
Section batch.
  Context (m : model) (rows : list (Z * row)) (d d1 d' : db) (Hm : m ∈ s_models S).
  Context (L : links_ok S d) (N' : no_self_relation S d').
  Context (HA : apply_all E (m_table m) ((λ p : Z * row, CIns p.1 p.2) <$> rows) d = Ok (d1, (λ p : Z * row, Ev (m_table m) p.1 (ChIns p.2)) <$> rows)).
  Context (HF : foldM (fire E (e_depth E) []) d1 ((λ p : Z * row, Ev (m_table m) p.1 (ChIns p.2)) <$> rows) = Ok d').

  Let cs := (λ p : Z * row, CIns p.1 p.2) <$> rows.
  Let evs := (λ p : Z * row, Ev (m_table m) p.1 (ChIns p.2)) <$> rows.
  Lemma batch_nodup : NoDup rows.*1.
  Proof. by destruct (apply_ins _ _ _ _ _ _ HA) as (_ & ? & _). Qed.
  Lemma batch_free k : k ∈ rows.*1 → getrow d (m_table m) k = None.
  Proof. destruct (apply_ins _ _ _ _ _ _ HA) as (_ & _ & ?). auto. Qed.
  Lemma batch_keys : ch_key <$> cs = rows.*1.
  Proof. unfold cs. rewrite <- list_fmap_compose. by apply list_fmap_ext. Qed.
  Lemma batch_applied : applied (m_table m) d d1 evs ∧ d_dirty d1 = d_dirty d.
  Proof.
    destruct (apply_all_applied E (m_table m) cs d d1 evs) as (Ap & _ & D); [|by rewrite batch_keys; apply batch_nodup|exact HA|done].
    apply Forall_forall. intros ch Hch. apply elem_of_list_fmap in Hch as (p & -> & _). done.
  Qed.
  Lemma batch_grows : grows d d'.
  Proof.
    eapply grows_trans; [|apply grows_skel; by eapply fire_all_skel]. destruct batch_applied as [Ap _].
    intros t j x Hx. exists x. split; [|done]. destruct (decide (t = m_table m)) as [->|Hne]; [|by rewrite (ap_other _ _ _ _ Ap)].
    rewrite (ap_none _ _ _ _ Ap); [done|]. intros e He Hek. apply elem_of_list_fmap in He as (p & -> & Hp). simpl in Hek. subst j.
    rewrite batch_free in Hx; [done|]. apply elem_of_list_fmap. by exists p.
  Qed.
  Lemma batch_links1 : links_ok S d1.
  Proof.
    destruct batch_applied as [Ap _]. apply (links_grow m d); [done| | |done].
    - intros t j Hne. by apply (ap_other _ _ _ _ Ap).
    - intros j [x Hx]. rewrite (ap_none _ _ _ _ Ap); [by rewrite Hx|]. intros e He Hek.
      apply elem_of_list_fmap in He as (p & -> & Hp). simpl in Hek. subst j. rewrite batch_free in Hx; [done|]. apply elem_of_list_fmap. by exists p.
  Qed.

  Context (k : Z) (r : row) (Hin : (k, r) ∈ rows).
  (** The database as if the row had been created alone. *)
  Definition alone : db := put_row d (m_table m) k r.
  Lemma alone_own1 : getrow d1 (m_table m) k = Some r.
  Proof.
    destruct batch_applied as [Ap _]. assert (He : Ev (m_table m) k (ChIns r) ∈ evs) by (apply elem_of_list_fmap; by exists (k, r)).
    by destruct (ap_ev _ _ _ _ Ap _ He) as [_ Hn].
  Qed.
  Lemma alone_links : links_ok S alone.
  Proof.
    apply (links_grow m d); [done| | |done].
    - intros t j Hne. apply getrow_put_ne. naive_solver.
    - intros j [x Hx]. unfold alone. destruct (decide (j = k)) as [->|Hne]; [by rewrite getrow_put_eq|]. rewrite getrow_put_ne by naive_solver. by exists x.
  Qed.
  Lemma alone_applied : applied (m_table m) alone d1 (filter (λ e, ev_key e ≠ k) evs).
  Proof.
    destruct batch_applied as [Ap _]. split.
    - intros e [_ He]%elem_of_list_filter. by apply (ap_tab _ _ _ _ Ap).
    - intros t j Hne. rewrite (ap_other _ _ _ _ Ap) by done. symmetry. apply getrow_put_ne. naive_solver.
    - intros e [Hk He]%elem_of_list_filter. unfold alone. rewrite getrow_put_ne by naive_solver. by apply (ap_ev _ _ _ _ Ap).
    - intros j Hj. unfold alone. destruct (decide (j = k)) as [->|Hne]; [by rewrite getrow_put_eq, alone_own1|].
      rewrite getrow_put_ne by naive_solver. apply (ap_none _ _ _ _ Ap). intros e He Hek. apply (Hj e); [|done].
      apply elem_of_list_filter. split; [by rewrite Hek|done].
  Qed.
  Lemma alone_updated : updated E rank (m_table m) k r d alone.
  Proof.
    unfold alone. split.
    - apply getrow_put_eq.
    - intros t' j _ Hne. apply getrow_put_ne. naive_solver.
    - intros t' j Hne. rewrite getrow_put_ne by naive_solver. by destruct (getrow d t' j).
  Qed.
  Lemma alone_not_self f fn ds sk dp : f ∈ m_fields m → f_kind f = KCallback fn ds sk → dp ∈ ds → ¬ self_related m d k r dp.
  Proof.
    intros Hf Hk Hdp Hs. pose proof (fire_all_skel _ _ _ _ HF (m_table m) k) as Hsk. rewrite alone_own1 in Hsk.
    destruct (getrow d' (m_table m) k) as [y|] eqn:Hy; [|done]. apply (N' m f fn ds sk dp k y Hm Hf Hk Hdp Hy).
    eapply self_related_grows; [..|exact batch_grows|exact Hsk|exact Hs]; done.
  Qed.
  Context (pk : option Z) (rin : row) (d2 : db) (q : db * row).
  Context (T2 : d_tabs d2 = d_tabs d) (Hq : presave_all E m true pk d2 rin = Ok q) (Hr : r = q.2).
  Context (Hal : key_alike m d pk k).
  (** Created alone the row would be right ... *)
  Lemma alone_right f : f ∈ m_fields m → row_consistent m alone k r f.
  Proof.
    intros Hf. unfold row_consistent. destruct (f_kind f) as [| |fn ds sk|a|ds] eqn:Hk; [done..| |done|done].
    destruct (Hos _ _ _ _ _ Hm Hf Hk) as (rd & Hcv & Hse & Hco).
    edestruct (presave_callback_new E m true pk rin f fn ds sk d2 q rd) as (di & ri & pv & v & Td & Hfn & Hsv & Hcol & Hri).
    { apply (wf_cols _ _ (wf_models _ Hwf _ Hm)). } { done. } { done. } { apply (se_order _ _ _ _ _ Hse). } { done. } { done. }
    rewrite T2 in Td. rewrite (Hal f fn ds sk di ri Hf Hk Td) in Hfn. rewrite <- Hr in *. exists pv. split.
    - rewrite <- Hfn. symmetry. apply (cv_reads _ _ _ _ _ _ Hcv); [done|]. intros dp cs0 Hin'.
      assert (Hdp : dp ∈ ds) by (eapply dr_dep; [apply (cv_decl _ _ _ _ _ _ Hcv)|exact Hin']).
      assert (Hrx : ∀ x : row, getrow d (m_table m) k = Some x → x = r).
      { intros x Hx. rewrite batch_free in Hx; [done|]. apply elem_of_list_fmap. by exists (k, r). }
      eapply (dep_view_own Postgres S rand imm depth E l Hwf HE Hl (sa_m2m _ _ _ Hsa) rank (sa_self _ _ _ Hsa) m k r r r d alone);
        eauto using alone_updated, alone_not_self.
    - rewrite Hcol. unfold store_value in Hsv. unfold stores. destruct pv as [w|mn j]; [by injection Hsv as ->|].
      destruct (f_fk f) as [rm|]; [|done]. case_decide; [|done]. subst. by injection Hsv as <-.
  Qed.
  (** ... and the triggers of the other rows mark it if it is not. *)
  Lemma batch_row_inv y : getrow d' (m_table m) k = Some y →
    marker_of m k ∈ d_dirty d' ∨ ∀ f, f ∈ m_fields m → row_consistent m d' k y f.
  Proof.
    intros Hy. destruct (decide (marker_of m k ∈ d_dirty d')) as [|Hnm]; [by left|right].
    intros f Hf. destruct (f_kind f) as [| |fn ds sk|a|ds] eqn:Hk; try by (unfold row_consistent; rewrite Hk).
    destruct (Hos _ _ _ _ _ Hm Hf Hk) as (rd & Hcv & _ & Hown).
    set (rd' := rd_plus f rd). set (v0 := cols_of (rd_own rd') r).
    assert (Hdr : declared_reads S m ds rd') by (by eapply declared_plus).
    assert (Hown' : ∀ c, c ∈ rd_own rd' → column_of m c).
    { intros c [->|Hc]%elem_of_cons; [|by apply Hown]. exists f. split_and!; [done|done|]. unfold plain_or_callback. by rewrite Hk. }
    assert (Hst : stable_sel E) by (eapply stable; eauto).
    assert (Hobs : observed E (row_view S m rd' k) (marker_of m k) (own_kept S m rd' k v0)).
    { intros t' x1 x2 ev [L1 (r1 & Hr1 & E1)] [L2 (r2 & Hr2 & E2)] Ap Hne _.
      eapply (obs_via Postgres S rand imm depth E l Hwf HE Hl Hnames Hlk m f fn ds sk rd' k t' x1 x2 ev r1 r2 Hm Hf Hk Hdr L1 L2 Ap Hr1 Hr2); [congruence|done]. }
    assert (Hgood : ∀ x e x', fire E (e_depth E) [] x e = Ok x' → good E (row_view S m rd' k) (marker_of m k) (own_kept S m rd' k v0) x x').
    { intros x e x' Hfe. eapply (fire_good E (row_view S m rd' k) (marker_of m k) (own_kept S m rd' k v0) (spares E m k)) with (rank := rank); [..|exact Hfe].
      - exact Hst.
      - exact Hobs.
      - by intros ?? [].
      - intros. by eapply spares_upd.
      - intros. by eapply (own_kept_apply Postgres S rand imm depth E l HE Hl rank Hsa m rd' k v0 Hm Hown').
      - intros x1 l1 [L1 (r1 & Hr1 & Hv)]. split; [by eapply links_tabs|]. by exists r1.
      - intros. by apply row_view_tabs.
      - eapply unique_names; eauto.
      - done.
      - intros Hsq. by rewrite pg_be in Hsq. }
    assert (I1 : own_kept S m rd' k v0 d1) by (split; [apply batch_links1|exists r; split; [apply alone_own1|done]]).
    assert (I0 : own_kept S m rd' k v0 alone) by (split; [apply alone_links|exists r; split; [unfold alone; apply getrow_put_eq|done]]).
    assert (Hfold : ∀ es x x', foldM (fire E (e_depth E) []) x es = Ok x' → good E (row_view S m rd' k) (marker_of m k) (own_kept S m rd' k v0) x x').
    { intros es x x'. apply (foldM_rel (good E (row_view S m rd' k) (marker_of m k) (own_kept S m rd' k v0))); [apply good_refl|intros a0 b0 c0 Hab Hbc; exact (good_trans E _ _ _ _ _ _ Hab Hbc)|intros; by eapply Hgood]. }
    assert (Hv : row_view S m rd' k d' = row_view S m rd' k alone).
    { destruct (decide (row_view S m rd' k d' = row_view S m rd' k d1)) as [Heq|Hne].
      - rewrite Heq. destruct (decide (row_view S m rd' k d1 = row_view S m rd' k alone)) as [|Hne]; [done|]. exfalso. apply Hnm.
        destruct (Hobs (m_table m) alone d1 _ I0 I1 alone_applied Hne) as (e & He & Hdue).
        { unfold row_view. by rewrite alone_own1. }
        apply elem_of_list_filter in He as [_ He]. pose proof HF as HF'. apply elem_of_list_split in He as (l1 & l2 & Hes).
        fold evs in HF'. rewrite Hes in HF'. rewrite foldM_app in HF'. inv_bind HF'. rewrite foldM_cons in HF'. inv_bind HF'.
        destruct (Hfold _ _ _ HF'0 I1) as (Ia & Da & Sa & _).
        assert (newly a a0 (marker_of m k)) as Hnew.
        { eapply fire_due; [exact Hst| |exact HF'1|by eapply due_skel]. intros Hsq. by rewrite pg_be in Hsq. }
        destruct (Hgood _ _ _ HF'1 Ia) as (Ia0 & _). destruct (Hfold _ _ _ HF' Ia0) as (_ & Db & _).
        apply (newly_in a). by eapply newly_r.
      - exfalso. apply Hnm. destruct (Hfold _ _ _ HF I1) as (_ & _ & _ & Hno). apply (newly_in d1). apply Hno; [done|].
        unfold row_view. by rewrite Hy. }
    eapply (covered_transfer S m f fn ds sk rd k alone d' r y Hk Hcv); [unfold alone; apply getrow_put_eq|done|exact Hv|by apply alone_right].
  Qed.
End batch.

(** ** Batches *)
Lemma com_tabs d d1 : d_tabs d1 = d_tabs d → d_dirty d1 = d_dirty d → consistent_or_marked S d → consistent_or_marked S d1.
Proof.
  intros T D C m k y Hm Hy. assert (Hg : ∀ t j, getrow d1 t j = getrow d t j) by (intros; unfold getrow, tab; by rewrite T).
  rewrite Hg in Hy. destruct (C _ _ _ Hm Hy) as [Hin|Hok]; [left; by rewrite D|right].
  intros f Hf. destruct (f_kind f) as [| |fn ds sk|a|ds] eqn:Hk; try by (unfold row_consistent; rewrite Hk).
  destruct (Hos _ _ _ _ _ Hm Hf Hk) as (rd & Hcv & _).
  eapply (covered_transfer S m f fn ds sk rd k d d1 y y Hk Hcv Hy); [by rewrite Hg|by apply row_view_tabs|by apply Hok].
Qed.
Lemma pg_batch m objs d d' : m ∈ s_models S → bulk_batch E m objs d = Ok d' → no_self_relation S d' →
  (∀ k, getrow d (m_table m) k = None → key_alike m d None k) → links_ok S d → consistent_or_marked S d →
  links_ok S d' ∧ consistent_or_marked S d' ∧ grows d d'.
Proof.
  intros Hm H N' Hal L0 C0. destruct (bulk_batch_total E S m objs d) as [(e & _ & _ & _ & _ & _ & He)|(rows & dp & T & D & Hop & F2 & _)]; [congruence|].
  rewrite H in Hop. symmetry in Hop. simpl in Hop.
  pose proof (links_tabs _ _ _ T L0) as L. pose proof (com_tabs _ _ T D C0) as C.
  pose proof Hop as Hx. unfold exec, run_stmt in Hx. rewrite pg_be in Hx. unfold run_batch in Hx. inv_bind Hx. destruct a as [d1 evs]. cbn [fst snd] in Hx.
  rename Hx0 into HA. destruct (apply_ins _ _ _ _ _ _ HA) as (-> & Hnd & Hfree). rename Hx into HF.
  assert (Hg : grows dp d') by exact (batch_grows m rows dp d1 d' HA HF).
  assert (Hgd : ∀ t j, getrow dp t j = getrow d t j) by (intros; unfold getrow, tab; by rewrite T).
  assert (Hkeys : ch_key <$> ((λ p : Z * row, CIns p.1 p.2) <$> rows) = rows.*1) by (rewrite <- list_fmap_compose; by apply list_fmap_ext).
  split_and!.
  - eapply (exec_lgood Postgres S rand imm depth E l Hwf HE Hl (sa_m2m _ _ _ Hsa)); [|exact Hop|done].
    apply Forall_forall. intros ch Hch. apply elem_of_list_fmap in Hch as (p & -> & _). done.
  - intros m' k y Hm' Hy. destruct (getrow dp (m_table m') k) as [x|] eqn:Hx.
    + eapply (others_inv Postgres S rand imm depth E l HE Hl Hnames rank Hsa Hac Hos (m_table m) ((λ p : Z * row, CIns p.1 p.2) <$> rows) m' k dp d' y Hm').
      * apply Forall_forall. intros ch Hch. apply elem_of_list_fmap in Hch as (p & -> & Hp). split; [done|]. intros Ht Hk. simpl in Hk. subst k.
        rewrite <- Ht, Hfree in Hx; [done|]. apply elem_of_list_fmap. by exists p.
      * by rewrite Hkeys.
      * done.
      * done.
      * by rewrite Hx.
      * done.
      * intros r Hr. by eapply C.
    + (* a new row: of the batch *)
      assert (Hin : m_table m' = m_table m ∧ ∃ r, (k, r) ∈ rows).
      { pose proof (fire_all_skel _ _ _ _ HF (m_table m') k) as Hsk. rewrite Hy in Hsk. destruct (batch_applied m rows dp d1 HA) as [Ap _].
        destruct (getrow d1 (m_table m') k) as [z|] eqn:Hz; [|done].
        destruct (decide (m_table m' = m_table m)) as [Ht|Ht]; [|by rewrite (ap_other _ _ _ _ Ap) in Hz by done; congruence].
        split; [done|]. rewrite Ht in *. destruct (decide (k ∈ rows.*1)) as [Hk|Hk].
        - apply elem_of_list_fmap in Hk as ([k' r] & -> & Hk). by exists r.
        - exfalso. rewrite (ap_none _ _ _ _ Ap) in Hz; [congruence|]. intros e He Hek. apply elem_of_list_fmap in He as (p & -> & Hp).
          apply Hk. apply elem_of_list_fmap. simpl in Hek. exists p. by split. }
      destruct Hin as [Ht (r & Hin)]. assert (m' = m) as -> by (eapply NoDup_fmap_eq; [apply (wf_tables _ Hwf)|done..]).
      pose proof Hin as Hin'. apply elem_of_list_lookup in Hin' as [i Hi]. destruct (Forall2_lookup_r _ _ _ _ _ F2 Hi) as (o & Ho & Hok & d2 & q & T2 & Hq & Hr).
      cbn [fst snd] in *. eapply (batch_row_inv m rows dp d1 d' Hm L N' HA HF k r Hin o.1 o.2 d2 q); [congruence|done|done| |done].
      destruct o as [[k'|] ro]; cbn [fst] in *.
      * rewrite (Hok k' eq_refl). by intros f fn ds sk d3 r3 _ _ _.
      * intros f fn ds sk d3 r3 Hf Hk T3. rewrite T in T3. eapply Hal; [|done|done|done]. by rewrite <- Hgd.
  - intros t j x Hx. rewrite <- Hgd in Hx. by apply Hg.
Qed.

Lemma bulk_create_snoc m bs objs d d' : bulk_create E m (bs ++ [objs]) d = Ok d' →
  ∃ d1, bulk_create E m bs d = Ok d1 ∧ bulk_batch E m objs d1 = Ok d'.
Proof.
  unfold bulk_create. case_match; [done|]. rewrite foldM_app. intros Hf. inv_bind Hf. exists a. split; [done|].
  rewrite foldM_cons in Hf. inv_bind Hf. by injection Hf as <-.
Qed.
Lemma pg_bulk m bs d d' : m ∈ s_models S → bulk_create E m bs d = Ok d' → no_self_relation S d' →
  (∀ bs1 bs2 d2 k, bs = bs1 ++ bs2 → bulk_create E m bs1 d = Ok d2 → getrow d2 (m_table m) k = None → key_alike m d2 None k) →
  links_ok S d → consistent_or_marked S d → links_ok S d' ∧ consistent_or_marked S d' ∧ grows d d'.
Proof.
  intros Hm. revert d'. induction bs as [|objs bs IH] using rev_ind; intros d' H N' Hal L C.
  - unfold bulk_create in H. destruct (_ && _) in H; [done|]. injection H as <-. split_and!; [done..|apply grows_refl].
  - apply bulk_create_snoc in H as (d1 & H1 & H2).
    (* rows of earlier batches are still there: no self relation before this batch either *)
    assert (N1 : no_self_relation S d1).
    { destruct (bulk_batch_total E S m objs d1) as [(e & _ & _ & _ & _ & _ & He)|(rows & dp & T & D & Hop & _)]; [congruence|].
      rewrite H2 in Hop. symmetry in Hop. simpl in Hop. unfold exec, run_stmt in Hop. rewrite pg_be in Hop. unfold run_batch in Hop. inv_bind Hop.
      destruct a as [d3 evs]. cbn [fst snd] in Hop. destruct (apply_ins _ _ _ _ _ _ Hop0) as (-> & _ & _).
      eapply no_self_grows; [|exact N']. intros t j x Hx. eapply (batch_grows m rows dp d3 d' Hop0 Hop). unfold getrow, tab in *. by rewrite T. }
    destruct (IH d1 H1 N1) as (L1 & C1 & G1); [|done|done|].
    { intros bs1 bs2 d2 k -> Hb. by apply (Hal bs1 (bs2 ++ [objs])); [rewrite (assoc_L app)|]. }
    destruct (pg_batch m objs d1 d' Hm H2 N') as (L2 & C2 & G2); [|done|done|].
    { intros k. by apply (Hal bs [objs] d1 k). }
    split_and!; [done..|by eapply grows_trans].
Qed.
End pg.

(** ** The other backends *)
(** SQLite and MySQL run the triggers row by row.  All is well if the functions of the model
    depend on no rows of their own table: no row of a batch should see another one. *)
Definition no_own_table (m : model) : Prop := ∀ f fn ds sk dp,
  f ∈ m_fields m → f_kind f = KCallback fn ds sk → dp ∈ ds → dep_other dp ≠ m_name m.

Section seq.
Context (b : backend) (S : schema) (rand : nat → Z) (imm : bool) (depth : nat) (E : env) (l : list trigger).
Context (HE : mk_env b S rand imm depth = Ok E) (Hl : gen_all S = Ok l) (Hnames : names_ok b l).
Context (rank : string → nat) (Hsa : savable S rank imm) (Hac : acyclic E rank) (Hos : own_stored S rank).
Let Hwf : wf_schema S := sa_wf _ _ _ Hsa.
Let Hlk : wf_links S := sa_links _ _ _ Hsa.
Context (Hb : b ≠ Postgres).
Lemma seq_be : e_be E = b.
Proof. unfold mk_env in HE. inv_bind HE. by injection HE as <-. Qed.
Lemma exec_seq t cs d : exec E t cs d = foldM (λ d c, exec E t [c] d) d cs.
Proof.
  unfold exec, run_stmt. rewrite seq_be. destruct b; [|done|].
  all: revert d; induction cs as [|c cs IH]; intros d; [done|]; rewrite !foldM_cons; cbn [foldM];
    destruct (run_batch E (fire E (e_depth E) []) t [c] d) as [d1|]; cbn [rbind]; [|done]; apply IH.
Qed.

Context (m : model) (Hm : m ∈ s_models S) (Hno : no_own_table m).
(** Outside the table of [m] only columns kept by triggers changed, and none in tables of at least its rank. *)
Definition outside (d d' : db) : Prop := ∀ t j, t ≠ m_table m →
  ((rank (m_table m) ≤ rank t)%nat → getrow d' t j = getrow d t j) ∧
  match getrow d t j, getrow d' t j with
  | None, None => True
  | Some x, Some y => ∀ c, ¬ tw E t c → col x c = col y c
  | _, _ => False
  end.
Lemma outside_refl d : outside d d.
Proof. intros t j _. split; [done|]. by destruct (getrow d t j). Qed.
Lemma outside_updated d d1 k r d' : outside d d1 → updated E rank (m_table m) k r d1 d' → outside d d'.
Proof.
  intros Ho Hu t j Ht. destruct (Ho t j Ht) as [H1 H2]. split.
  - intros Hle. rewrite (ud_high _ _ _ _ _ _ _ Hu); [by apply H1|done|by left].
  - pose proof (ud_skel _ _ _ _ _ _ _ Hu t j (or_introl Ht)) as Hs.
    destruct (getrow d t j), (getrow d1 t j), (getrow d' t j); try done. intros c Hc. rewrite H2, Hs; done.
Qed.
Lemma view_outside f fn ds sk rd dp cs d d1 k r :
  f ∈ m_fields m → f_kind f = KCallback fn ds sk → covered S m f fn ds rd → settled S rank m f rd → (dp, cs) ∈ rd_via rd →
  outside d d1 → dep_view S m d k r dp cs = dep_view S m d1 k r dp cs.
Proof.
  intros Hf Hk Hcv Hset Hin Ho.
  assert (Hdp : dp ∈ ds) by (eapply dr_dep; [apply (cv_decl _ _ _ _ _ _ Hcv)|exact Hin]).
  assert (Hdpf : dp ∈ field_deps f) by (unfold field_deps; by rewrite Hk).
  unfold dep_view. destruct (find_model S (dep_other dp)) as [o|] eqn:Hfo; [|done].
  destruct (find_model_in _ _ _ Hfo) as [Hoin Hname].
  pose proof (wf_deps _ Hwf _ _ _ Hm Hf Hdpf _ Hfo) as Wd.
  assert (Hne : m_table o ≠ m_table m).
  { intros Heq. assert (o = m) as -> by (eapply NoDup_fmap_eq; [apply (wf_tables _ Hwf)|done..]).
    eapply Hno; [exact Hf|exact Hk|exact Hdp|congruence]. }
  assert (Hag : ∀ j, agree o cs (getrow d (m_table o) j) (getrow d1 (m_table o) j)).
  { intros j. destruct (Ho (m_table o) j Hne) as [H1 H2]. destruct (decide (rank (m_table m) ≤ rank (m_table o))%nat) as [Hle|Hlt].
    - rewrite H1 by done. by destruct (getrow d (m_table o) j).
    - destruct (getrow d (m_table o) j), (getrow d1 (m_table o) j); try done. intros c Hc. apply H2.
      eapply column_not_tw; eauto. destruct Hc as [Hc|Hc]; [|done]. eapply (se_via _ _ _ _ _ Hset); eauto. lia. }
  destruct (dep_rel dp) as [fk|fk|t c rc|ctc oidc|ctc oidc] eqn:Hrl; [..|done].
  - f_equal. destruct (col r fk) as [|j|]; [done| |done]. by apply agree_cols with (o := o).
  - f_equal. apply map_eq. intros j. rewrite !lookup_omap. fold (getrow d (m_table o) j) (getrow d1 (m_table o) j). specialize (Hag j).
    destruct (getrow d (m_table o) j) as [x|], (getrow d1 (m_table o) j) as [y|]; simpl in *; try done.
    rewrite (Hag fk) by by right. case_decide; [|done]. f_equal. apply fmap_ext_in. intros c Hc. apply Hag. by left.
  - f_equal. destruct Wd as (Wt & _). apply map_eq. intros j. rewrite !lookup_omap. fold (getrow d t j) (getrow d1 t j).
    destruct (Ho t j (Wt _ Hm)) as [_ La].
    destruct (getrow d t j) as [x|], (getrow d1 t j) as [y|]; simpl in *; try done.
    assert (Hc : ∀ c, col x c = col y c) by (intros c0; apply La; by eapply link_not_tw).
    rewrite !Hc. case_decide; [|done]. do 2 f_equal. destruct (col y rc) as [|i|]; [done| |done]. by apply agree_cols with (o := o).
  - f_equal. apply map_eq. intros j. rewrite !lookup_omap. fold (getrow d (m_table o) j) (getrow d1 (m_table o) j). specialize (Hag j).
    destruct Wd as [W1 W2]. destruct (getrow d (m_table o) j) as [x|], (getrow d1 (m_table o) j) as [y|]; simpl in *; try done.
    rewrite (Hag ctc), (Hag oidc) by by right. case_decide; [|done]. f_equal. apply fmap_ext_in. intros c Hc. apply Hag. by left.
Qed.
Lemma no_own_self d k r dp f fn ds sk : f ∈ m_fields m → f_kind f = KCallback fn ds sk → dp ∈ ds → ¬ self_related m d k r dp.
Proof. intros Hf Hk Hdp [Hoth _]. by eapply Hno. Qed.

(** One row of the batch: prepared on [d], inserted in [d1]. *)
Lemma seq_row d d1 d' k r pk rin d2 q : finv S d1 → outside d d1 → exec E (m_table m) [CIns k r] d1 = Ok d' →
  d_tabs d2 = d_tabs d → presave_all E m true pk d2 rin = Ok q → r = q.2 → key_alike m d pk k →
  finv S d' ∧ outside d d'.
Proof.
  intros (L & C & N) Ho Hx T2 Hq Hr Hal.
  assert (Hfree : getrow d1 (m_table m) k = None).
  { unfold exec in Hx. apply run_stmt_single in Hx. unfold run_batch in Hx. inv_bind Hx. rewrite apply_all_cons in Hx0. inv_bind Hx0.
    simpl in Hx1. by destruct (getrow d1 (m_table m) k). }
  pose proof (exec_inserted _ _ _ _ _ _ _ Hac Hfree Hx) as Hu.
  assert (Hrx : ∀ x : row, getrow d1 (m_table m) k = Some x → x = r) by (intros; congruence).
  assert (N2 : no_self_relation S d').
  { refine (no_self_updated b S rand imm depth E l Hwf HE Hl Hnames Hlk (sa_m2m _ _ _ Hsa) rank Hac (sa_self _ _ _ Hsa) (sa_nodm _ _ _ Hsa)
      (sa_truthy _ _ _ Hsa) m k r r r d1 d' Hm Hrx Hu _ N _); [done|]. intros. by eapply no_own_self. }
  assert (Hc2 : ∀ f, f ∈ m_fields m → row_consistent m d' k r f).
  { intros f Hf. unfold row_consistent. destruct (f_kind f) as [| |fn ds sk|a|ds] eqn:Hk; [done..| |done|done].
    destruct (Hos _ _ _ _ _ Hm Hf Hk) as (rd & Hcv & Hse & Hco).
    edestruct (presave_callback_new E m true pk rin f fn ds sk d2 q rd) as (di & ri & pv & v & Td & Hfn & Hsv & Hcol & Hri).
    { apply (wf_cols _ _ (wf_models _ Hwf _ Hm)). } { done. } { done. } { apply (se_order _ _ _ _ _ Hse). } { done. } { done. }
    rewrite T2 in Td. rewrite (Hal f fn ds sk di ri Hf Hk Td) in Hfn. rewrite <- Hr in *. exists pv. split.
    - rewrite <- Hfn. symmetry. apply (cv_reads _ _ _ _ _ _ Hcv); [done|]. intros dp cs0 Hin'.
      assert (Hdp : dp ∈ ds) by (eapply dr_dep; [apply (cv_decl _ _ _ _ _ _ Hcv)|exact Hin']).
      transitivity (dep_view S m d1 k ri dp cs0).
      + assert (Hod : outside di d1). { intros t j Ht. destruct (Ho t j Ht) as [H1 H2]. unfold getrow, tab in *. by rewrite Td. }
        by eapply view_outside.
      + eapply (dep_view_own b S rand imm depth E l Hwf HE Hl (sa_m2m _ _ _ Hsa) rank (sa_self _ _ _ Hsa) m k r r r d1 d'); eauto; by eapply no_own_self.
    - rewrite Hcol. unfold store_value in Hsv. unfold stores. destruct pv as [w|mn j]; [by injection Hsv as ->|].
      destruct (f_fk f) as [rm|]; [|done]. case_decide; [|done]. subst. by injection Hsv as <-. }
  split; [|by eapply outside_updated]. split_and!; [|..|done].
  { eapply (exec_lgood b S rand imm depth E l Hwf HE Hl (sa_m2m _ _ _ Hsa)); [|exact Hx|done]. by apply Forall_singleton. }
  intros m' k' y Hm' Hy. destruct (decide (m_table m' = m_table m ∧ k' = k)) as [[Ht ->]|Hne].
  { right. assert (m' = m) as -> by (eapply NoDup_fmap_eq; [apply (wf_tables _ Hwf)|done..]).
    rewrite (ud_own _ _ _ _ _ _ _ Hu) in Hy. by injection Hy as <-. }
  pose proof (ud_skel _ _ _ _ _ _ _ Hu (m_table m') k' ltac:(destruct (decide (m_table m' = m_table m)); [right; naive_solver|by left])) as Hsk.
  rewrite Hy in Hsk. destruct (getrow d1 (m_table m') k') as [x|] eqn:Hxr; [|done].
  eapply (others_inv b S rand imm depth E l HE Hl Hnames rank Hsa Hac Hos (m_table m) [CIns k r] m' k' d1 d' y Hm').
  - apply Forall_singleton. split; [done|]. intros Ht Hkey. simpl in Hkey. naive_solver.
  - apply NoDup_singleton.
  - done.
  - done.
  - by rewrite Hxr.
  - done.
  - intros r2 Hr2. by eapply C.
Qed.
Lemma finv_tabs d d1 : d_tabs d1 = d_tabs d → d_dirty d1 = d_dirty d → finv S d → finv S d1.
Proof.
  intros T D (L & C & N). split_and!; [by eapply links_tabs|by eapply com_tabs|]. intros m' f fn ds sk dp k y Hm' Hf Hk Hdp Hy [Hoth Hrel].
  assert (Hg : ∀ t j, getrow d1 t j = getrow d t j) by (intros; unfold getrow, tab; by rewrite T). rewrite Hg in Hy.
  apply (N m' f fn ds sk dp k y Hm' Hf Hk Hdp Hy). split; [done|].
  destruct (dep_rel dp) as [fk|fk|t' c rc|ctc oidc|ctc oidc]; try done.
  destruct Hrel as (lk & lr & Hlr & H1 & H2). rewrite Hg in Hlr. by exists lk, lr.
Qed.
Lemma seq_batch objs d d' : bulk_batch E m objs d = Ok d' →
  (∀ k, getrow d (m_table m) k = None → key_alike m d None k) → finv S d → finv S d'.
Proof.
  intros H Hal Hi. destruct (bulk_batch_total E S m objs d) as [(e & _ & _ & _ & _ & _ & He)|(rows & dp & T & D & Hop & F2 & _)]; [congruence|].
  rewrite H in Hop. symmetry in Hop. simpl in Hop.
  assert (Hfree : ∀ k, k ∈ rows.*1 → getrow d (m_table m) k = None).
  { intros k Hk. assert (Hgd : getrow dp (m_table m) k = getrow d (m_table m) k) by (unfold getrow, tab; by rewrite T). rewrite <- Hgd.
    rewrite exec_seq in Hop. clear - Hop Hk. revert dp Hop. induction rows as [|[k' r'] rows IH]; intros dp Hop; [by apply elem_of_nil in Hk|].
    rewrite fmap_cons, foldM_cons in Hop. inv_bind Hop. cbn [fst snd] in *.
    unfold exec in Hop0. apply run_stmt_single in Hop0. unfold run_batch in Hop0. inv_bind Hop0. destruct a0 as [dx ex]. rewrite apply_all_cons in Hop1. inv_bind Hop1.
    destruct a0 as [dy ey]. cbn [fst snd] in *. injection Hop1 as <- <-. simpl in Hop2. destruct (getrow dp (m_table m) k') eqn:Hk'; [done|]. destruct (_ || _) in Hop2; [|done].
    injection Hop2 as <- <-. apply elem_of_cons in Hk as [->|Hk]; [done|]. specialize (IH Hk _ Hop). rewrite app_nil_r in Hop0.
    pose proof (fire_all_skel E _ _ _ _ Hop0 (m_table m) k) as Hs. rewrite IH in Hs. destruct (getrow (put_row dp (m_table m) k' r') (m_table m) k) as [z|] eqn:Hz; [done|].
    destruct (decide (k = k')) as [->|Hne]; [by rewrite getrow_put_eq in Hz|]. rewrite getrow_put_ne in Hz; [done|naive_solver]. }
  rewrite exec_seq in Hop. apply (finv_tabs _ dp T D) in Hi.
  assert (Ho : outside d dp). { intros t j Ht. unfold getrow, tab. rewrite T. split; [done|]. by destruct ((default ∅ (d_tabs d !! t) : table) !! j). }
  revert Hop F2 Hfree Hi Ho. clear H T D. revert dp objs. induction rows as [|[k r] rows IH]; intros dp objs Hop F2 Hfree Hi Ho; [by injection Hop as <-|].
  rewrite fmap_cons, foldM_cons in Hop. inv_bind Hop. cbn [fst snd] in *. apply Forall2_cons_inv_r in F2 as (o & objs' & (Hok & d2 & q & T2 & Hq & Hr) & F2 & ->). cbn [fst snd] in *.
  destruct (seq_row d dp a k r o.1 o.2 d2 q Hi Ho Hop0 T2 Hq Hr) as [Hi' Ho'].
  { destruct o as [[k'|] ro]; cbn [fst] in *.
    - rewrite (Hok k' eq_refl). by intros f fn ds sk d3 r3 _ _ _.
    - apply Hal, Hfree. left. }
  eapply IH; [exact Hop|exact F2| |done|done]. intros k0 Hk0. apply Hfree. by right.
Qed.
Lemma seq_bulk bs d d' : bulk_create E m bs d = Ok d' →
  (∀ bs1 bs2 d2 k, bs = bs1 ++ bs2 → bulk_create E m bs1 d = Ok d2 → getrow d2 (m_table m) k = None → key_alike m d2 None k) →
  finv S d → finv S d'.
Proof.
  revert d'. induction bs as [|objs bs IH] using rev_ind; intros d' H Hal Hi.
  - unfold bulk_create in H. destruct (_ && _) in H; [done|]. by injection H as <-.
  - apply bulk_create_snoc in H as (d1 & H1 & H2). eapply seq_batch; [exact H2| |].
    + intros k. by apply (Hal bs [objs] d1 k).
    + apply IH; [done| |done]. intros bs1 bs2 d2 k -> Hb'. by apply (Hal bs1 (bs2 ++ [objs])); [rewrite (assoc_L app)|].
Qed.
End seq.

Lemma seq_bulk_flush b S rand imm depth E rank m bs d d1 ord n d' :
  b ≠ Postgres → mk_env b S rand imm depth = Ok E → savable S rank imm → own_stored S rank → m ∈ s_models S → no_own_table m →
  links_ok S d → consistent_or_marked S d → no_self_relation S d →
  (∀ bs1 bs2 d2 k, bs = bs1 ++ bs2 → bulk_create E m bs1 d = Ok d2 → getrow d2 (m_table m) k = None → key_alike m d2 None k) →
  bulk_create E m bs d = Ok d1 →
  consistent_or_marked S d1 ∧ (flush E S ord n d1 = (d', Done) → consistent S d' ∧ d_dirty d' = []).
Proof.
  intros Hb HE Hsa Hos Hm Hno L C N Hal H. destruct (mk_env_gen _ _ _ _ _ _ HE) as [l Hl].
  assert (Hn : names_ok b l) by (eapply names_apart_ok; [exact (sa_wf _ _ _ Hsa)|done|done|exact (sa_names _ _ _ Hsa)]).
  assert (Hac : acyclic E rank) by (eapply upd_acyclic_ok; [exact (sa_wf _ _ _ Hsa)|done|done|done|exact (sa_acyclic _ _ _ Hsa)]).
  destruct (seq_bulk b S rand imm depth E l HE Hl Hn rank Hsa Hac Hos Hb m Hm Hno bs d d1 H Hal) as (L1 & C1 & N1); [done|]. split; [done|].
  intros Hf. eapply (orm_hist_flush b S rand imm depth E HE rank Hsa Hos d1 d1); [apply rtc_refl|done..].
Qed.

Lemma pg_bulk_flush S rand imm depth E rank m bs d d1 ord n d' :
  mk_env Postgres S rand imm depth = Ok E → savable S rank imm → own_stored S rank → m ∈ s_models S →
  links_ok S d → consistent_or_marked S d →
  (∀ bs1 bs2 d2 k, bs = bs1 ++ bs2 → bulk_create E m bs1 d = Ok d2 → getrow d2 (m_table m) k = None → key_alike m d2 None k) →
  bulk_create E m bs d = Ok d1 → no_self_relation S d1 →
  consistent_or_marked S d1 ∧ (flush E S ord n d1 = (d', Done) → consistent S d' ∧ d_dirty d' = []).
Proof.
  intros HE Hsa Hos Hm L C Hal H N. destruct (mk_env_gen _ _ _ _ _ _ HE) as [l Hl].
  assert (Hn : names_ok Postgres l) by (eapply names_apart_ok; [exact (sa_wf _ _ _ Hsa)|done|done|exact (sa_names _ _ _ Hsa)]).
  assert (Hac : acyclic E rank) by (eapply upd_acyclic_ok; [exact (sa_wf _ _ _ Hsa)|done|done|done|exact (sa_acyclic _ _ _ Hsa)]).
  destruct (pg_bulk S rand imm depth E l HE Hl Hn rank Hsa Hac Hos m bs d d1 Hm H N Hal L C) as (L1 & C1 & _). split; [done|].
  intros Hf. eapply (orm_hist_flush Postgres S rand imm depth E HE rank Hsa Hos d1 d1); [apply rtc_refl|done..].
Qed.
