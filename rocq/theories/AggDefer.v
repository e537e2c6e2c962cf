(** * Aggregates with deferred foreign keys (C54).

    The counterpart of AggOps.v for databases that do not check foreign keys
    statement by statement: aggregates stay exact as long as no row is inserted
    that is already referred to. *)
From Verif Require Import Base BaseLemmas Schema TrigSet Gen Exec Orm Flush Machine Spec SpecAgg Engine GenLemmas Marking Conditions Invariant Settle Sessions Frame Hist Agg AggEngine AggOps.

(** No related row refers to [k]. *)
Definition unreferenced (a : agg) (rel : model) (d : db) (k : Z) : Prop := ∀ j r,
  getrow d (m_table rel) j = Some r → col r (ag_fk a) ≠ VInt k.
(** An insert of rows of [m] comes before the rows that refer to them: a raw insert
    only of keys nothing in [d] refers to, and (for a relation of [m] to itself) nothing
    earlier in the same statement; a save without a key may take any unused one. *)
Definition first_ok (m : model) (a : agg) (rel : model) (d : db) (o : op) : Prop :=
  match o with
  | OInsert t rows => t = m_table m → ∀ rows1 k r rows2, rows = rows1 ++ (k, r) :: rows2 →
      unreferenced a rel d k ∧ (rel = m → ∀ j r', (j, r') ∈ rows1 → col r' (ag_fk a) ≠ VInt k)
  | OSave mn None _ => mn = m_name m → ∀ k, getrow d (m_table m) k = None → unreferenced a rel d k
  | _ => True
  end.
Definition parents_first (E : env) (S : schema) (m : model) (a : agg) (rel : model) (d : db) (hs : list hop) : Prop :=
  ∀ hs1 o hs2, hs = hs1 ++ HOp o :: hs2 → first_ok m a rel (foldl (hstep E S) d hs1) o.

Section agg.
Context (b : backend) (S : schema) (rand : nat → Z) (imm : bool) (depth : nat) (E : env) (l : list trigger).
Context (Hwf : wf_schema S) (HE : mk_env b S rand imm depth = Ok E) (Hl : gen_all S = Ok l) (Hnames : names_ok b l).
Context (m : model) (f : field) (a : agg) (rel : model) (Haf : agg_field S m f a rel).
Notation T := (m_table m).
Notation R := (m_table rel).
Notation c := (f_col f).
Notation delta := (delta a rel).
Notation Rz := (Rz m f).
Notation evsum := (evsum a rel).

Lemma unref_recount d k : unreferenced a rel d k → recount a R d k = 0.
Proof.
  intros Hu. unfold recount. apply msum_zero. intros j z Hz. rewrite lookup_fmap in Hz.
  destruct (tab d R !! j) as [r|] eqn:Hj; [|done]. injection Hz as <-.
  destruct (decide (contrib a k r = 0)) as [|Hne]; [done|]. apply contrib_fk in Hne. by destruct (Hu j r).
Qed.

(** The aggregate is short of [z k] in every row [k]; for the missing rows [K] that the
    running statement is about to insert, all of the value is pending. *)
Record pend (K : Z → Prop) (z : Z → Z) (d : db) : Prop := Pend {
  pe_row : ∀ k r, getrow d T k = Some r → ∃ v, col r c = VInt v ∧ v + z k = recount a R d k;
  pe_none : ∀ k, K k → getrow d T k = None → z k = recount a R d k
}.
(** Inserts only of rows in [K], no deletes of rows in [K]. *)
Definition ch_first (K : Z → Prop) (t : string) (ch : change) : Prop := t = T →
  match ch with CIns k _ => K k | CUpd _ _ => True | CDel k => ¬ K k end.

Lemma change_pend (K : Z → Prop) z t d ch d' evs : ch_quiet ch → clean_in m f d t ch → ch_first K t ch →
  apply_change E t d ch = Ok (d', evs) → pend K z d → pend K (λ k, z k + evsum evs k) d'.
Proof.
  intros Hq Hcl HK H Ho. unfold AggOps.evsum. destruct ch as [k r|k g|k]; simpl in H.
  - destruct (getrow d t k) eqn:Hg; [done|]. destruct (_ || _); [|done]. injection H as <- <-. cbn [zsum foldr].
    assert (Hrc : ∀ k', recount a R (put_row d t k r) k' = recount a R d k' + delta (Ev t k (ChIns r)) k').
    { intros k'. rewrite recount_put. unfold AggEngine.delta. cbn [ev_tab]. destruct (decide (t = R)) as [->|]; [|done]. rewrite Hg. simpl. lia. }
    split.
    + intros k' r' Hr'. rewrite getrow_put in Hr'. case_decide as Hd.
      * destruct Hd as [<- <-]. injection Hr' as <-. exists 0. split; [by apply Hcl|]. rewrite Hrc, (pe_none _ _ _ Ho k') by (done || by apply HK). lia.
      * destruct (pe_row _ _ _ Ho _ _ Hr') as (v & Hv & Hs). exists v. split; [done|]. rewrite Hrc. lia.
    + intros k' Hk' Hn. rewrite getrow_put in Hn. case_decide as Hd; [done|]. rewrite Hrc, (pe_none _ _ _ Ho k') by done. lia.
  - destruct (getrow d t k) as [o|] eqn:Hg.
    2: { injection H as <- <-. destruct Ho as [H1 H2]. cbn [zsum foldr]. split.
         - intros k' r' Hr'. destruct (H1 _ _ Hr') as (v & ? & ?). exists v. split; [done|]. lia.
         - intros k' Hk' Hn. rewrite (H2 _ Hk' Hn). lia. }
    inv_bind H. destruct (_ || _); [|done]. injection H as <- <-. destruct a0 as [r d1]. cbn [fst snd].
    cbn [zsum foldr]. pose proof (Hq _ _ _ H0) as [_ Hts]. simpl in Hts.
    assert (Heq : ∀ t' k', getrow d1 t' k' = getrow d t' k') by (intros; unfold getrow, tab; by rewrite Hts).
    assert (Hrc : ∀ k', recount a R (put_row d1 t k r) k' = recount a R d k' + delta (Ev t k (ChUpd o r)) k').
    { intros k'. rewrite recount_put, (recount_tabs _ _ d) by done. unfold AggEngine.delta. cbn [ev_tab]. destruct (decide (t = R)) as [->|]; [|done].
      rewrite Heq, Hg. done. }
    split.
    + intros k' r' Hr'. rewrite getrow_put in Hr'. case_decide as Hd.
      * destruct Hd as [<- <-]. injection Hr' as <-. destruct (pe_row _ _ _ Ho _ _ Hg) as (v & Hv & Hs). exists v. split.
        -- rewrite <- Hv. apply (Hcl eq_refl _ _ Hg H0).
        -- rewrite Hrc. lia.
      * rewrite Heq in Hr'. destruct (pe_row _ _ _ Ho _ _ Hr') as (v & Hv & Hs). exists v. split; [done|]. rewrite Hrc. lia.
    + intros k' Hk' Hn. rewrite getrow_put in Hn. case_decide as Hd; [done|]. rewrite Heq in Hn. rewrite Hrc, (pe_none _ _ _ Ho k') by done. lia.
  - destruct (getrow d t k) as [o|] eqn:Hg.
    2: { injection H as <- <-. destruct Ho as [H1 H2]. cbn [zsum foldr]. split.
         - intros k' r' Hr'. destruct (H1 _ _ Hr') as (v & ? & ?). exists v. split; [done|]. lia.
         - intros k' Hk' Hn. rewrite (H2 _ Hk' Hn). lia. }
    destruct (_ || _); [|done]. injection H as <- <-. cbn [zsum foldr].
    assert (Hrc : ∀ k', recount a R (del_row d t k) k' = recount a R d k' + delta (Ev t k (ChDel o)) k').
    { intros k'. rewrite recount_del. unfold AggEngine.delta. cbn [ev_tab]. destruct (decide (t = R)) as [->|]; [|lia]. rewrite Hg. cbn. lia. }
    split.
    + intros k' r' Hr'. rewrite getrow_del in Hr'. case_decide; [done|].
      destruct (pe_row _ _ _ Ho _ _ Hr') as (v & Hv & Hs). exists v. split; [done|]. rewrite Hrc. lia.
    + intros k' Hk' Hn. rewrite getrow_del in Hn. case_decide as Hd.
      * destruct Hd as [<- <-]. by destruct (HK eq_refl).
      * rewrite Hrc, (pe_none _ _ _ Ho k') by done. lia.
Qed.
Lemma changes_pend K t cs : (∀ d ch, ch ∈ cs → clean_in m f d t ch) → Forall ch_quiet cs → Forall (ch_first K t) cs →
  ∀ z d d' evs, apply_all E t cs d = Ok (d', evs) → pend K z d → pend K (λ k, z k + evsum evs k) d'.
Proof.
  unfold AggOps.evsum. induction cs as [|ch cs IH]; intros Hcl Hq Hf z d d' evs H Ho.
  - injection H as <- <-. destruct Ho as [H1 H2]. cbn [zsum foldr]. split.
    + intros k' r' Hr'. destruct (H1 _ _ Hr') as (v & ? & ?). exists v. split; [done|]. lia.
    + intros k' Hk' Hn. rewrite (H2 _ Hk' Hn). lia.
  - rewrite apply_all_cons in H. inv_bind H. destruct a0 as [d1 e1]. simpl in H. inv_bind H. destruct a0 as [d2 e2]. simpl in H. injection H as <- <-.
    apply Forall_cons in Hq as [Hq1 Hq2]. apply Forall_cons in Hf as [Hf1 Hf2].
    eapply change_pend in H0; [|done|apply Hcl; left|exact Hf1|exact Ho].
    destruct (IH ltac:(intros; apply Hcl; by right) Hq2 Hf2 _ _ _ _ H1 H0) as [O1 O2].
    unfold AggOps.evsum in *. split.
    + intros k r Hr. destruct (O1 _ _ Hr) as (v & ? & ?). exists v. split; [done|]. rewrite zsum_app. lia.
    + intros k Hk Hn. specialize (O2 _ Hk Hn). rewrite zsum_app. lia.
Qed.

(** ** Statements *)
Definition exactd (d : db) : Prop := ∀ k r, getrow d T k = Some r → col r c = VInt (recount a R d k).
Lemma exactd_pend (K : Z → Prop) d : (∀ k, K k → recount a R d k = 0) → exactd d → pend K Z0 d.
Proof.
  intros HK H. split.
  - intros k r Hr. exists (recount a R d k). rewrite (H _ _ Hr). unfold Z0. split; [done|lia].
  - intros k Hk _. by rewrite (HK _ Hk).
Qed.
Lemma exactd_tabs d d' : d_tabs d' = d_tabs d → exactd d → exactd d'.
Proof.
  intros Ht H k r. rewrite (recount_tabs _ _ d) by done. unfold getrow, tab. rewrite Ht. apply H.
Qed.
Lemma skel_recountd d d' k : skel E d d' → recount a R d' k = recount a R d k.
Proof.
  intros Hs. apply recount_ext. intros j. destruct (getrow d R j) as [r|] eqn:Hj.
  - specialize (Hs R j). rewrite Hj in Hs. destruct (getrow d' R j) as [r'|]; [|done]. simpl. f_equal. apply contrib_cols.
    intros x Hx. symmetry. apply Hs. by eapply cols_not_tw.
  - by rewrite (skel_none _ _ _ _ _ Hs Hj).
Qed.
Lemma fire_exactd K z d d' : skel E d d' → Rz z d d' → pend K z d → exactd d'.
Proof.
  intros Hs Hz [H1 H2] k r' Hr'. destruct (getrow d T k) as [r|] eqn:Hr; [|by rewrite (skel_none _ _ _ _ _ Hs Hr) in Hr'].
  destruct (H1 _ _ Hr) as (v & Hv & He). destruct (Hz _ _ _ Hr Hv) as (r2 & Hr2 & Hv2). rewrite Hr2 in Hr'. injection Hr' as ->.
  by rewrite Hv2, He, (skel_recountd d d').
Qed.
Lemma fires_Rzd n evs d d' : foldM (fire E n []) d evs = Ok d' → Rz (evsum evs) d d' ∧ skel E d d'.
Proof.
  intros H. split.
  - eapply (foldM_Rz m f _ delta); [|exact H]. intros e d1 d2 _ Hf. eapply (fire_agg b S rand imm depth E l Hwf HE Hl Hnames m f a rel Haf (cols_not_tw b S rand imm depth E l Hwf HE Hl m f a rel Haf)); [|exact Hf]. left. apply unblocked_nil.
  - eapply (foldM_rel (skel E)); [apply skel_refl|apply skel_trans| |exact H]. intros d1 e d2 _ Hf. by eapply fire_skel.
Qed.
Lemma batch_exactd (K : Z → Prop) n t cs d d' : (∀ d ch, ch ∈ cs → clean_in m f d t ch) → Forall ch_quiet cs → Forall (ch_first K t) cs →
  (∀ k, K k → recount a R d k = 0) → run_batch E (fire E n []) t cs d = Ok d' → exactd d → exactd d'.
Proof.
  intros Hcl Hq Hf HK H Hex. unfold run_batch in H. inv_bind H. destruct a0 as [d1 evs]. simpl in H.
  pose proof (changes_pend K t cs Hcl Hq Hf Z0 d d1 evs H0 (exactd_pend K _ HK Hex)) as [O1 O2].
  destruct (fires_Rzd _ _ _ _ H) as [Hz Hs]. eapply (fire_exactd K); [exact Hs|exact Hz|]. exact (Pend _ _ _ O1 O2).
Qed.
Lemma single_exactd (K : Z → Prop) n t ch d d' : clean_in m f d t ch → ch_quiet ch → ch_first K t ch →
  (∀ k, K k → recount a R d k = 0) → run_batch E (fire E n []) t [ch] d = Ok d' → exactd d → exactd d'.
Proof.
  intros Hcl Hq Hf HK H Hex. unfold run_batch in H. inv_bind H. destruct a0 as [d1 evs]. simpl in H.
  rewrite apply_all_cons in H0. inv_bind H0. destruct a0 as [d2 e2]. simpl in H0. injection H0 as <- <-. rewrite app_nil_r in H.
  destruct (fires_Rzd _ _ _ _ H) as [Hz Hs].
  eapply (change_pend K) in H1 as [O1 O2]; [|done|done|done|by apply exactd_pend].
  eapply (fire_exactd K); [exact Hs|exact Hz|]. exact (Pend _ _ _ O1 O2).
Qed.
(** A statement without inserts into the table. *)
Definition no_ins (t : string) (ch : change) : Prop := t = T → match ch with CIns _ _ => False | _ => True end.
Lemma no_ins_first t ch : no_ins t ch → ch_first (λ _, False) t ch.
Proof. intros H Ht. specialize (H Ht). destruct ch; naive_solver. Qed.
Lemma exec_exactd t cs d d' : (∀ d ch, ch ∈ cs → clean_in m f d t ch) → Forall ch_quiet cs → Forall (no_ins t) cs →
  exec E t cs d = Ok d' → exactd d → exactd d'.
Proof.
  intros Hcl Hq Hf H. destruct (decide (e_be E = Postgres)) as [Hb|Hb].
  - unfold exec, run_stmt in H. rewrite Hb in H. eapply (batch_exactd (λ _, False)); eauto; [|done].
    eapply Forall_impl; [exact Hf|]. apply no_ins_first.
  - unfold exec, run_stmt in H.
    assert (H' : foldM (λ d c, run_batch E (fire E (e_depth E) []) t [c] d) d cs = Ok d') by by destruct (e_be E).
    eapply (foldM_rel (λ d d', exactd d → exactd d')); [by intros ?|by eauto| |exact H']. intros d1 ch d2 Hin Hr.
    eapply (single_exactd (λ _, False)); [by apply Hcl| | | |exact Hr].
    + by eapply Forall_forall in Hq.
    + apply no_ins_first. by eapply Forall_forall in Hf.
    + done.
Qed.
Lemma exec1_exactd (K : Z → Prop) t ch d d' : clean_in m f d t ch → ch_quiet ch → ch_first K t ch →
  (∀ k, K k → recount a R d k = 0) → exec E t [ch] d = Ok d' → exactd d → exactd d'.
Proof. intros Hcl Hq Hf HK H. apply run_stmt_single in H. by eapply (single_exactd K). Qed.
(** Inserting row by row. *)
Lemma ins_recount n t k r d d' k' : run_batch E (fire E n []) t [CIns k r] d = Ok d' →
  recount a R d' k' = recount a R d k' + (if decide (t = R) then contrib a k' r else 0).
Proof.
  intros H. unfold run_batch in H. inv_bind H. destruct a0 as [d1 evs]. simpl in H.
  rewrite apply_all_cons in H0. inv_bind H0. destruct a0 as [d2 e2]. simpl in H0. injection H0 as <- <-. rewrite app_nil_r in H.
  destruct (fires_Rzd _ _ _ _ H) as [_ Hs]. rewrite (skel_recountd _ _ _ Hs). simpl in H1.
  destruct (getrow d t k) eqn:Hg; [done|]. destruct (_ || _); [|done]. injection H1 as <- <-.
  rewrite recount_put. destruct (decide (t = R)) as [->|]; [|lia]. rewrite Hg. simpl. lia.
Qed.
Lemma inserts_exactd n t rows : ∀ d d',
  (t = T → ∀ k r, (k, r) ∈ rows → col r c = VInt 0) →
  (t = T → ∀ rows1 k r rows2, rows = rows1 ++ (k, r) :: rows2 → recount a R d k = 0 ∧ (t = R → ∀ j r', (j, r') ∈ rows1 → contrib a k r' = 0)) →
  foldM (λ d c, run_batch E (fire E n []) t [c] d) d ((λ p : Z * row, CIns p.1 p.2) <$> rows) = Ok d' → exactd d → exactd d'.
Proof.
  induction rows as [|[k r] rows IH]; intros d d' Hcl Hf H Hex; [by injection H as <-|].
  rewrite fmap_cons, foldM_cons in H. inv_bind H.
  assert (Hex1 : exactd a0).
  { eapply (single_exactd (λ k', t = T ∧ k' = k)); [| | | |exact H0|done].
    - intros Ht. eapply Hcl; [done|left].
    - done.
    - by intros Ht.
    - intros k' [Ht ->]. by destruct (Hf Ht [] k r rows eq_refl). }
  eapply IH; [..|exact H|done].
  - intros Ht k' r' Hin. eapply Hcl; [done|by right].
  - intros Ht rows1 k' r' rows2 ->. destruct (Hf Ht ((k, r) :: rows1) k' r' rows2 eq_refl) as [Hz Hc]. split.
    + rewrite (ins_recount _ _ _ _ _ _ _ H0), Hz. destruct (decide (t = R)) as [HtR|]; [|done]. cbn [fst snd]. rewrite (Hc HtR k r); [done|left].
    + intros HtR j r2 Hj. eapply Hc; [done|]. by right.
Qed.

(** ** Saving *)
Lemma link_exactd t cs d d' : (∀ m', m' ∈ s_models S → t ≠ m_table m') → Forall ch_quiet cs →
  exec E t cs d = Ok d' → exactd d → exactd d'.
Proof.
  intros Ht Hq. apply exec_exactd; [|done|].
  - intros d1 ch _ ->. exfalso. by eapply Ht; [apply Haf|].
  - apply Forall_forall. intros ch _ ->. exfalso. by eapply Ht; [apply Haf|].
Qed.
Lemma m2m_pre_save_exactd m' pk r d d' : m' ∈ s_models S → m2m_pre_save E m' pk r d = Ok d' → exactd d → exactd d'.
Proof.
  intros Hm'. unfold m2m_pre_save. destruct pk as [k'|]; [|intros [= <-]; done].
  case_decide; [intros [= <-]; done|].
  apply (foldM_rel (λ d d', exactd d → exactd d')); [by intros ?|by eauto|].
  intros d1 mm d2 Hmm Ha. destruct (mm_denorm mm) as [[fn' ds']|]; [|by injection Ha as <-].
  inv_bind Ha. assert (Ht : ∀ m'', m'' ∈ s_models S → mm_table mm ≠ m_table m'').
  { intros m'' Hm''. by apply (wf_m2mtab _ _ (wf_models _ Hwf _ Hm')). }
  unfold m2m_set in Ha. inv_bind Ha. intros Hex. eapply link_exactd; [done|apply number_quiet|exact Ha|].
  eapply link_exactd; [done| |eassumption|done].
  apply Forall_forall. intros x Hx. by apply elem_of_list_fmap in Hx as (y & -> & _).
Qed.
Lemma save_existing_exactd m' k r d p : m' ∈ s_models S → save_existing E m' k r d = Ok p → exactd d → exactd p.1.
Proof.
  intros Hm'. unfold save_existing. intros H Hex. inv_bind H. inv_bind H. inv_bind H. injection H as <-. simpl.
  eapply m2m_pre_save_exactd in H0; [|done|done]. pose proof H1 as Hps. apply presave_all_db in H1 as [Ht _].
  eapply (exec1_exactd (λ _, False)); [| | | |exact H2|by eapply exactd_tabs].
  - intros HT. apply (model_T S Hwf m f a rel Haf) in HT as ->; [|done]. simpl. intros o p Ho [= <-]. simpl.
    apply (presave_agg S E Hwf m f a rel Haf) in Hps as (k0 & r0 & [= <-] & Hr0 & ->). unfold getrow, tab in *. rewrite Ht in Ho. rewrite Ho in Hr0. congruence.
  - simpl. by intros ??? [= <-].
  - by intros _.
  - done.
Qed.
Lemma post_save_exactd m' k r d p : m' ∈ s_models S → post_save_created E m' k r d = Ok p → exactd d → exactd p.1.
Proof. intros Hm'. unfold post_save_created. case_match; [by apply save_existing_exactd|]. by intros [= <-]. Qed.
Lemma fresh_key_none (t : table) : t !! fresh_key t = None.
Proof.
  destruct (t !! fresh_key t) as [r|] eqn:Hr; [|done]. exfalso. unfold fresh_key in Hr at 1.
  apply elem_of_map_to_list in Hr. pose proof (elem_of_list_fmap_1 fst _ _ Hr) as Hin. simpl in Hin. revert Hin.
  assert (Hmax : ∀ ks x, x ∈ ks → x ≤ foldr Z.max 0 ks).
  { induction ks as [|y ks IH]; intros x Hx; [by apply elem_of_nil in Hx|]. simpl. apply elem_of_cons in Hx as [->|Hx]; [lia|]. specialize (IH _ Hx). lia. }
  intros Hin. apply Hmax in Hin. lia.
Qed.
Lemma save_exactd m' pk r d p : m' ∈ s_models S → (pk = None → m' = m → ∀ k, getrow d T k = None → recount a R d k = 0) →
  save E m' pk r d = Ok p → exactd d → exactd p.1.1.
Proof.
  intros Hm' Hfree H. unfold save in H.
  assert (Hins : ∀ k r d q d2 s, (m' = m → recount a R d k = 0) → presave_all E m' true pk d r = Ok q →
    exec E (m_table m') [CIns k q.2] q.1 = Ok d2 → post_save_created E m' k q.2 d2 = Ok s → exactd d → exactd s.1).
  { intros k0 r0 d3 q d2 s Hz Hq Hx Hs Hex. pose proof Hq as Hps. apply presave_all_db in Hq as [Ht _].
    eapply post_save_exactd; [done|exact Hs|]. eapply (exec1_exactd (λ k, m' = m ∧ k = k0)); [| | | |exact Hx|by eapply exactd_tabs].
    - intros HT. apply (model_T S Hwf m f a rel Haf) in HT as ->; [|done]. by apply (presave_agg S E Hwf m f a rel Haf) in Hps.
    - done.
    - intros HT. simpl. split; [|done]. by eapply (model_T S Hwf m f a rel Haf).
    - intros k [-> ->]. rewrite (recount_tabs _ _ d3) by done. by apply Hz. }
  intros Hex. destruct pk as [k'|].
  - destruct (getrow d (m_table m') k') eqn:Hg.
    + inv_bind H. injection H as <-. by eapply save_existing_exactd.
    + inv_bind H. inv_bind H. inv_bind H. inv_bind H. inv_bind H. injection H as <-. simpl.
      pose proof H0 as Hk. eapply m2m_pre_save_kept in Hk as [Hk _]; [|done..].
      eapply m2m_pre_save_exactd in H0; [|done|done]. pose proof H1 as Hps. apply presave_all_db in H1 as [Ht _].
      eapply Hins; [|exact H2|exact H3|exact H4|by eapply exactd_tabs].
      intros ->. exfalso. apply (presave_agg S E Hwf m f a rel Haf) in Hps as (k0 & r0 & [= <-] & Hr0 & _).
      specialize (Hk _ Hm' k'). rewrite Hg, Hr0 in Hk. done.
  - inv_bind H. inv_bind H. inv_bind H. injection H as <-. simpl.
    eapply Hins; [|exact H0|exact H1|exact H2|done]. intros ->. apply Hfree; [done..|].
    apply presave_all_db in H0 as [Ht _]. pose proof (fresh_key_none (tab a0.1 T)) as Hn. unfold getrow. unfold tab at 2 in Hn. by rewrite Ht in Hn.
Qed.

(** ** Operations, flush, rebuild *)
Lemma run_op_exactd o d d' : clean_op m f o → first_ok m a rel d o → run_op E S o d = Ok d' → exactd d → exactd d'.
Proof.
  intros Hcl Hf H. destruct o as [mn pk r|t rows|t ks g|t ks]; simpl in H.
  - destruct (find_model S mn) as [m'|] eqn:Hm'; [|done]. inv_bind H. injection H as <-.
    apply find_model_in in Hm' as [Hin Hn]. eapply save_exactd; [done| |exact H0].
    intros -> -> k Hk. apply unref_recount. by apply Hf.
  - assert (Hcs : t = T → ∀ rows1 k r rows2, rows = rows1 ++ (k, r) :: rows2 → recount a R d k = 0 ∧ (t = R → ∀ j r', (j, r') ∈ rows1 → contrib a k r' = 0)).
    { intros Ht rows1 k r rows2 Heq. destruct (Hf Ht rows1 k r rows2 Heq) as [Hu Hr]. split; [by apply unref_recount|].
      intros HtR j r' Hj. destruct (decide (contrib a k r' = 0)) as [|Hne]; [done|]. apply contrib_fk in Hne. exfalso.
      eapply Hr; [|exact Hj|exact Hne]. eapply table_inj; [exact Hwf|exact (rel_in S m f a rel Haf)|apply Haf|congruence]. }
    destruct (decide (e_be E = Postgres)) as [Hb|Hb]; unfold exec, run_stmt in H.
    + rewrite Hb in H. eapply (batch_exactd (λ k, t = T ∧ k ∈ rows.*1)); [..|exact H].
      * intros d1 ch Hch HT. apply elem_of_list_fmap in Hch as ([k r] & -> & Hin). simpl. by eapply Hcl.
      * apply Forall_forall. intros x Hx. by apply elem_of_list_fmap in Hx as (y & -> & _).
      * apply Forall_forall. intros x Hx Ht. apply elem_of_list_fmap in Hx as (y & -> & Hy). split; [done|]. apply elem_of_list_fmap. by exists y.
      * intros k [Ht Hk]. apply elem_of_list_fmap in Hk as ([k0 r] & -> & Hin). apply elem_of_list_split in Hin as (r1 & r2 & Heq).
        by destruct (Hcs Ht _ _ _ _ Heq).
    + eapply (inserts_exactd (e_depth E) t rows d); [by intros Ht k r; apply Hcl|exact Hcs|]. by destruct (e_be E).
  - eapply exec_exactd; [..|exact H].
    + intros d1 ch Hch HT. apply elem_of_list_fmap in Hch as (k & -> & Hin). simpl. intros o p _ [= <-]. simpl. by apply Hcl.
    + apply Forall_forall. intros x Hx. apply elem_of_list_fmap in Hx as (y & -> & _). simpl. by intros ??? [= <-].
    + apply Forall_forall. intros x Hx _. by apply elem_of_list_fmap in Hx as (y & -> & _).
  - eapply exec_exactd; [..|exact H].
    + intros d1 ch Hch HT. by apply elem_of_list_fmap in Hch as (k & -> & Hin).
    + apply Forall_forall. intros x Hx. by apply elem_of_list_fmap in Hx as (y & -> & _).
    + apply Forall_forall. intros x Hx _. by apply elem_of_list_fmap in Hx as (y & -> & _).
Qed.
Lemma process_exactd mk d d' : process E S mk d = Ok d' → exactd d → exactd d'.
Proof.
  unfold process, process_save. intros H Hex. inv_bind H. injection H as <-. eapply (exactd_tabs a0); [done|]. inv_bind H0.
  destruct a1 as [[[m' k] r]|]; [|by injection H0 as <-]. case_match; [|by injection H0 as <-]. inv_bind H0. injection H0 as <-.
  eapply save_existing_exactd; [|exact H2|done]. unfold content_object in H1.
  destruct (model_of_ct S mk.1) as [m2|] eqn:Hm2; [|done]. repeat case_match; try done. injection H1 as -> -> ->.
  unfold model_of_ct in Hm2. destruct (list_find _ _) as [[i m3]|] eqn:Hfind; [|done]. injection Hm2 as <-.
  apply list_find_Some in Hfind as (Hin & _). by eapply elem_of_list_lookup_2.
Qed.
Lemma flush_exactd ord n d : exactd d → exactd (flush E S ord n d).1.
Proof.
  assert (Hpass : ∀ ml d, exactd d → exactd (flush_pass E S ml d).1).
  { induction ml as [|mk ml IH]; intros d1 Hex; simpl; [done|].
    destruct (process E S mk d1) as [d2|] eqn:Hp; [|done]. apply IH. by eapply process_exactd. }
  revert d. induction n as [|n IH]; intros d Hex; simpl; [done|]. case_decide; [done|].
  pose proof (Hpass (snapshot E ord d) d Hex) as Hp. destruct (flush_pass E S (snapshot E ord d) d) as [d1 []]; simpl in *; auto.
Qed.
Lemma hist_exactd hs : ∀ d, Forall (clean_hop m f) hs → parents_first E S m a rel d hs → exactd d → exactd (foldl (hstep E S) d hs).
Proof.
  induction hs as [|h hs IH]; intros d Hcl Hpf Hex; [done|]. apply Forall_cons in Hcl as [H1 H2]. simpl. apply IH; [done|..].
  - intros hs1 o hs2 Heq. apply (Hpf (h :: hs1) o hs2). by rewrite Heq.
  - destruct h as [o|ord n|ord n mn fn]; simpl.
    + unfold step. destruct (run_op E S o d) eqn:Ho; [|done]. eapply run_op_exactd; [exact H1| |exact Ho|done].
      apply (Hpf [] o hs eq_refl).
    + by apply flush_exactd.
    + unfold rebuildall. apply flush_exactd. by eapply exactd_tabs.
Qed.
Lemma exactd_spec d : exactd d ↔ agg_exact m f a rel d.
Proof. unfold exactd, agg_exact. setoid_rewrite agg_value_recount. done. Qed.
End agg.
