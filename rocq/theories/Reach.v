(** * Which rows a write can make dirty: every marker it adds has a reason. *)
From Verif Require Import Base BaseLemmas Schema TrigSet Gen Exec Orm Spec Engine GenLemmas Marking Conditions Invariant Settle Names Silent AggDefer Sessions.

(** ** Specification *)
Section spec.
  Context (S : schema) (d d' : db).
  (** Row [k] of [m] and row [j] of [o] are related by [dp], before or after the operation.
      Marker columns hold text, so keys are compared as text. *)
  Definition related (m : model) (k : Z) (o : model) (j : Z) (dp : dep) : Prop :=
    match dep_rel dp with
    | RelForward fk => before_or_after (m_table m) d d' k (λ r, col r fk = VInt j)
    | RelBackward fk => before_or_after (m_table o) d d' j (λ r, to_text (col r fk) = Some (pretty k))
    | RelM2M t c rc => ∃ i, before_or_after t d d' i (λ r, to_text (col r c) = Some (pretty k) ∧ col r rc = VInt j)
    | RelGenForward ctc oidc => before_or_after (m_table o) d d' j (λ r, to_text (col r oidc) = Some (pretty k))
    | RelGenBackward _ _ => False
    end.
  (** Row [i] of the link table of [dp] belongs to row [k]. *)
  Definition link_of (k : Z) (t : string) (i : Z) (dp : dep) : Prop :=
    ∃ c rc, dep_rel dp = RelM2M t c rc ∧ before_or_after t d d' i (λ r, to_text (col r c) = Some (pretty k)).
  (** Rows written: those of the statement ([W]), and rows whose aggregate or cache key
      depends on a row written. *)
  Inductive reached (W : string → Z → Prop) : string → Z → Prop :=
    | rc_written t k : W t k → reached W t k
    | rc_agg m f a rel j p : m ∈ s_models S → f ∈ m_fields m → f_kind f = KAgg a → find_model S (ag_rel a) = Some rel →
        reached W (m_table rel) j → before_or_after (m_table rel) d d' j (λ r, col r (ag_fk a) = VInt p) →
        reached W (m_table m) p
    | rc_key m f ds dp o j k : m ∈ s_models S → f ∈ m_fields m → f_kind f = KCacheKey ds → dp ∈ ds →
        find_model S (dep_other dp) = Some o → reached W (m_table o) j → related m k o j dp → reached W (m_table m) k
    | rc_link m f ds dp t i k : m ∈ s_models S → f ∈ m_fields m → f_kind f = KCacheKey ds → dp ∈ ds →
        reached W t i → link_of k t i dp → reached W (m_table m) k.
  (** A reason for the marker of row [k] of [m]: the model has a computed field, and the
      row, a row it depends on or one of its links was written. *)
  Definition reason (W : string → Z → Prop) (m : model) (k : Z) : Prop := ∃ f fn ds sk,
    f ∈ m_fields m ∧ f_kind f = KCallback fn ds sk ∧
    (reached W (m_table m) k ∨
     ∃ dp, dp ∈ ds ∧ ((∃ o j, find_model S (dep_other dp) = Some o ∧ reached W (m_table o) j ∧ related m k o j dp) ∨
                      ∃ t i, reached W t i ∧ link_of k t i dp)).
End spec.

(** ** Proof *)
Section reach.
Context (b : backend) (S : schema) (rand : nat → Z) (imm : bool) (depth : nat) (E : env) (l : list trigger).
Context (Hwf : wf_schema S) (HE : mk_env b S rand imm depth = Ok E) (Hl : gen_all S = Ok l) (Hnames : names_ok b l).
Context (d d' : db) (W : string → Z → Prop).

Ltac cases_in H := repeat (apply elem_of_cons in H as [->|H]); try (by apply elem_of_nil in H).

Definition midrow (t : string) (k : Z) (r : row) : Prop :=
  ∃ r0, (getrow d t k = Some r0 ∨ getrow d' t k = Some r0) ∧ ∀ c, ¬ tw E t c → col r c = col r0 c.
Definition mid (x : db) : Prop := ∀ t k r, getrow x t k = Some r → midrow t k r.
Definition okev (e : event) : Prop :=
  reached S d d' W (ev_tab e) (ev_key e) ∧ ∀ rf r, ev_row e rf = Some r → midrow (ev_tab e) (ev_key e) r.
Definition why (x y : db) : Prop := ∀ m k, m ∈ s_models S → marker_of m k ∈ d_dirty y →
  marker_of m k ∈ d_dirty x ∨ reason S d d' W m k.
Lemma why_refl x : why x x. Proof. by left. Qed.
Lemma why_trans x y z : why x y → why y z → why x z.
Proof. intros H1 H2 m k Hm Hz. destruct (H2 m k Hm Hz) as [Hy|]; [|by right]. by apply H1. Qed.
Lemma why_eq x y : d_dirty y = d_dirty x → why x y.
Proof. intros H m k _. rewrite H. by left. Qed.

Lemma mid_skel x y : mid x → skel E x y → mid y.
Proof.
  intros Hx Hs t k r Hr. specialize (Hs t k). rewrite Hr in Hs. destruct (getrow x t k) as [r1|] eqn:H1; [|done].
  destruct (Hx _ _ _ H1) as (r0 & Hr0 & Hc). exists r0. split; [done|]. intros c Hn. rewrite <- Hc by done. symmetry. by apply Hs.
Qed.
Lemma midrow_ba2 t k r (P : row → Prop) : midrow t k r → (∀ r0, (∀ c, ¬ tw E t c → col r0 c = col r c) → P r0) →
  before_or_after t d d' k P.
Proof. intros (r0 & [H|H] & Hc) HP; [left|right]; exists r0; (split; [done|]); apply HP; intros c Hn; symmetry; by apply Hc. Qed.

Lemma sql_eq_true v w : sql_eq v w = true → v = w ∧ v ≠ VNull.
Proof. destruct v, w; simpl; try done; intros H%bool_decide_eq_true; done. Qed.
Let pkt := pk_table b S rand imm depth E l Hwf HE Hl.
Lemma cell_pk m k r : m ∈ s_models S → cell (e_pk E (m_table m)) k r (m_pk m) = VInt k.
Proof. intros Hm. unfold cell. rewrite pkt by done. by rewrite decide_True. Qed.
Lemma cell_col t k r c : c ≠ e_pk E t → cell (e_pk E t) k r c = col r c.
Proof. intros H. unfold cell. by rewrite decide_False. Qed.
Lemma ref_pk m e rf v : m ∈ s_models S → ev_tab e = m_table m → ref_val E e rf (m_pk m) = v → v ≠ VNull → v = VInt (ev_key e).
Proof.
  intros Hm Ht H Hv. unfold ref_val in H. destruct (ev_row e rf); [|congruence]. rewrite Ht, cell_pk in H by done. done.
Qed.
Lemma ref_ba e rf c (P : val → Prop) : okev e → c ≠ e_pk E (ev_tab e) → ¬ tw E (ev_tab e) c →
  ref_val E e rf c ≠ VNull → P (ref_val E e rf c) → before_or_after (ev_tab e) d d' (ev_key e) (λ r, P (col r c)).
Proof.
  intros [_ He] Hpk Htw Hnn HP. unfold ref_val in *. destruct (ev_row e rf) as [r|] eqn:Hr; [|done].
  rewrite cell_col in HP by done. eapply midrow_ba2; [by eapply He|]. intros r0 H0. by rewrite H0.
Qed.
Lemma to_text_some v s : to_text v = Some s → v ≠ VNull.
Proof. by intros H ->. Qed.
Lemma to_text_key v k : v = VInt k → to_text v = Some (pretty k).
Proof. by intros ->. Qed.
Lemma text_key j k : to_text (VInt j) = Some (pretty k) → j = k.
Proof. simpl. intros [= H]. by apply (inj pretty) in H. Qed.

Let cnt := column_not_tw b S rand imm depth E l Hwf HE Hl.
Let cnp := column_not_pk b S rand imm depth E l Hwf HE Hl.
Let lnt := link_not_tw b S rand imm depth E l Hwf HE Hl.
Let pkl := pk_link b S rand imm depth E l HE Hl.

(** The table of a trigger for a dependency. *)
Lemma mark_reason tr a x e m k : tr ∈ l → ev_tab e = t_tab tr → a ∈ t_acts tr → okev e → mid x →
  m ∈ s_models S → marker_of m k ∈ act_marks E x e a → reason S d d' W m k.
Proof.
  intros Htr Ht Ha He Hx Hm Hmk. apply (origin_spec S l Hwf Hl) in Htr. pose proof He as [Hre _].
  assert (Hcts : ∀ m', m' ∈ s_models S → m_ct m' = m_ct m → m' = m).
  { intros m' Hm' Hc. eapply NoDup_fmap_eq; [apply (wf_cts _ Hwf)|done..]. }
  destruct Htr as [m' f fn ds sk Hm' Hf Hk Hb Hi|m' f fn ds sk dp o Hm' Hf Hk Hdp Hfo Hi|m' f ds dp o Hm' Hf Hk Hdp Hfo Hi|m' f a' rel Hm' Hf Hk Hfo Hi].
  - assert (a = AMark (m_ct m') RNew (m_pk m') ∧ t_tab tr = m_table m') as [-> Htt].
    { unfold cb_self_triggers in Hi. cases_in Hi; set_solver. }
    simpl in Hmk. apply elem_of_list_singleton in Hmk as [= Hct Htx]. symmetry in Hct. apply Hcts in Hct as ->; [|done].
    exists f, fn, ds, sk. split_and!; [done..|]. left. rewrite Htt in Ht.
    pose proof (ref_pk m e RNew _ Hm Ht eq_refl (to_text_some _ _ (eq_sym Htx))) as Hr. rewrite Hr in Htx.
    symmetry in Htx. apply text_key in Htx. rewrite <- Htx, <- Ht. done.
  - destruct (find_model_in _ _ _ Hfo) as [Ho _].
    assert (Wd : wf_dep S m' dp) by (eapply (wf_deps _ Hwf); [done|exact Hf|by unfold field_deps; rewrite Hk]).
    specialize (Wd _ Hfo). unfold cb_dep_triggers in Hi. destruct (dep_rel dp) as [fk|fk|t c rc|cf oc|cf oc] eqn:Hr.
    + assert ((∃ rf, a = AMarkSel (m_ct m') (m_table m') (m_pk m') fk rf (m_pk o)) ∧ t_tab tr = m_table o) as [[rf ->] Htt].
      { cases_in Hi; set_solver. }
      simpl in Hmk. apply elem_of_list_fmap in Hmk as (v & [= Hct Htx] & Hv). symmetry in Hct. apply Hcts in Hct as ->; [|done].
      apply select_col_spec in Hv as (k1 & r1 & Hk1 & Heq & ->). rewrite cell_pk in Htx by done. symmetry in Htx. apply text_key in Htx as ->.
      rewrite Htt in Ht. apply sql_eq_true in Heq as [Heq Hnn]. rewrite cell_col in Heq, Hnn by (by apply cnp).
      rewrite Heq in Hnn. pose proof (ref_pk o e rf _ Ho Ht eq_refl Hnn) as Hrv. rewrite Hrv in Heq.
      exists f, fn, ds, sk. split_and!; [done..|]. right. exists dp. split; [done|]. left. exists o, (ev_key e). split_and!; [done|by rewrite <- Ht|].
      unfold related. rewrite Hr. eapply midrow_ba2; [by eapply Hx|]. intros r0 Hr0. rewrite Hr0; [done|by apply cnt].
    + assert (((∃ rf, a = AMarkSel (m_ct m') (m_table o) fk (m_pk o) rf (m_pk o)) ∨ a = AMark (m_ct m') ROld fk) ∧ t_tab tr = m_table o) as [Ha' Htt].
      { cases_in Hi; set_solver. }
      rewrite Htt in Ht.
      destruct Ha' as [[rf ->] | ->]; simpl in Hmk.
      * apply elem_of_list_fmap in Hmk as (v & [= Hct Htx] & Hv). symmetry in Hct. apply Hcts in Hct as ->; [|done].
        apply select_col_spec in Hv as (k1 & r1 & Hk1 & Heq & ->). rewrite cell_pk in Heq by done. rewrite cell_col in Htx by (by apply cnp).
        apply sql_eq_true in Heq as [Heq _]. symmetry in Heq. pose proof (ref_pk o e rf _ Ho Ht Heq ltac:(done)) as [= ->].
        exists f, fn, ds, sk. split_and!; [done..|]. right. exists dp. split; [done|]. left. exists o, (ev_key e). split_and!; [done|by rewrite <- Ht|].
        unfold related. rewrite Hr. eapply midrow_ba2; [by eapply Hx|]. intros r0 Hr0. rewrite Hr0; [done|by apply cnt].
      * apply elem_of_list_singleton in Hmk as [= Hct Htx]. symmetry in Hct. apply Hcts in Hct as ->; [|done].
        exists f, fn, ds, sk. split_and!; [done..|]. right. exists dp. split; [done|]. left. exists o, (ev_key e). split_and!; [done|by rewrite <- Ht|].
        unfold related. rewrite Hr, <- Ht. eapply (ref_ba e ROld fk (λ v, to_text v = Some (pretty k))); [done| | | |done]; rewrite ?Ht; [by apply cnp|by apply cnt|by eapply to_text_some].
    + destruct Wd as (Wt & Wc & Wrc). assert (Hlp := pkl _ Wt).
      assert ((t_tab tr = t ∧ ∃ rf, a = AMark (m_ct m') rf c) ∨ (t_tab tr = m_table o ∧ a = AMarkSel (m_ct m') t c rc RNew (m_pk o))) as [[Htt [rf ->]]|[Htt ->]].
      { cases_in Hi; set_solver. }
      * simpl in Hmk. apply elem_of_list_singleton in Hmk as [= Hct Htx]. symmetry in Hct. apply Hcts in Hct as ->; [|done].
        rewrite Htt in Ht. exists f, fn, ds, sk. split_and!; [done..|]. right. exists dp. split; [done|]. right. exists t, (ev_key e).
        split; [by rewrite <- Ht|]. exists c, rc. split; [done|]. rewrite <- Ht.
        eapply (ref_ba e rf c (λ v, to_text v = Some (pretty k))); [done| | | |done]; rewrite ?Ht; [by rewrite Hlp|by apply lnt|by eapply to_text_some].
      * simpl in Hmk. apply elem_of_list_fmap in Hmk as (v & [= Hct Htx] & Hv). symmetry in Hct. apply Hcts in Hct as ->; [|done].
        apply select_col_spec in Hv as (k1 & r1 & Hk1 & Heq & ->). rewrite cell_col in Htx, Heq by (by rewrite Hlp). rewrite Htt in Ht.
        apply sql_eq_true in Heq as [Heq Hnn]. rewrite Heq in Hnn. pose proof (ref_pk o e RNew _ Ho Ht eq_refl Hnn) as Hrv. rewrite Hrv in Heq.
        exists f, fn, ds, sk. split_and!; [done..|]. right. exists dp. split; [done|]. left. exists o, (ev_key e). split_and!; [done|by rewrite <- Ht|].
        unfold related. rewrite Hr. exists k1. eapply midrow_ba2; [by eapply Hx|]. intros r0 Hr0. rewrite !Hr0 by (by apply lnt). done.
    + destruct Wd as [Wc Wo].
      assert (t_tab tr = m_table o ∧ ∃ rf, a = AMark (m_ct m') rf oc) as [Htt [rf ->]].
      { cases_in Hi; set_solver. }
      simpl in Hmk. apply elem_of_list_singleton in Hmk as [= Hct Htx]. symmetry in Hct. apply Hcts in Hct as ->; [|done]. rewrite Htt in Ht.
      exists f, fn, ds, sk. split_and!; [done..|]. right. exists dp. split; [done|]. left. exists o, (ev_key e). split_and!; [done|by rewrite <- Ht|].
      unfold related. rewrite Hr, <- Ht. eapply (ref_ba e rf oc (λ v, to_text v = Some (pretty k))); [done| | | |done]; rewrite ?Ht; [by apply cnp|by apply cnt|by eapply to_text_some].
    + assert (t_tab tr = m_table m' ∧ ∃ rf, a = AMark (m_ct m') rf (m_pk m')) as [Htt [rf ->]].
      { cases_in Hi; set_solver. }
      simpl in Hmk. apply elem_of_list_singleton in Hmk as [= Hct Htx]. symmetry in Hct. apply Hcts in Hct as ->; [|done]. rewrite Htt in Ht.
      exists f, fn, ds, sk. split_and!; [done..|]. left.
      pose proof (ref_pk m e rf _ Hm Ht eq_refl (to_text_some _ _ (eq_sym Htx))) as Hrv. rewrite Hrv in Htx.
      symmetry in Htx. apply text_key in Htx. rewrite <- Htx, <- Ht. done.
  - exfalso. unfold ck_dep_triggers in Hi. destruct (dep_rel dp); cases_in Hi; simpl in Ha; cases_in Ha; simpl in Hmk; by apply elem_of_nil in Hmk.
  - exfalso. unfold agg_triggers in Hi. cases_in Hi; simpl in Ha; cases_in Ha; simpl in Hmk; by apply elem_of_nil in Hmk.
Qed.

Lemma upd_reached tr t c ex w x e k r : tr ∈ l → ev_tab e = t_tab tr → AUpd t c ex w ∈ t_acts tr → okev e → mid x →
  getrow x t k = Some r → where_holds E x e t k r w = true → reached S d d' W t k.
Proof.
  intros Htr Ht Ha He Hx Hrow Hw. apply (origin_spec S l Hwf Hl) in Htr. pose proof He as [Hre _].
  destruct Htr as [m f fn ds sk Hm Hf Hk Hb Hi|m f fn ds sk dp o Hm Hf Hk Hdp Hfo Hi|m f ds dp o Hm Hf Hk Hdp Hfo Hi|m f a' rel Hm Hf Hk Hfo Hi].
  - exfalso. unfold cb_self_triggers in Hi. cases_in Hi; simpl in Ha; set_solver.
  - exfalso. unfold cb_dep_triggers in Hi. destruct (dep_rel dp); cases_in Hi; simpl in Ha; set_solver.
  - destruct (find_model_in _ _ _ Hfo) as [Ho _].
    assert (Wd : wf_dep S m dp) by (eapply (wf_deps _ Hwf); [done|exact Hf|by unfold field_deps; rewrite Hk]).
    specialize (Wd _ Hfo). unfold ck_dep_triggers in Hi. destruct (dep_rel dp) as [fk|fk|lt lc rc|cf oc|cf oc] eqn:Hr.
    + assert (t = m_table m ∧ (∃ rf, w = WEq fk rf (m_pk o) [] []) ∧ t_tab tr = m_table o) as (-> & [rf ->] & Htt).
      { cases_in Hi; set_solver. }
      rewrite Htt in Ht. simpl in Hw. apply andb_true_iff in Hw as [Heq _]. apply sql_eq_true in Heq as [Heq Hnn].
      rewrite cell_col in Heq, Hnn by (by apply cnp). rewrite Heq in Hnn. pose proof (ref_pk o e rf _ Ho Ht eq_refl Hnn) as Hrv. rewrite Hrv in Heq.
      eapply (rc_key _ _ _ _ m f ds dp o (ev_key e)); [done..|by rewrite <- Ht|].
      unfold related. rewrite Hr. eapply midrow_ba2; [by eapply Hx|]. intros r0 Hr0. rewrite Hr0; [done|by apply cnt].
    + assert (t = m_table m ∧ (∃ rf, w = WEq (m_pk m) rf fk [] []) ∧ t_tab tr = m_table o) as (-> & [rf ->] & Htt).
      { cases_in Hi; set_solver. }
      rewrite Htt in Ht. simpl in Hw. apply andb_true_iff in Hw as [Heq _]. apply sql_eq_true in Heq as [Heq _].
      rewrite cell_pk in Heq by done. symmetry in Heq.
      eapply (rc_key _ _ _ _ m f ds dp o (ev_key e)); [done..|by rewrite <- Ht|].
      unfold related. rewrite Hr, <- Ht. eapply (ref_ba e rf fk (λ v, to_text v = Some (pretty k))); [done|..]; rewrite ?Ht, ?Heq; [by apply cnp|by apply cnt|done|done].
    + destruct Wd as (Wt & Wc & Wrc). assert (Hlp := pkl _ Wt).
      assert (t = m_table m ∧ ((t_tab tr = lt ∧ ∃ rf, w = WEq (m_pk m) rf lc [] []) ∨ (t_tab tr = m_table o ∧ w = WIn (m_pk m) lt lc rc RNew (m_pk o)))) as (-> & [[Htt [rf ->]]|[Htt ->]]).
      { cases_in Hi; set_solver. }
      * rewrite Htt in Ht. simpl in Hw. apply andb_true_iff in Hw as [Heq _]. apply sql_eq_true in Heq as [Heq _].
        rewrite cell_pk in Heq by done. symmetry in Heq.
        eapply (rc_link _ _ _ _ m f ds dp lt (ev_key e)); [done..|by rewrite <- Ht|]. exists lc, rc. split; [done|]. rewrite <- Ht.
        eapply (ref_ba e rf lc (λ v, to_text v = Some (pretty k))); [done|..]; rewrite ?Ht, ?Heq; [by rewrite Hlp|by apply lnt|done|done].
      * rewrite Htt in Ht. cbn [where_holds] in Hw. apply existsb_exists in Hw as (v & Hv%elem_of_list_In & Heq). rewrite cell_pk in Heq by done.
        apply sql_eq_true in Heq as [<- _]. apply select_col_spec in Hv as (k1 & r1 & Hk1 & Heq & Hv). rewrite cell_col in Hv, Heq by (by rewrite Hlp).
        apply sql_eq_true in Heq as [Heq Hnn]. rewrite Heq in Hnn. pose proof (ref_pk o e RNew _ Ho Ht eq_refl Hnn) as Hrv. rewrite Hrv in Heq.
        eapply (rc_key _ _ _ _ m f ds dp o (ev_key e)); [done..|by rewrite <- Ht|].
        unfold related. rewrite Hr. exists k1. eapply midrow_ba2; [by eapply Hx|]. intros r0 Hr0. rewrite !Hr0 by (by apply lnt). by rewrite <- Hv.
    + destruct Wd as [Wc Wo].
      assert (t = m_table m ∧ (∃ rf, w = WEq (m_pk m) rf oc [] []) ∧ t_tab tr = m_table o) as (-> & [rf ->] & Htt).
      { cases_in Hi; set_solver. }
      rewrite Htt in Ht. simpl in Hw. apply andb_true_iff in Hw as [Heq _]. apply sql_eq_true in Heq as [Heq _].
      rewrite cell_pk in Heq by done. symmetry in Heq.
      eapply (rc_key _ _ _ _ m f ds dp o (ev_key e)); [done..|by rewrite <- Ht|].
      unfold related. rewrite Hr, <- Ht. eapply (ref_ba e rf oc (λ v, to_text v = Some (pretty k))); [done|..]; rewrite ?Ht, ?Heq; [by apply cnp|by apply cnt|done|done].
    + assert (t = m_table m ∧ (∃ rf, w = WEq (m_pk m) rf (m_pk m) [] []) ∧ t_tab tr = m_table m) as (-> & [rf ->] & Htt).
      { cases_in Hi; set_solver. }
      rewrite Htt in Ht. simpl in Hw. apply andb_true_iff in Hw as [Heq _]. apply sql_eq_true in Heq as [Heq _].
      rewrite cell_pk in Heq by done. symmetry in Heq. pose proof (ref_pk m e rf _ Hm Ht Heq ltac:(done)) as [= ->]. by rewrite <- Ht.
  - destruct (find_model_in _ _ _ Hfo) as [Ho _]. pose proof (wf_aggs _ Hwf _ _ _ _ Hm Hf Hk Hfo) as Hfk.
    assert (t = m_table m ∧ (∃ rf, w = WEq (m_pk m) rf (ag_fk a') (ag_filter a') (ag_exclude a')) ∧ t_tab tr = m_table rel) as (-> & [rf ->] & Htt).
    { unfold agg_triggers in Hi. cases_in Hi; set_solver. }
    rewrite Htt in Ht. cbn [where_holds] in Hw. apply andb_true_iff in Hw as [Heq _]. apply sql_eq_true in Heq as [Heq _].
    rewrite cell_pk in Heq by done. symmetry in Heq.
    eapply (rc_agg _ _ _ _ m f a' rel (ev_key e)); [done..|by rewrite <- Ht|]. rewrite <- Ht.
    eapply (ref_ba e rf (ag_fk a') (λ v, v = VInt k)); [done|..]; rewrite ?Ht, ?Heq; [by apply cnp|by apply cnt|done|done].
Qed.

(** An action of an installed trigger belongs to a generated trigger on the same table. *)
Lemma act_origin it a : it ∈ e_trigs E → a ∈ i_acts it → ∃ tr, tr ∈ l ∧ t_tab tr = i_tab it ∧ a ∈ t_acts tr.
Proof.
  intros Hit Ha. destruct (io_sound _ _ _ (E_inst b S rand imm depth E l HE Hl) _ Hit) as (tr1 & Htr1 & _ & Ht1 & _ & _ & _ & Hacts).
  destruct (Hacts _ Ha) as (tr2 & Htr2 & Hn & Ha2). destruct (Hnames _ _ Htr2 Htr1 Hn) as (Hnt & _). exists tr2. split_and!; [done|congruence|done].
Qed.

(** ** Statements inside triggers *)
Definition nested (t : string) (ch : change) : Prop := ∃ c k g, ch = CUpd k g ∧ tw E t c ∧ reached S d d' W t k ∧
  ∀ x o p, g x o = Ok p → d_dirty p.2 = d_dirty x ∧ d_tabs p.2 = d_tabs x ∧ ∃ v, p.1 = <[c := v]> o.
Lemma nested_apply t x ch y evs : nested t ch → mid x → apply_change E t x ch = Ok (y, evs) →
  mid y ∧ d_dirty y = d_dirty x ∧ ∀ e, e ∈ evs → okev e.
Proof.
  intros (c & k & g & -> & Htw & Hre & Hg) Hx H. simpl in H. destruct (getrow x t k) as [o|] eqn:Ho.
  - inv_bind H. case_match; [|done]. injection H as <- <-. destruct a as [r' x']. destruct (Hg _ _ _ H0) as (Hd & Ht & v & Hv). simpl in *. subst r'.
    pose proof (Hx _ _ _ Ho) as Hmo.
    assert (Hmn : midrow t k (<[c := v]> o)).
    { destruct Hmo as (r0 & Hr0 & Hc). exists r0. split; [done|]. intros c' Hn. rewrite <- Hc by done. unfold col.
      rewrite lookup_insert_ne; [done|]. by intros ->. }
    split_and!; [|exact Hd|].
    + intros t' k' r. rewrite getrow_put. case_decide as Hk; [|unfold getrow, tab; rewrite Ht; apply Hx].
      destruct Hk as [-> ->]. by intros [= <-].
    + intros e ->%elem_of_list_singleton. split; [done|]. simpl. intros [] r [= <-]; done.
  - injection H as <- <-. split_and!; [done|done|]. by intros e ?%elem_of_nil.
Qed.
Lemma nested_apply_all t cs : Forall (nested t) cs → ∀ x y evs, mid x → apply_all E t cs x = Ok (y, evs) →
  mid y ∧ d_dirty y = d_dirty x ∧ ∀ e, e ∈ evs → okev e.
Proof.
  induction 1 as [|c cs Hc Hcs IH]; intros x y evs Hx H.
  - injection H as <- <-. split_and!; [done|done|]. by intros e ?%elem_of_nil.
  - rewrite apply_all_cons in H. inv_bind H. destruct a as [x1 e1]. simpl in H. inv_bind H. destruct a as [x2 e2]. injection H as <- <-. simpl in *.
    destruct (nested_apply _ _ _ _ _ Hc Hx H0) as (M1 & D1 & O1). destruct (IH _ _ _ M1 H1) as (M2 & D2 & O2).
    split_and!; [done|congruence|]. intros e [?|?]%elem_of_app; auto.
Qed.
Definition good (fr : db → event → res db) : Prop := ∀ x e y, mid x → okev e → fr x e = Ok y → mid y ∧ why x y.
Lemma fold_good fr evs : good fr → (∀ e, e ∈ evs → okev e) → ∀ x y, mid x → foldM fr x evs = Ok y → mid y ∧ why x y.
Proof.
  intros Hg. induction evs as [|e evs IH]; intros He x y Hx H.
  - injection H as <-. split; [done|apply why_refl].
  - rewrite foldM_cons in H. inv_bind H. destruct (Hg _ _ _ Hx (He _ ltac:(left)) H0) as [M1 Y1].
    destruct (IH ltac:(intros; apply He; by right) _ _ M1 H) as [M2 Y2]. split; [done|by eapply why_trans].
Qed.
Lemma batch_good fr t cs x y : good fr → Forall (nested t) cs → mid x → run_batch E fr t cs x = Ok y → mid y ∧ why x y.
Proof.
  intros Hg Hcs Hx H. unfold run_batch in H. inv_bind H. destruct a as [x1 evs]. simpl in H.
  destruct (nested_apply_all _ _ Hcs _ _ _ Hx H0) as (M1 & D1 & O1). destruct (fold_good _ _ Hg O1 _ _ M1 H) as [M2 Y2].
  split; [done|]. eapply why_trans; [by apply why_eq|done].
Qed.
Lemma stmt_good fr t cs x y : good fr → Forall (nested t) cs → mid x → run_stmt E fr t cs x = Ok y → mid y ∧ why x y.
Proof.
  intros Hg Hcs Hx H. unfold run_stmt in H.
  assert (Hs : foldM (λ x c, run_batch E fr t [c] x) x cs = Ok y → mid y ∧ why x y).
  { clear H. revert x Hx. induction Hcs as [|c cs Hc Hcs IH]; intros x Hx H.
    - injection H as <-. split; [done|apply why_refl].
    - rewrite foldM_cons in H. inv_bind H. destruct (batch_good _ _ [c] _ _ Hg ltac:(by constructor) Hx H0) as [M1 Y1].
      destruct (IH _ M1 H) as [M2 Y2]. split; [done|by eapply why_trans]. }
  destruct (e_be E); [by apply Hs|by eapply batch_good|by apply Hs].
Qed.
Lemma fire_good n : ∀ act, good (fire E n act).
Proof.
  induction n as [|n IH]; intros act x e y Hx He H; [done|]. simpl in H.
  assert (Ht : ∀ its x, (∀ it, it ∈ its → it ∈ e_trigs E) → mid x → foldM (λ d tr, if trig_applies E act e tr
        then foldM (run_action E (fire E n ((i_name tr, i_tab tr) :: act)) ((i_name tr, i_tab tr) :: act) e) d (i_acts tr)
        else Ok d) x its = Ok y → mid y ∧ why x y).
  2: { by eapply (Ht (e_trigs E)). }
  clear x Hx H. intros its. induction its as [|it its IH2]; intros x Hits Hx H.
  { injection H as <-. split; [done|apply why_refl]. }
  rewrite foldM_cons in H. inv_bind H. cut (mid a ∧ why x a).
  { intros [M1 Y1]. destruct (IH2 _ ltac:(intros; apply Hits; by right) M1 H) as [M2 Y2]. split; [done|by eapply why_trans]. }
  clear IH2 H. destruct (trig_applies E act e it) eqn:Hap; [|injection H0 as <-; split; [done|apply why_refl]].
  assert (Hit : it ∈ e_trigs E) by (apply Hits; left). unfold trig_applies in Hap. rewrite !andb_true_iff, !bool_decide_eq_true in Hap. destruct Hap as [[[Htab _] _] _].
  remember ((i_name it, i_tab it) :: act) as act' eqn:Hact.
  assert (Hacts : ∀ acts x, (∀ a, a ∈ acts → a ∈ i_acts it) → mid x → foldM (run_action E (fire E n act') act' e) x acts = Ok a → mid a ∧ why x a).
  2: { by eapply (Hacts (i_acts it)). }
  clear x Hx H0. intros acts. induction acts as [|ac acts IH3]; intros x Hin Hx H.
  { injection H as <-. split; [done|apply why_refl]. }
  rewrite foldM_cons in H. inv_bind H. cut (mid a0 ∧ why x a0).
  { intros [M1 Y1]. destruct (IH3 _ ltac:(intros; apply Hin; by right) M1 H) as [M2 Y2]. split; [done|by eapply why_trans]. }
  clear IH3 H. assert (Hac : ac ∈ i_acts it) by (apply Hin; left). destruct (act_origin it ac Hit Hac) as (tr & Htr & Htt & Hatr).
  assert (Hte : ev_tab e = t_tab tr) by congruence.
  assert (Hmark : ∀ ms, a0 = mark x ms → ms = act_marks E x e ac → mid a0 ∧ why x a0).
  { intros ms -> ->. split; [intros t k r; rewrite getrow_mark; apply Hx|]. intros m k Hm Hmk. simpl in Hmk.
    apply elem_of_app in Hmk as [?|Hmk]; [by left|right]. by eapply mark_reason. }
  destruct ac as [ct rf c|ct t sc wc rf rc|t c ex w]; simpl in H0.
  - injection H0 as <-. by eapply Hmark.
  - injection H0 as <-. by eapply Hmark.
  - case_decide; [done|]. eapply stmt_good; [apply IH| |exact Hx|exact H0]. apply Forall_forall. intros ch Hch.
    apply elem_of_list_fmap in Hch as ([k r] & -> & [Hw Hkr]%elem_of_list_filter). apply elem_of_map_to_list in Hkr. simpl in *.
    eexists c, k, _. split; [done|]. split; [by exists it, ex, w|]. split; [by eapply upd_reached|].
    intros x0 o p Hp. inv_bind Hp. injection Hp as <-. destruct a1 as [v x1]; simpl in *.
    apply expr_val_db in Hp0 as [-> | ->]; eauto.
Qed.

(** ** The statement itself *)
Definition alike (x y : db) (t : string) (k : Z) : Prop :=
  match getrow x t k, getrow y t k with
  | None, None => True
  | Some r, Some r' => ∀ c, ¬ tw E t c → col r c = col r' c
  | _, _ => False
  end.
Lemma alike_trans x y z t k : alike x y t k → alike y z t k → alike x z t k.
Proof.
  unfold alike. destruct (getrow x t k), (getrow y t k), (getrow z t k); try done. intros H1 H2 c Hc. rewrite H1 by done. by apply H2.
Qed.
Lemma alike_eq x y t k : getrow y t k = getrow x t k → alike x y t k.
Proof. unfold alike. intros ->. by destruct (getrow x t k). Qed.
Let fr := fire E (e_depth E) [].
Lemma fires_alike evs x y t k : foldM fr x evs = Ok y → alike x y t k.
Proof.
  intros H. assert (Hs : skel E x y).
  { eapply (foldM_rel (skel E)); [apply skel_refl|apply skel_trans| |exact H]. intros a e a' _ Ha. by eapply fire_skel. }
  apply Hs.
Qed.
Lemma rest_alike t cs : Forall ch_quiet cs → ∀ x y, foldM (λ x c, run_batch E fr t [c] x) x cs = Ok y →
  ∀ t' k, t' ≠ t ∨ k ∉ ch_key <$> cs → alike x y t' k.
Proof.
  induction 1 as [|c cs Hc Hcs IH]; intros x y H t' k Hk.
  - injection H as <-. by apply alike_eq.
  - rewrite foldM_cons in H. inv_bind H. eapply alike_trans; [|eapply (IH _ _ H)].
    + unfold run_batch in H0. inv_bind H0. destruct a0 as [x1 evs]. simpl in H0.
      eapply alike_trans; [|by eapply fires_alike]. apply alike_eq.
      destruct (apply_all_applied E t [c] x x1 evs ltac:(by constructor) (NoDup_singleton _) H1) as (Ap & Hkeys & _).
      destruct (decide (t' = t)) as [->|Ht]; [|by eapply ap_other]. eapply ap_none; [done|]. intros e He Hek.
      apply Hkeys in He. rewrite Hek in He. destruct Hk as [?|Hk]; [done|]. apply Hk. csimpl in *. apply elem_of_list_singleton in He. rewrite He. left.
    + destruct Hk as [?|Hk]; [by left|right]. intros Hin. apply Hk. csimpl. by right.
Qed.
Lemma applied_okev t x y evs : mid x → mid y → applied t x y evs → (∀ e, e ∈ evs → W t (ev_key e)) → ∀ e, e ∈ evs → okev e.
Proof.
  intros Hx Hy Ap HW e He. pose proof (ap_tab _ _ _ _ Ap _ He) as Ht. destruct (ap_ev _ _ _ _ Ap _ He) as [Ho Hn]. split.
  - rewrite Ht. apply rc_written. by apply HW.
  - rewrite Ht. intros [] r Hr; [eapply Hy; by rewrite Hn|eapply Hx; by rewrite Ho].
Qed.
Lemma mid_applied t x x1 evs : mid x → applied t x x1 evs → (∀ e, e ∈ evs → alike x1 d' t (ev_key e)) → mid x1.
Proof.
  intros Hx Ap Ha t' k r Hr. destruct (decide (t' = t)) as [->|Ht]; [|rewrite (ap_other _ _ _ _ Ap) in Hr by done; by apply Hx].
  destruct (decide (k ∈ ev_key <$> evs)) as [Hk|Hk].
  - apply elem_of_list_fmap in Hk as (e & -> & He). specialize (Ha _ He). unfold alike in Ha. rewrite Hr in Ha.
    destruct (getrow d' t (ev_key e)) as [r0|] eqn:H0; [|done]. exists r0. split; [by right|done].
  - rewrite (ap_none _ _ _ _ Ap) in Hr; [by apply Hx|]. intros e He <-. apply Hk. by apply elem_of_list_fmap_1.
Qed.
Lemma rows_why t cs : Forall ch_quiet cs → NoDup (ch_key <$> cs) → (∀ c, c ∈ cs → W t (ch_key c)) →
  ∀ x, mid x → foldM (λ x c, run_batch E fr t [c] x) x cs = Ok d' → why x d'.
Proof.
  induction 1 as [|c cs Hc Hcs IH]; intros Hnd HW x Hx H.
  - injection H as ->. apply why_refl.
  - rewrite fmap_cons in Hnd. apply NoDup_cons in Hnd as [Hnc Hnd]. rewrite foldM_cons in H. inv_bind H.
    unfold run_batch in H0. inv_bind H0. destruct a0 as [x1 evs]. simpl in H0.
    destruct (apply_all_applied E t [c] x x1 evs ltac:(by constructor) (NoDup_singleton _) H1) as (Ap & Hkeys & Hd).
    assert (Hk : ∀ e, e ∈ evs → ev_key e = ch_key c) by (intros e He; by apply elem_of_list_singleton, Hkeys).
    assert (M1 : mid x1).
    { eapply mid_applied; [exact Hx|exact Ap|]. intros e He. rewrite (Hk _ He). eapply alike_trans; [by eapply fires_alike|].
      eapply rest_alike; [exact Hcs|exact H|by right]. }
    destruct (fold_good fr evs (fire_good _ _)) with (x := x1) (y := a) as [M2 Y2]; [|done|done|].
    { eapply applied_okev; [exact Hx|exact M1|exact Ap|]. intros e He. rewrite (Hk _ He). apply HW. left. }
    eapply why_trans; [by apply why_eq|]. eapply why_trans; [exact Y2|]. eapply IH; [done| |done|done]. intros c' Hc'. apply HW. by right.
Qed.
Lemma exec_why t cs x : d_tabs x = d_tabs d → Forall ch_quiet cs → NoDup (ch_key <$> cs) → (∀ c, c ∈ cs → W t (ch_key c)) →
  exec E t cs x = Ok d' → why x d'.
Proof.
  intros Htabs Hq Hnd HW H.
  assert (Hd : mid x) by (intros t' k r Hr; exists r; split; [left; unfold getrow, tab in *; by rewrite <- Htabs|done]).
  assert (Hs : foldM (λ x c, run_batch E fr t [c] x) x cs = Ok d' → why x d') by (by apply rows_why).
  unfold exec, run_stmt in H. fold fr in H. destruct (e_be E); [by apply Hs| |by apply Hs].
  unfold run_batch in H. inv_bind H. destruct a as [x1 evs]. simpl in H.
  destruct (apply_all_applied E t cs x x1 evs Hq Hnd H0) as (Ap & Hkeys & Hdd).
  assert (M1 : mid x1).
  { eapply mid_applied; [exact Hd|exact Ap|]. intros e He. by eapply fires_alike. }
  destruct (fold_good fr evs (fire_good _ _)) with (x := x1) (y := d') as [M2 Y2]; [|done|done|].
  { eapply applied_okev; [exact Hd|exact M1|exact Ap|]. intros e He. apply Hkeys in He. apply elem_of_list_fmap in He as (c & -> & Hc). by apply HW. }
  eapply why_trans; [by apply why_eq|done].
Qed.
End reach.

(** ** Operations *)
(** The rows an operation writes itself. *)
Definition writes (S : schema) (o : op) (d d' : db) (t : string) (k : Z) : Prop :=
  match o with
  | OSave mn pk _ => ∃ m, find_model S mn = Some m ∧ t = m_table m ∧
      match pk with Some k' => k = k' | None => getrow d t k = None ∧ is_Some (getrow d' t k) end
  | _ => is_statement o t ∧ k ∈ stmt_keys o
  end.
Lemma pre_save_none E m pk r d d' : (∀ mm, mm ∈ m_m2m m → mm_denorm mm = None) → m2m_pre_save E m pk r d = Ok d' → d' = d.
Proof.
  intros Hn. unfold m2m_pre_save. destruct pk as [k|]; [|by intros [= <-]]. case_decide; [by intros [= <-]|]. intros H1. symmetry.
  eapply (foldM_rel (λ x y, x = y)); [done|by intros ??? -> ->| |exact H1]. intros a mm a' Hmm Ha. simpl in Ha. rewrite (Hn _ Hmm) in Ha. congruence.
Qed.
Lemma no_denorm_false m : (∀ mm, mm ∈ m_m2m m → mm_denorm mm = None) → has_m2m_denorm m = false.
Proof.
  intros Hn. unfold has_m2m_denorm. apply not_true_is_false. intros (mm & Hmm%elem_of_list_In & H)%existsb_exists. by rewrite (Hn _ Hmm) in H.
Qed.
Lemma ins_there E t k r x y : exec E t [CIns k r] x = Ok y → is_Some (getrow y t k).
Proof.
  intros H. assert (Hb : run_batch E (fire E (e_depth E) []) t [CIns k r] x = Ok y).
  { unfold exec, run_stmt in H. destruct (e_be E); [|done|]; rewrite foldM_cons in H; inv_bind H; rewrite H0; simpl in H; congruence. }
  unfold run_batch in Hb. inv_bind Hb. destruct a as [x1 evs]. simpl in Hb.
  assert (Hr : is_Some (getrow x1 t k)).
  { rewrite apply_all_cons in Hb0. inv_bind Hb0. destruct a as [x2 e2]. simpl in Hb0. injection Hb0 as <- _. simpl in Hb1.
    case_match; [done|]. case_match; [|done]. injection Hb1 as <- _. rewrite getrow_put, decide_True by done. by eexists. }
  pose proof (fires_alike E evs x1 y t k Hb) as Ha. unfold alike in Ha. destruct Hr as [r1 Hr]. rewrite Hr in Ha.
  destruct (getrow y t k); [by eexists|done].
Qed.
Lemma only_reasons b S rand imm depth E o d d' m k :
  wf_schema S → names_apart S → no_m2m_denorm S → mk_env b S rand imm depth = Ok E → run_op E S o d = Ok d' →
  m ∈ s_models S → marker_of m k ∈ d_dirty d' → marker_of m k ∈ d_dirty d ∨ reason S d d' (writes S o d d') m k.
Proof.
  intros Hwf Hna Hnm HE Ho Hm Hin. destruct (mk_env_gen _ _ _ _ _ _ HE) as [l Hl].
  pose proof (names_apart_ok' b S l Hwf Hl Hna) as Hn.
  assert (Hex : ∀ t cs x, d_tabs x = d_tabs d → d_dirty x = d_dirty d → Forall ch_quiet cs → NoDup (ch_key <$> cs) →
    (∀ c, c ∈ cs → writes S o d d' t (ch_key c)) → exec E t cs x = Ok d' → marker_of m k ∈ d_dirty d ∨ reason S d d' (writes S o d d') m k).
  { intros t cs x Ht Hd Hq Hnd HW Hx. rewrite <- Hd. eapply (exec_why b S rand imm depth E l Hwf HE Hl Hn d d'); eauto. }
  destruct o as [mn pk r|t rows|t ks g|t ks]; simpl in Ho.
  - destruct (find_model S mn) as [m'|] eqn:Hfm; [|done]. destruct (find_model_in _ _ _ Hfm) as [Hm' _].
    inv_bind Ho. injection Ho as <-. pose proof (Hnm m') as Hnm'. assert (Hz : ∀ mm, mm ∈ m_m2m m' → mm_denorm mm = None) by (intros; by eapply Hnm').
    assert (Hins : ∀ k0 r0 x q y s, (match pk with Some k' => k0 = k' | None => getrow d (m_table m') k0 = None end) →
      d_tabs x = d_tabs d → d_dirty x = d_dirty d → exec E (m_table m') [CIns k0 r0] x = Ok y → post_save_created E m' k0 q y = Ok s → s.1 = a.1.1 →
      marker_of m k ∈ d_dirty d ∨ reason S d a.1.1 (writes S (OSave mn pk r) d a.1.1) m k).
    { intros k0 r0 x q y s Hk0 Ht Hd Hx Hs Hsa. unfold post_save_created in Hs. rewrite no_denorm_false in Hs by done. injection Hs as <-. simpl in Hsa. subst y.
      eapply (Hex _ [CIns k0 r0] x); [exact Ht|exact Hd|by repeat constructor|apply NoDup_singleton| |exact Hx]. intros c ->%elem_of_list_singleton. simpl.
      exists m'. split_and!; [done|done|]. destruct pk; [done|]. split; [done|]. by eapply ins_there. }
    unfold save in Ho0. destruct pk as [k0|].
    + destruct (getrow d (m_table m') k0) as [r0|] eqn:Hr0.
      * inv_bind Ho0. injection Ho0 as <-. unfold save_existing in Ho1. inv_bind Ho1. apply pre_save_none in Ho0 as ->; [|done]. inv_bind Ho1.
        inv_bind Ho1. injection Ho1 as <-. simpl in *. destruct (presave_all_db _ _ _ _ _ _ _ Ho0) as [Ht Hd].
        eapply (Hex _ [upd_all k0 _]); [exact Ht|exact Hd| |apply NoDup_singleton| |exact Ho2].
        -- constructor; [|done]. by intros ??? [= <-].
        -- intros c ->%elem_of_list_singleton. simpl. by exists m'.
      * inv_bind Ho0. apply pre_save_none in Ho1 as ->; [|done]. inv_bind Ho0. inv_bind Ho0. inv_bind Ho0. inv_bind Ho0. injection Ho0 as <-.
        destruct (presave_all_db _ _ _ _ _ _ _ Ho1) as [Ht1 Hd1]. destruct (presave_all_db _ _ _ _ _ _ _ Ho2) as [Ht2 Hd2].
        eapply Hins; [|  | |exact Ho3|exact Ho4|done]; [done|congruence|congruence].
    + inv_bind Ho0. inv_bind Ho0. inv_bind Ho0. injection Ho0 as <-. destruct (presave_all_db _ _ _ _ _ _ _ Ho1) as [Ht1 Hd1].
      eapply Hins; [| | |exact Ho2|exact Ho3|done]; [|congruence|congruence].
      unfold getrow, tab. rewrite <- Ht1. apply fresh_key_none.
  - destruct (exec_ins_nodup E t rows d d' Ho) as [Hnd _].
    assert (Hk : ch_key <$> ((λ p : Z * row, CIns p.1 p.2) <$> rows) = rows.*1) by (rewrite <- list_fmap_compose; by apply list_fmap_ext).
    eapply (Hex _ _ d); [done|done| |rewrite Hk; exact Hnd| |exact Ho].
    + by apply Forall_fmap, Forall_forall.
    + intros c Hc. split; [done|]. simpl. rewrite <- Hk. by apply elem_of_list_fmap_1.
  - assert (Hk : ch_key <$> ((λ k, CUpd k (λ d o, Ok (g o, d))) <$> remove_dups ks) = remove_dups ks) by (rewrite <- list_fmap_compose; by apply list_fmap_id).
    eapply Hex; [done|done| |rewrite Hk; apply NoDup_remove_dups| |exact Ho].
    + apply Forall_fmap, Forall_forall. intros k0 _. by intros ??? [= <-].
    + intros c Hc. split; [done|]. simpl. apply elem_of_remove_dups. rewrite <- Hk. by apply elem_of_list_fmap_1.
  - assert (Hk : ch_key <$> (CDel <$> remove_dups ks) = remove_dups ks) by (rewrite <- list_fmap_compose; by apply list_fmap_id).
    eapply Hex; [done|done| |rewrite Hk; apply NoDup_remove_dups| |exact Ho].
    + by apply Forall_fmap, Forall_forall.
    + intros c Hc. split; [done|]. simpl. apply elem_of_remove_dups. rewrite <- Hk. by apply elem_of_list_fmap_1.
Qed.

(** ** Statements on a table that feeds no aggregate and no cache key *)
Lemma reached_only S l d d' (W : string → Z → Prop) t0 : wf_schema S → gen_all S = Ok l → (∀ t k, W t k → t = t0) → (∀ m, m ∈ s_models S → ¬ upd_source S m t0) →
  ∀ t k, reached S d d' W t k → W t k.
Proof.
  intros Hwf Hl HW Hn t k H.
  induction H as [t k Hw|m f a rel j p Hm Hf Hk Hfo H IH Hba|m f ds dp o j k Hm Hf Hk Hdp Hfo H IH Hr|m f ds dp t i k Hm Hf Hk Hdp H IH (c & rc & Hr & Hba)]; [done|exfalso..].
  - apply (Hn m Hm). rewrite <- (HW _ _ IH). by eapply us_agg.
  - apply (Hn m Hm). rewrite <- (HW _ _ IH). by eapply us_dep.
  - destruct (dep_resolves S l m f dp Hwf Hl Hm Hf) as [o Ho]; [by unfold field_deps; rewrite Hk|].
    apply (Hn m Hm). rewrite <- (HW _ _ IH). by eapply us_link.
Qed.
Lemma marks_follow b S rand imm depth E m om o d d' k :
  wf_schema S → names_apart S → no_m2m_denorm S → mk_env b S rand imm depth = Ok E →
  m ∈ s_models S → om ∈ s_models S → m ≠ om → (∀ m', m' ∈ s_models S → ¬ upd_source S m' (m_table om)) →
  is_statement o (m_table om) → run_op E S o d = Ok d' → marker_of m k ∈ d_dirty d' →
  marker_of m k ∈ d_dirty d ∨ ∃ f fn ds sk dp j, f ∈ m_fields m ∧ f_kind f = KCallback fn ds sk ∧ dp ∈ ds ∧
    find_model S (dep_other dp) = Some om ∧ j ∈ stmt_keys o ∧ related d d' m k om j dp.
Proof.
  intros Hwf Hna Hnm HE Hm Hom Hne Hn Hs Ho Hin. destruct (mk_env_gen _ _ _ _ _ _ HE) as [l Hl].
  destruct (only_reasons b S rand imm depth E o d d' m k Hwf Hna Hnm HE Ho Hm Hin) as [?|(f & fn & ds & sk & Hf & Hk & Hr)]; [by left|right].
  assert (HW : ∀ t j, writes S o d d' t j → t = m_table om ∧ j ∈ stmt_keys o).
  { intros t j Hw. destruct o; [done|..]; destruct Hw as [Ht Hj]; simpl in *; by subst. }
  assert (HR : ∀ t j, reached S d d' (writes S o d d') t j → t = m_table om ∧ j ∈ stmt_keys o).
  { intros t j Hre. apply HW. eapply reached_only; [exact Hwf|exact Hl| |exact Hn|exact Hre]. intros. by eapply HW. }
  destruct Hr as [Hr|(dp & Hdp & [(o' & j & Hfo & Hre & Hrel)|(t & i & Hre & c & rc & Hr & Hba)])].
  - apply HR in Hr as [Hr _]. exfalso. apply Hne. eapply table_inj; [exact Hwf|done..].
  - apply HR in Hre as [Ht Hj]. destruct (find_model_in _ _ _ Hfo) as [Ho' _].
    assert (o' = om) as -> by (eapply table_inj; [exact Hwf|done..]). exists f, fn, ds, sk, dp, j. done.
  - exfalso. apply HR in Hre as [Ht _].
    assert (Hfd : dp ∈ field_deps f) by (unfold field_deps; by rewrite Hk).
    destruct (dep_resolves S l m f dp Hwf Hl Hm Hf Hfd) as [o' Ho'].
    pose proof (wf_deps _ Hwf _ _ _ Hm Hf Hfd _ Ho') as Wd. rewrite Hr in Wd. destruct Wd as [Wt _]. by eapply Wt.
Qed.

(** ** Statements on a table no declaration refers to, in any schema *)
Inductive declared_on (S : schema) (t : string) : Prop :=
  | do_own m f fn ds sk o : m ∈ s_models S → f ∈ m_fields m → f_kind f = KCallback fn ds sk →
      find_model S (f_owner f) = Some o → m_table o = t → declared_on S t
  | do_dep m f dp o : m ∈ s_models S → f ∈ m_fields m → dp ∈ field_deps f → find_model S (dep_other dp) = Some o → m_table o = t → declared_on S t
  | do_link m f dp c rc : m ∈ s_models S → f ∈ m_fields m → dp ∈ field_deps f → dep_rel dp = RelM2M t c rc → declared_on S t
  | do_gen m f dp ctc oidc o : m ∈ s_models S → f ∈ m_fields m → dp ∈ field_deps f → dep_rel dp = RelGenBackward ctc oidc →
      find_model S (f_owner f) = Some o → m_table o = t → declared_on S t
  | do_agg m f a rel : m ∈ s_models S → f ∈ m_fields m → f_kind f = KAgg a → find_model S (ag_rel a) = Some rel → m_table rel = t → declared_on S t.
Lemma trigger_declared S l tr : gen_all S = Ok l → tr ∈ l → declared_on S (t_tab tr).
Proof.
  intros Hl (o & f & lf & Hin & Hft & Htr)%(gen_all_elem _ _ _ Hl).
  unfold alldenorms in Hin. apply elem_of_list_bind in Hin as (m & Hin & Hm). destruct (m_proxy m); [by apply elem_of_nil in Hin|].
  apply elem_of_list_bind in Hin as (f' & Hin & Hf). destruct (is_denorm f'); [|by apply elem_of_nil in Hin].
  destruct (find_model S (f_owner f')) as [o'|] eqn:Ho; [|by apply elem_of_nil in Hin]. destruct (m_swapped o'); [by apply elem_of_nil in Hin|].
  apply elem_of_list_singleton in Hin as [= -> ->].
  assert (Hdeps : ∀ dp o2, dp ∈ field_deps f' → find_model S (dep_other dp) = Some o2 →
    (tr ∈ cb_dep_triggers o' o2 dp ∨ tr ∈ ck_dep_triggers o' o2 (f_name f') dp) → declared_on S (t_tab tr)).
  { intros dp o2 Hdp Ho2 Ht.
    assert (H : t_tab tr = m_table o2 ∨ (∃ c rc, dep_rel dp = RelM2M (t_tab tr) c rc) ∨ (∃ c rc, dep_rel dp = RelGenBackward c rc) ∧ t_tab tr = m_table o').
    { destruct Ht as [Ht|Ht]; unfold cb_dep_triggers, ck_dep_triggers in Ht; destruct (dep_rel dp) eqn:Hr;
        repeat (apply elem_of_cons in Ht as [->|Ht]); try (by apply elem_of_nil in Ht); simpl; eauto 10. }
    destruct H as [H|[(c & rc & H)|[(c & rc & H) H2]]]; [by eapply do_dep|by eapply do_link|by eapply do_gen]. }
  unfold field_triggers in Hft. destruct (f_kind f') as [| |fn ds sk|a|ds] eqn:Hk.
  - injection Hft as <-. by apply elem_of_nil in Htr.
  - injection Hft as <-. by apply elem_of_nil in Htr.
  - inv_bind Hft. injection Hft as <-. apply elem_of_app in Htr as [Htr|Htr].
    + destruct (s_bulk_unsafe S); [by apply elem_of_nil in Htr|]. unfold cb_self_triggers in Htr.
      repeat (apply elem_of_cons in Htr as [->|Htr]); try (by apply elem_of_nil in Htr); by eapply do_own.
    + apply deps_triggers_spec in Hft0 as [_ H2]. apply H2 in Htr as (dp & o2 & Hdp & Ho2 & Ht).
      eapply Hdeps; [by unfold field_deps; rewrite Hk|done|by left].
  - unfold with_model in Hft. destruct (find_model S (ag_rel a)) as [rel|] eqn:Hr; [|done]. injection Hft as <-.
    unfold agg_triggers in Htr. repeat (apply elem_of_cons in Htr as [->|Htr]); try (by apply elem_of_nil in Htr); by eapply do_agg.
  - apply deps_triggers_spec in Hft as [_ H2]. apply H2 in Htr as (dp & o2 & Hdp & Ho2 & Ht).
    eapply Hdeps; [by unfold field_deps; rewrite Hk|done|by right].
Qed.
Lemma fires_quiet b S rand imm depth E t evs x y : mk_env b S rand imm depth = Ok E → ¬ declared_on S t →
  (∀ e, e ∈ evs → ev_tab e = t) → foldM (fire E (e_depth E) []) x evs = Ok y → y = x.
Proof.
  intros HE Hnd Hev H. destruct (mk_env_gen _ _ _ _ _ _ HE) as [l Hl]. symmetry.
  eapply (foldM_rel (λ x y, x = y)); [done|by intros ??? -> ->| |exact H]. intros a e a' He Ha. symmetry. eapply fire_quiet; [|exact Ha].
  intros it Hit Ht. exfalso. apply Hnd. destruct (io_sound _ _ _ (E_inst b S rand imm depth E l HE Hl) _ Hit) as (tr1 & Htr1 & _ & Ht1 & _).
  rewrite <- (Hev _ He), <- Ht, Ht1. by eapply trigger_declared.
Qed.
Lemma undeclared_quiet b S rand imm depth E o t d d' : mk_env b S rand imm depth = Ok E → ¬ declared_on S t →
  is_statement o t → run_op E S o d = Ok d' →
  d_dirty d' = d_dirty d ∧ ∀ t' k, t' ≠ t ∨ k ∉ stmt_keys o → getrow d' t' k = getrow d t' k.
Proof.
  intros HE Hnd Hs Ho.
  assert (Hx : ∀ cs, Forall ch_quiet cs → NoDup (ch_key <$> cs) → exec E t cs d = Ok d' →
    d_dirty d' = d_dirty d ∧ ∀ t' k, t' ≠ t ∨ k ∉ ch_key <$> cs → getrow d' t' k = getrow d t' k).
  { intros cs Hq Hn Hx. 
    assert (Hb : ∀ cs x y, Forall ch_quiet cs → NoDup (ch_key <$> cs) → run_batch E (fire E (e_depth E) []) t cs x = Ok y →
      d_dirty y = d_dirty x ∧ ∀ t' k, t' ≠ t ∨ k ∉ ch_key <$> cs → getrow y t' k = getrow x t' k).
    { clear cs Hq Hn Hx. intros cs x y Hq Hn H. unfold run_batch in H. inv_bind H. destruct a as [x1 evs]. simpl in H.
      destruct (apply_all_applied E t cs x x1 evs Hq Hn H0) as (Ap & Hkeys & Hd).
      apply (fires_quiet b S rand imm depth E t) in H as ->; [|done|done|by apply (ap_tab _ _ _ _ Ap)]. split; [done|]. intros t' k Hk.
      destruct (decide (t' = t)) as [->|Ht]; [|by eapply ap_other]. eapply ap_none; [exact Ap|]. intros e He <-. apply Hkeys in He. naive_solver. }
    assert (Hr : foldM (λ x c, run_batch E (fire E (e_depth E) []) t [c] x) d cs = Ok d' →
      d_dirty d' = d_dirty d ∧ ∀ t' k, t' ≠ t ∨ k ∉ ch_key <$> cs → getrow d' t' k = getrow d t' k).
    { clear Hn Ho Hx. revert d. induction Hq as [|c cs Hc Hq IH]; intros d H; [by injection H as ->|]. rewrite foldM_cons in H. inv_bind H.
      destruct (Hb [c] _ _ ltac:(by constructor) (NoDup_singleton _) H0) as [D1 R1]. destruct (IH _ H) as [D2 R2]. split; [congruence|].
      intros t' k Hk. rewrite R2, R1; [done|..]; (destruct Hk as [?|Hk]; [by left|right]); csimpl in *; set_solver. }
    unfold exec, run_stmt in Hx. destruct (e_be E); [by apply Hr|by apply Hb|by apply Hr]. }
  destruct o as [mn pk r|t0 rows|t0 ks g|t0 ks]; [done|..]; simpl in Hs, Ho; subst t0; simpl.
  - destruct (exec_ins_nodup E t rows d d' Ho) as [Hn _].
    assert (Hk : ch_key <$> ((λ p : Z * row, CIns p.1 p.2) <$> rows) = rows.*1) by (rewrite <- list_fmap_compose; by apply list_fmap_ext).
    rewrite <- Hk in *. apply Hx; [by apply Forall_fmap, Forall_forall|done|done].
  - assert (Hk : ch_key <$> ((λ k, CUpd k (λ d o, Ok (g o, d))) <$> remove_dups ks) = remove_dups ks) by (rewrite <- list_fmap_compose; by apply list_fmap_id).
    eapply Hx in Ho as [D R]; [|rewrite Forall_fmap; apply Forall_forall; intros k0 _ d0 o0 ?; simpl; intros [= <-]; done|rewrite Hk; apply NoDup_remove_dups].
    split; [done|]. intros t' k. rewrite <- elem_of_remove_dups, <- Hk. apply R.
  - assert (Hk : ch_key <$> (CDel <$> remove_dups ks) = remove_dups ks) by (rewrite <- list_fmap_compose; by apply list_fmap_id).
    eapply Hx in Ho as [D R]; [|by apply Forall_fmap, Forall_forall|rewrite Hk; apply NoDup_remove_dups].
    split; [done|]. intros t' k. rewrite <- elem_of_remove_dups, <- Hk. apply R.
Qed.
