(** * Every change of what a callback sees makes its row's marker due. *)
From Verif Require Import Base BaseLemmas Schema TrigSet Gen Exec Orm Spec Engine GenLemmas.

Lemma fmap_ext_in {A B} (f g : A → B) (l : list A) : (∀ x, x ∈ l → f x = g x) → f <$> l = g <$> l.
Proof.
  induction l as [|x l IH]; intros H; csimpl; [done|]. rewrite H by left. f_equal.
  apply IH. intros. apply H. by right.
Qed.
Lemma list_neq_exists {A} (P : A → Prop) `{HdecP : !∀ x, Decision (P x)} (cs : list A) :
  ¬ (∀ c, c ∈ cs → P c) → ∃ c, c ∈ cs ∧ ¬ P c.
Proof.
  intros Hn. destruct (Forall_Exists_dec P (λ x, ¬ P x) (λ x, decide (P x)) cs) as [Hf|He].
  - exfalso. apply Hn. by apply Forall_forall.
  - by apply Exists_exists in He.
Qed.
Lemma cols_of_ne cs r r' : cols_of cs r ≠ cols_of cs r' → ∃ c, c ∈ cs ∧ col r c ≠ col r' c.
Proof.
  intros H. apply (list_neq_exists (λ c, col r c = col r' c)). intros Ha. apply H.
  unfold cols_of. by apply fmap_ext_in.
Qed.
Lemma gmap_ne {A} `{EqDecision A} (m1 m2 : gmap Z A) : m1 ≠ m2 → ∃ i, m1 !! i ≠ m2 !! i.
Proof.
  intros H.
  destruct (list_neq_exists (λ i, m1 !! i = m2 !! i) (elements (dom m1 ∪ dom m2))) as (i & _ & Hi); [|eauto].
  intros Ha. apply H. apply map_eq. intros i.
  destruct (m1 !! i) eqn:E1.
  - rewrite <- E1. apply Ha. apply elem_of_elements, elem_of_union_l, elem_of_dom. by rewrite E1.
  - destruct (m2 !! i) eqn:E2; [|done]. rewrite <- E1, <- E2. apply Ha.
    apply elem_of_elements, elem_of_union_r, elem_of_dom. by rewrite E2.
Qed.
Lemma fmap_ne_exists {A B} `{EqDecision B} (f g : A → B) (l : list A) : f <$> l ≠ g <$> l → ∃ x, x ∈ l ∧ f x ≠ g x.
Proof.
  intros H. apply (list_neq_exists (λ x, f x = g x)). intros Ha. apply H. by apply fmap_ext_in.
Qed.

Section marking.
Context (b : backend) (S : schema) (rand : nat → Z) (imm : bool) (depth : nat) (E : env) (l : list trigger).
Context (Hwf : wf_schema S) (HE : mk_env b S rand imm depth = Ok E) (Hl : gen_all S = Ok l).
Context (Hnames : names_ok b l).

Lemma E_fields : e_be E = b ∧ e_pk E = pk_of_table S ∧ inst_ok b l (e_trigs E) ∧
  e_fks E = schema_fks S ∧ e_fkimm E = imm ∧ e_rand E = rand.
Proof.
  unfold mk_env in HE. destruct (installed b S) as [its|] eqn:Hi; [|done]. simpl in HE. injection HE as <-.
  simpl. split_and!; try done. destruct (installed_ok _ _ _ Hi) as (l' & Hl' & ?). congruence.
Qed.
Lemma E_be : e_be E = b. Proof. apply E_fields. Qed.
Lemma E_inst : inst_ok b l (e_trigs E). Proof. apply E_fields. Qed.

Lemma table_inj m m' : m ∈ s_models S → m' ∈ s_models S → m_table m = m_table m' → m = m'.
Proof. intros. eapply NoDup_fmap_eq; [apply (wf_tables _ Hwf)|done..]. Qed.
Lemma pk_table m : m ∈ s_models S → e_pk E (m_table m) = m_pk m.
Proof.
  intros Hm. destruct E_fields as (_ & -> & _). unfold pk_of_table.
  destruct (list_find _ _) as [[i m']|] eqn:H.
  - apply list_find_Some in H as (H1 & H2 & _). f_equal. apply table_inj; [by eapply elem_of_list_lookup_2|done|done].
  - apply list_find_None in H. eapply Forall_forall in H; [|exact Hm]. done.
Qed.
Lemma pk_link t : (∀ m, m ∈ s_models S → t ≠ m_table m) → e_pk E t = "id".
Proof.
  intros Ht. destruct E_fields as (_ & -> & _). unfold pk_of_table.
  destruct (list_find _ _) as [[i m']|] eqn:H; [|done].
  apply list_find_Some in H as (H1 & H2 & _). exfalso. eapply Ht; [by eapply elem_of_list_lookup_2|done].
Qed.

(** ** Where generated triggers come from *)
Inductive origin (tr : trigger) : Prop :=
  | or_self m f fn ds sk : m ∈ s_models S → f ∈ m_fields m → f_kind f = KCallback fn ds sk →
      s_bulk_unsafe S = false → tr ∈ cb_self_triggers m sk → origin tr
  | or_cb m f fn ds sk dp o : m ∈ s_models S → f ∈ m_fields m → f_kind f = KCallback fn ds sk →
      dp ∈ ds → find_model S (dep_other dp) = Some o → tr ∈ cb_dep_triggers m o dp → origin tr
  | or_ck m f ds dp o : m ∈ s_models S → f ∈ m_fields m → f_kind f = KCacheKey ds →
      dp ∈ ds → find_model S (dep_other dp) = Some o → tr ∈ ck_dep_triggers m o (f_name f) dp → origin tr
  | or_agg m f a rel : m ∈ s_models S → f ∈ m_fields m → f_kind f = KAgg a →
      find_model S (ag_rel a) = Some rel → tr ∈ agg_triggers m rel (f_name f) a → origin tr.

Lemma origin_spec tr : tr ∈ l ↔ origin tr.
Proof.
  rewrite (gen_all_elem _ _ _ Hl). split.
  - intros (m & f & lf & Hin & Hft & Htr). apply alldenorms_elem in Hin as (Hm & Hf & Hd); [|done].
    unfold field_triggers in Hft. destruct (f_kind f) as [| |fn ds sk|a|ds] eqn:Hk.
    + injection Hft as <-. by apply elem_of_nil in Htr.
    + injection Hft as <-. by apply elem_of_nil in Htr.
    + inv_bind Hft. injection Hft as <-. apply elem_of_app in Htr as [Htr|Htr].
      * destruct (s_bulk_unsafe S) eqn:Hb; [by apply elem_of_nil in Htr|]. by eapply or_self.
      * apply deps_triggers_spec in Hft0 as [_ H2]. destruct (H2 _ Htr) as (dp & o & ? & ? & ?).
        by eapply or_cb.
    + unfold with_model in Hft. destruct (find_model S (ag_rel a)) eqn:Hr; [|done]. injection Hft as <-.
      by eapply or_agg.
    + apply deps_triggers_spec in Hft as [_ H2]. destruct (H2 _ Htr) as (dp & o & ? & ? & ?).
      by eapply or_ck.
  - intros Ho.
    assert (Hd : ∃ m f, m ∈ s_models S ∧ f ∈ m_fields m ∧ is_denorm f = true ∧
       ∀ lf, field_triggers S m f = Ok lf → tr ∈ lf).
    { destruct Ho as [m f fn ds sk Hm Hf Hk Hb Htr|m f fn ds sk dp o Hm Hf Hk Hdp Hfo Htr|m f ds dp o Hm Hf Hk Hdp Hfo Htr|m f a rel Hm Hf Hk Hfo Htr];
        exists m, f; (split_and!; [done|done|by unfold is_denorm; rewrite Hk|]); unfold field_triggers; rewrite Hk; intros lf H.
      - inv_bind H. injection H as <-. rewrite Hb. apply elem_of_app. by left.
      - inv_bind H. injection H as <-. apply elem_of_app. right.
        apply deps_triggers_spec in H0 as [H1 _]. destruct (H1 _ Hdp) as (o' & Ho' & ?).
        assert (o = o') as -> by congruence. auto.
      - apply deps_triggers_spec in H as [H1 _]. destruct (H1 _ Hdp) as (o' & Ho' & ?).
        assert (o = o') as -> by congruence. auto.
      - unfold with_model in H. rewrite Hfo in H. by injection H as <-. }
    destruct Hd as (m & f & Hm & Hf & Hd & Hin).
    assert (Ha : (m, f) ∈ alldenorms S) by (by apply alldenorms_elem).
    destruct (gen_all_ok _ _ _ _ Hl Ha) as (lf & Hlf). exists m, f, lf. auto.
Qed.

(** ** Columns written by triggers *)
Lemma tw_spec t c : tw E t c → ∃ m f, m ∈ s_models S ∧ f ∈ m_fields m ∧ m_table m = t ∧ f_name f = c ∧ ¬ plain_or_callback f.
Proof.
  clear Hnames. intros (it & x & w & Hit & Ha). destruct (io_sound _ _ _ E_inst _ Hit) as (tr1 & _ & _ & _ & _ & _ & _ & Hacts).
  destruct (Hacts _ Ha) as (tr2 & Htr2 & _ & Hin). apply origin_spec in Htr2.
  destruct Htr2 as [m f fn ds sk Hm Hf Hk Hb Htr|m f fn ds sk dp o Hm Hf Hk Hdp Hfo Htr|m f ds dp o Hm Hf Hk Hdp Hfo Htr|m f a rel Hm Hf Hk Hfo Htr].
  - exfalso. unfold cb_self_triggers in Htr. repeat (apply elem_of_cons in Htr as [->|Htr]); [..|by apply elem_of_nil in Htr]; simpl in Hin; set_solver.
  - exfalso. unfold cb_dep_triggers in Htr. destruct (dep_rel dp);
      repeat (apply elem_of_cons in Htr as [->|Htr]); try (by apply elem_of_nil in Htr); simpl in Hin; set_solver.
  - exists m, f. unfold plain_or_callback. rewrite Hk. split_and!; [done|done|..|by intros []].
    + unfold ck_dep_triggers in Htr. destruct (dep_rel dp);
      repeat (apply elem_of_cons in Htr as [->|Htr]); try (by apply elem_of_nil in Htr); simpl in Hin; set_solver.
    + unfold ck_dep_triggers in Htr. destruct (dep_rel dp);
      repeat (apply elem_of_cons in Htr as [->|Htr]); try (by apply elem_of_nil in Htr); simpl in Hin; set_solver.
  - exists m, f. unfold plain_or_callback. rewrite Hk. split_and!; [done|done|..|by intros []].
    + unfold agg_triggers in Htr. repeat (apply elem_of_cons in Htr as [->|Htr]); try (by apply elem_of_nil in Htr); simpl in Hin; set_solver.
    + unfold agg_triggers in Htr. repeat (apply elem_of_cons in Htr as [->|Htr]); try (by apply elem_of_nil in Htr); simpl in Hin; set_solver.
Qed.

Lemma column_not_tw m c : m ∈ s_models S → column_of m c → ¬ tw E (m_table m) c.
Proof.
  intros Hm (f & Hf & Hc & Hp) Htw. apply tw_spec in Htw as (m' & f' & Hm' & Hf' & Ht & Hn & Hnp).
  apply table_inj in Ht; [subst m'|done|done]. pose proof (wf_models _ Hwf _ Hm) as W.
  destruct (wf_name _ _ W _ Hf') as [?|Hnc]; [done|].
  assert (f = f') as ->; [|done]. eapply NoDup_fmap_eq; [apply (wf_cols _ _ W)|done|done|congruence].
Qed.
Lemma link_not_tw t c : (∀ m, m ∈ s_models S → t ≠ m_table m) → ¬ tw E t c.
Proof. intros Ht Htw. apply tw_spec in Htw as (m' & f' & Hm' & Hf' & Ht' & _). by eapply Ht. Qed.

Lemma stable : stable_sel E.
Proof.
  intros it ct t sc wc rf rc Hit Ha.
  destruct (io_sound _ _ _ E_inst _ Hit) as (tr1 & _ & _ & _ & _ & _ & _ & Hacts).
  destruct (Hacts _ Ha) as (tr2 & Htr2 & _ & Hin). apply origin_spec in Htr2.
  destruct Htr2 as [m f fn ds sk Hm Hf Hk Hb Htr|m f fn ds sk dp o Hm Hf Hk Hdp Hfo Htr|m f ds dp o Hm Hf Hk Hdp Hfo Htr|m f a rel Hm Hf Hk Hfo Htr].
  - exfalso. unfold cb_self_triggers in Htr. repeat (apply elem_of_cons in Htr as [->|Htr]); [..|by apply elem_of_nil in Htr]; simpl in Hin; set_solver.
  - assert (Wd : wf_dep S m dp) by (eapply (wf_deps _ Hwf); [done|done|by unfold field_deps; rewrite Hk]).
    specialize (Wd _ Hfo). destruct (find_model_in _ _ _ Hfo) as [Ho _].
    unfold cb_dep_triggers in Htr. destruct (dep_rel dp).
    + assert (AMarkSel ct t sc wc rf rc = AMarkSel (m_ct m) (m_table m) (m_pk m) fk rf (m_pk o)) as [= -> -> -> -> ->].
      { repeat (apply elem_of_cons in Htr as [->|Htr]); try (by apply elem_of_nil in Htr); simpl in Hin; set_solver. }
      split; [left; by rewrite pk_table|right; by apply column_not_tw].
    + assert (AMarkSel ct t sc wc rf rc = AMarkSel (m_ct m) (m_table o) fk (m_pk o) rf (m_pk o)) as [= -> -> -> -> ->].
      { repeat (apply elem_of_cons in Htr as [->|Htr]); try (by apply elem_of_nil in Htr); simpl in Hin; set_solver. }
      split; [right; by apply column_not_tw|left; by rewrite pk_table].
    + assert (t = tab) as ->.
      { repeat (apply elem_of_cons in Htr as [->|Htr]); try (by apply elem_of_nil in Htr); simpl in Hin; set_solver. }
      destruct Wd as (Wt & _). split; right; by apply link_not_tw.
    + exfalso. repeat (apply elem_of_cons in Htr as [->|Htr]); try (by apply elem_of_nil in Htr); simpl in Hin; set_solver.
    + exfalso. repeat (apply elem_of_cons in Htr as [->|Htr]); try (by apply elem_of_nil in Htr); simpl in Hin; set_solver.
  - exfalso. unfold ck_dep_triggers in Htr. destruct (dep_rel dp);
      repeat (apply elem_of_cons in Htr as [->|Htr]); try (by apply elem_of_nil in Htr); simpl in Hin; set_solver.
  - exfalso. unfold agg_triggers in Htr.
    repeat (apply elem_of_cons in Htr as [->|Htr]); try (by apply elem_of_nil in Htr); simpl in Hin; set_solver.
Qed.

Lemma unique_names : names_unique E.
Proof.
  intros tr tr' H H' Hn. f_equal. eapply NoDup_fmap_eq; [apply (io_names _ _ _ E_inst)|done..].
Qed.

(** ** Tracked columns are checked by every update trigger on the table. *)
Lemma model_tfields_elem m sk c : wf_model S m → tracked S m c → skip_on S m sk → c ∈ model_tfields m sk.
Proof.
  intros W [(f & Hf & Hc) Hsk] Hso. unfold model_tfields. apply elem_of_list_filter. split.
  - specialize (Hsk _ Hso). unfold eff_skip. done.
  - right. apply elem_of_list_fmap. exists f. split; [by rewrite (wf_att _ _ W _ Hf)|].
    apply elem_of_list_filter. split; [by apply (wf_owner _ _ W)|done].
Qed.
Lemma gen_fields_elem m c : wf_model S m → tracked S m c →
  c ∈ m_pk m :: (f_att <$> filter (λ f, f_owner f = m_name m) (m_fields m)).
Proof.
  intros W [(f & Hf & Hc) _]. right. apply elem_of_list_fmap. exists f. split; [by rewrite (wf_att _ _ W _ Hf)|].
  apply elem_of_list_filter. split; [by apply (wf_owner _ _ W)|done].
Qed.

Ltac cases_in H :=
  repeat (apply elem_of_cons in H as [->|H]); try (by apply elem_of_nil in H); simpl in *.

Lemma tracked_fields m c tr : m ∈ s_models S → tracked S m c →
  tr ∈ l → t_tab tr = m_table m → t_ev tr = EvUpd → c ∈ t_fields tr.
Proof.
  intros Hm Htr Hin Ht He. pose proof (wf_models _ Hwf _ Hm) as W. apply origin_spec in Hin.
  assert (Hdep : ∀ m' f dp o, m' ∈ s_models S → f ∈ m_fields m' → dp ∈ field_deps f →
     find_model S (dep_other dp) = Some o →
     (t_fields tr = model_tfields o (dep_skip dp) ∧ t_tab tr = m_table o ∧ is_gen (dep_rel dp) = false) ∨
     (∃ rm, (rm = o ∨ rm = m') ∧ t_tab tr = m_table rm ∧ t_fields tr = m_pk rm :: (f_att <$> filter (λ f, f_owner f = m_name rm) (m_fields rm))) ∨
     (∃ t c rc, dep_rel dp = RelM2M t c rc ∧ t_tab tr = t) → c ∈ t_fields tr).
  { intros m' f dp o Hm' Hf Hdp Hfo Hcase. destruct (find_model_in _ _ _ Hfo) as [Ho _].
    destruct Hcase as [(Hfl & Htab & Hg)|[(rm & Hrm & Htab & Hfl)|(t & c0 & rc & Hr & Htab)]].
    - rewrite Ht in Htab. apply table_inj in Htab; [subst o|done|done].
      rewrite Hfl. apply model_tfields_elem; [done|done|]. apply (so_dep S m m' f dp); done.
    - assert (rm ∈ s_models S) by (by destruct Hrm; subst). rewrite Ht in Htab. apply table_inj in Htab; [subst rm|done|done].
      rewrite Hfl. by apply gen_fields_elem.
    - pose proof (wf_deps _ Hwf _ _ _ Hm' Hf Hdp _ Hfo) as Wd. rewrite Hr in Wd. destruct Wd as (Wt & _).
      exfalso. eapply Wt; [exact Hm|congruence]. }
  destruct Hin as [m' f fn ds sk Hm' Hf Hk Hb Hi|m' f fn ds sk dp o Hm' Hf Hk Hdp Hfo Hi|m' f ds dp o Hm' Hf Hk Hdp Hfo Hi|m' f a rel Hm' Hf Hk Hfo Hi].
  - assert (m' = m) as ->.
    { apply table_inj; [done|done|]. unfold cb_self_triggers in Hi. cases_in Hi; done. }
    assert (t_fields tr = model_tfields m sk) as -> by (unfold cb_self_triggers in Hi; cases_in Hi; done).
    apply model_tfields_elem; [done|done|]. by eapply so_self.
  - assert (Hdp' : dp ∈ field_deps f) by (by unfold field_deps; rewrite Hk).
    eapply Hdep; [done|exact Hf|exact Hdp'|done|]. unfold cb_dep_triggers in Hi. destruct (dep_rel dp) eqn:Hr.
    + left. cases_in Hi; done.
    + left. cases_in Hi; done.
    + cases_in Hi; try done; [right; right; eauto 10| left; done].
    + right; left. exists o. cases_in Hi; try done; auto.
    + right; left. exists m'. cases_in Hi; try done; auto.
  - assert (Hdp' : dp ∈ field_deps f) by (by unfold field_deps; rewrite Hk).
    eapply Hdep; [done|exact Hf|exact Hdp'|done|]. unfold ck_dep_triggers in Hi. destruct (dep_rel dp) eqn:Hr.
    + left. cases_in Hi; done.
    + left. cases_in Hi; done.
    + cases_in Hi; try done; [right; right; eauto 10| left; done].
    + right; left. exists o. cases_in Hi; try done; auto.
    + right; left. exists m'. cases_in Hi; try done; auto.
  - destruct (find_model_in _ _ _ Hfo) as [Hrel _]. assert (rel = m) as ->.
    { apply table_inj; [done|done|]. unfold agg_triggers in Hi. cases_in Hi; done. }
    assert (t_fields tr = model_tfields m (ag_skip a)) as -> by (unfold agg_triggers in Hi; cases_in Hi; done).
    apply model_tfields_elem; [done|done|]. apply (so_agg S m m' f a); done.
Qed.

Lemma link_fields (Hlk : wf_links S) m f dp o t c rc tr :
  m ∈ s_models S → f ∈ m_fields m → dp ∈ field_deps f → find_model S (dep_other dp) = Some o → dep_rel dp = RelM2M t c rc →
  tr ∈ l → t_tab tr = t → t_ev tr = EvUpd → c ∈ t_fields tr ∧ rc ∈ t_fields tr.
Proof.
  intros Hm Hf Hdp Hfo Hr Hin Ht He. apply origin_spec in Hin.
  pose proof (wf_deps _ Hwf _ _ _ Hm Hf Hdp _ Hfo) as Wd. rewrite Hr in Wd. destruct Wd as (Wt & _).
  assert (Hdep : ∀ m' f' dp' o', m' ∈ s_models S → f' ∈ m_fields m' → dp' ∈ field_deps f' →
     find_model S (dep_other dp') = Some o' →
     (t_tab tr = m_table o' ∨ t_tab tr = m_table m') ∨
     (∃ t c rc, dep_rel dp' = RelM2M t c rc ∧ t_tab tr = t ∧ t_fields tr = [c; rc]) → c ∈ t_fields tr ∧ rc ∈ t_fields tr).
  { intros m' f' dp' o' Hm' Hf' Hdp' Hfo' Hcase. destruct (find_model_in _ _ _ Hfo') as [Ho _].
    destruct Hcase as [[Htab|Htab]|(t' & c' & rc' & Hr' & Htab & ->)].
    - exfalso. eapply Wt; [exact Ho|congruence].
    - exfalso. eapply Wt; [exact Hm'|congruence].
    - assert (t' = t) as -> by congruence.
      destruct (Hlk _ _ _ _ _ _ _ _ _ _ _ Hm Hf Hdp Hr Hm' Hf' Hdp' Hr') as [[-> ->]|[-> ->]]; set_solver. }
  destruct Hin as [m' f' fn ds sk Hm' Hf' Hk Hb Hi|m' f' fn ds sk dp' o' Hm' Hf' Hk Hdp' Hfo' Hi|m' f' ds dp' o' Hm' Hf' Hk Hdp' Hfo' Hi|m' f' a rel Hm' Hf' Hk Hfo' Hi].
  - exfalso. eapply Wt; [exact Hm'|]. unfold cb_self_triggers in Hi. cases_in Hi; done.
  - assert (Hdp'' : dp' ∈ field_deps f') by (by unfold field_deps; rewrite Hk).
    eapply Hdep; [done|exact Hf'|exact Hdp''|done|]. unfold cb_dep_triggers in Hi. destruct (dep_rel dp') eqn:Hr'.
    + left; left. cases_in Hi; done.
    + left; left. cases_in Hi; done.
    + cases_in Hi; try done; [right; eauto 10| left; left; done].
    + left; left. cases_in Hi; done.
    + left; right. cases_in Hi; done.
  - assert (Hdp'' : dp' ∈ field_deps f') by (by unfold field_deps; rewrite Hk).
    eapply Hdep; [done|exact Hf'|exact Hdp''|done|]. unfold ck_dep_triggers in Hi. destruct (dep_rel dp') eqn:Hr'.
    + left; left. cases_in Hi; done.
    + left; left. cases_in Hi; done.
    + cases_in Hi; try done; [right; eauto 10| left; left; done].
    + left; left. cases_in Hi; done.
    + left; right. cases_in Hi; done.
  - exfalso. destruct (find_model_in _ _ _ Hfo') as [Hrel _]. eapply Wt; [exact Hrel|].
    unfold agg_triggers in Hi. cases_in Hi; done.
Qed.

(** ** When a generated action is due *)
Definition ct_match (tr : trigger) (e : event) : Prop := ∀ cf, t_ctf tr = Some cf →
  match t_ev tr with
  | EvIns => ref_val E e RNew cf = VInt (t_ct tr)
  | EvDel => ref_val E e ROld cf = VInt (t_ct tr)
  | EvUpd => ref_val E e ROld cf = VInt (t_ct tr) ∨ ref_val E e RNew cf = VInt (t_ct tr)
  end.

(** The action [a] is run for the event [e]. *)
Definition act_due (e : event) (a : action) : Prop := ∃ it, it ∈ e_trigs E ∧ i_tab it = ev_tab e ∧
  i_ev it = ev_kind e ∧ cond_holds E e (i_cond it) = true ∧ a ∈ i_acts it.
Lemma act_due_intro e tr a :
  tr ∈ l → a ∈ t_acts tr → ev_tab e = t_tab tr → ev_kind e = t_ev tr → ct_match tr e →
  (t_ev tr = EvUpd → ∃ c, ref_val E e ROld c ≠ ref_val E e RNew c ∧
      ∀ tr', tr' ∈ l → t_tab tr' = t_tab tr → t_ev tr' = EvUpd → c ∈ t_fields tr') →
  act_due e a.
Proof.
  intros Htr Ha Ht Hk Hct Hch.
  destruct (io_complete _ _ _ E_inst _ _ Htr Ha) as (it & tr1 & Hit & Htr1 & Hn & Hn1 & Hit1 & Hie & Hc & Hina).
  destruct (Hnames _ _ Htr1 Htr Hn1) as (Htab & Hev & Hgen).
  exists it. split_and!; [done|congruence|congruence| |done].
  assert (Hcf : t_ev tr = EvUpd → ∀ cond, cond = CFields (t_fields tr1) → cond_holds E e cond = true).
  { intros Hu cond ->. simpl. destruct (Hch Hu) as (c & Hne & Hall). apply existsb_exists. exists c. split.
    - apply elem_of_list_In. apply Hall; congruence.
    - apply negb_true_iff, bool_decide_false. done. }
  unfold trig_cond in Hc. rewrite Hev in Hc.
  destruct (decide (b = MySQL)) as [->|Hb].
  - destruct (t_ev tr) eqn:He; [by injection Hc as <-| |by injection Hc as <-].
    injection Hc as <-. case_decide; [done|]. by apply Hcf.
  - destruct (Hgen Hb) as [Hctf Hcte]. unfold ct_match in Hct.
    destruct (t_ctf tr1) as [cf|] eqn:Hcf1.
    + symmetry in Hctf. rewrite <- (Hcte ltac:(done)) in Hct. specialize (Hct _ Hctf).
      assert (Hs : ∀ v, v = VInt (t_ct tr1) → sql_eq v (VInt (t_ct tr1)) = true).
      { intros v ->. simpl. by apply bool_decide_true. }
      destruct b; [| |done].
      * destruct (t_ev tr) eqn:He; [injection Hc as <-; simpl; by apply Hs| |injection Hc as <-; simpl; by apply Hs].
        case_decide; [done|]. injection Hc as <-.
        change (cond_holds E e (CFields (t_fields tr1)) && (sql_eq (ref_val E e ROld cf) (VInt (t_ct tr1)) || sql_eq (ref_val E e RNew cf) (VInt (t_ct tr1))) = true).
        rewrite (Hcf eq_refl _ eq_refl). simpl. apply orb_true_iff. destruct Hct; [left|right]; by apply Hs.
      * destruct (t_ev tr) eqn:He; [injection Hc as <-; simpl; by apply Hs| |injection Hc as <-; simpl; by apply Hs].
        case_decide; [done|]. injection Hc as <-.
        change ((cond_holds E e (CFields (t_fields tr1)) && sql_eq (ref_val E e ROld cf) (VInt (t_ct tr1))) || sql_eq (ref_val E e RNew cf) (VInt (t_ct tr1)) = true).
        rewrite (Hcf eq_refl _ eq_refl). simpl. apply orb_true_iff. destruct Hct; [left|right]; by apply Hs.
    + destruct b; [| |done].
      * destruct (t_ev tr) eqn:He; [by injection Hc as <-| |by injection Hc as <-].
        case_decide; [done|]. injection Hc as <-. by apply Hcf.
      * destruct (t_ev tr) eqn:He; [by injection Hc as <-| |by injection Hc as <-].
        case_decide; [done|]. injection Hc as <-. by apply Hcf.
Qed.

Lemma due_intro d e mk tr a :
  tr ∈ l → a ∈ t_acts tr → ev_tab e = t_tab tr → ev_kind e = t_ev tr →
  mk ∈ act_marks E d e a → ct_match tr e →
  (t_ev tr = EvUpd → ∃ c, ref_val E e ROld c ≠ ref_val E e RNew c ∧
      ∀ tr', tr' ∈ l → t_tab tr' = t_tab tr → t_ev tr' = EvUpd → c ∈ t_fields tr') →
  due E d e mk.
Proof.
  intros Htr Ha Ht Hk Hmk Hct Hch. destruct (act_due_intro e tr a) as (it & ? & ? & ? & ? & ?); [done..|].
  by exists it, a.
Qed.

Lemma applied_changed t d d1 evs t' k : applied t d d1 evs → getrow d1 t' k ≠ getrow d t' k →
  t' = t ∧ ∃ e, e ∈ evs ∧ ev_key e = k ∧ ev_tab e = t ∧ getrow d t k = ev_old e ∧ getrow d1 t k = ev_new e.
Proof.
  intros Ap Hne. destruct (decide (t' = t)) as [->|Ht]; [|by rewrite (ap_other _ _ _ _ Ap) in Hne].
  split; [done|]. destruct (decide (k ∈ ev_key <$> evs)) as [Hin|Hin].
  - apply elem_of_list_fmap in Hin as (e & -> & He). exists e. destruct (ap_ev _ _ _ _ Ap _ He).
    split_and!; try done. by apply (ap_tab _ _ _ _ Ap).
  - exfalso. apply Hne. apply (ap_none _ _ _ _ Ap). intros e He <-. apply Hin. apply elem_of_list_fmap. by exists e.
Qed.

Lemma ref_new e t k r c : ev_tab e = t → ev_key e = k → ev_new e = Some r → c ≠ e_pk E t → ref_val E e RNew c = col r c.
Proof. intros <- <- Hn Hc. unfold ref_val. unfold ev_new in Hn. rewrite Hn. unfold cell. by rewrite decide_False. Qed.
Lemma ref_old e t k r c : ev_tab e = t → ev_key e = k → ev_old e = Some r → c ≠ e_pk E t → ref_val E e ROld c = col r c.
Proof. intros <- <- Hn Hc. unfold ref_val. unfold ev_old in Hn. rewrite Hn. unfold cell. by rewrite decide_False. Qed.
Lemma ref_new_pk e t k r : ev_tab e = t → ev_key e = k → ev_new e = Some r → ref_val E e RNew (e_pk E t) = VInt k.
Proof. intros <- <- Hn. unfold ref_val. unfold ev_new in Hn. rewrite Hn. unfold cell. by rewrite decide_True. Qed.
Lemma ref_old_pk e t k r : ev_tab e = t → ev_key e = k → ev_old e = Some r → ref_val E e ROld (e_pk E t) = VInt k.
Proof. intros <- <- Hn. unfold ref_val. unfold ev_old in Hn. rewrite Hn. unfold cell. by rewrite decide_True. Qed.

Lemma tracked_not_pk m c : m ∈ s_models S → tracked S m c → c ≠ e_pk E (m_table m).
Proof.
  intros Hm [(f & Hf & Hc) _] ->. rewrite pk_table in Hc by done. apply (wf_pkcol _ _ (wf_models _ Hwf _ Hm)).
  apply elem_of_list_fmap. by exists f.
Qed.

(** The kinds of events by which a row changes. *)
Lemma ev_cases e : (∃ r, ev_kind e = EvIns ∧ ev_old e = None ∧ ev_new e = Some r) ∨
  (∃ o r, ev_kind e = EvUpd ∧ ev_old e = Some o ∧ ev_new e = Some r) ∨
  (∃ o, ev_kind e = EvDel ∧ ev_old e = Some o ∧ ev_new e = None).
Proof. destruct e as [t k [n|o n|o]]; unfold ev_kind, ev_old, ev_new; simpl; eauto 10. Qed.

(** ** Own row *)
Lemma obs_own m f fn ds sk t d d1 evs k r1 :
  m ∈ s_models S → f ∈ m_fields m → f_kind f = KCallback fn ds sk → s_bulk_unsafe S = false →
  applied t d d1 evs → getrow d1 (m_table m) k = Some r1 →
  (∀ r, getrow d (m_table m) k = Some r → ∃ c, tracked S m c ∧ col r c ≠ col r1 c) →
  ∃ e, e ∈ evs ∧ due E d1 e (marker_of m k).
Proof.
  intros Hm Hf Hk Hb Ap Hr1 Hch.
  assert (Hne : getrow d1 (m_table m) k ≠ getrow d (m_table m) k).
  { rewrite Hr1. intros He. symmetry in He. destruct (Hch _ He) as (c & _ & ?). done. }
  destruct (applied_changed _ _ _ _ _ _ Ap Hne) as (Ht & e & He & Hek & Het & Ho & Hn).
  exists e. split; [done|]. rewrite <- Ht in Hn, Ho, Het. rewrite Hr1 in Hn.
  destruct (ev_cases e) as [(r & Kd & Eo & En)|[(o & r & Kd & Eo & En)|(o & Kd & Eo & En)]]; [| |congruence].
  - eapply (due_intro _ _ _ (model_trigger m (m_ct m) sk EvIns [AMark (m_ct m) RNew (m_pk m)]) (AMark (m_ct m) RNew (m_pk m))).
    + apply origin_spec. eapply or_self; [done|exact Hf|exact Hk|done|]. unfold cb_self_triggers. set_solver.
    + by left.
    + done.
    + done.
    + simpl. rewrite <- (pk_table m) by done. erewrite ref_new_pk by eauto. by left.
    + intros cf [=].
    + done.
  - assert (r = r1) as -> by congruence. rewrite Eo in Ho. destruct (Hch _ Ho) as (c & Htc & Hcc).
    eapply (due_intro _ _ _ (model_trigger m (m_ct m) sk EvUpd [AMark (m_ct m) RNew (m_pk m)]) (AMark (m_ct m) RNew (m_pk m))).
    + apply origin_spec. eapply or_self; [done|exact Hf|exact Hk|done|]. unfold cb_self_triggers. set_solver.
    + by left.
    + done.
    + done.
    + simpl. rewrite <- (pk_table m) by done. erewrite ref_new_pk by eauto. by left.
    + intros cf [=].
    + intros _. exists c. split.
      * erewrite ref_old, ref_new by (eauto using tracked_not_pk). done.
      * intros tr' Htr' Ht' He'. by eapply tracked_fields.
Qed.

(** ** Rows reached through dependencies *)
Context (Hlk : wf_links S).

Lemma column_not_pk m c : m ∈ s_models S → column_of m c → c ≠ e_pk E (m_table m).
Proof.
  intros Hm (f & Hf & Hc & _) ->. rewrite pk_table in Hc by done. apply (wf_pkcol _ _ (wf_models _ Hwf _ Hm)).
  apply elem_of_list_fmap. by exists f.
Qed.

Section dep.
  Context (m : model) (f : field) (fn : callback) (ds : list dep) (sk : list string) (dp : dep) (o : model).
  Context (Hm : m ∈ s_models S) (Hf : f ∈ m_fields m) (Hk : f_kind f = KCallback fn ds sk) (Hdp : dp ∈ ds).
  Context (Hfo : find_model S (dep_other dp) = Some o).
  Context (t : string) (d d1 : db) (evs : list event) (Ap : applied t d d1 evs).
  Context (k : Z).

  Lemma dep_o_in : o ∈ s_models S.
  Proof. by apply find_model_in in Hfo as []. Qed.
  Lemma dep_in_field : dp ∈ field_deps f.
  Proof. unfold field_deps. by rewrite Hk. Qed.
  Lemma dep_wf : wf_dep S m dp.
  Proof. eapply (wf_deps _ Hwf); [done|exact Hf|apply dep_in_field]. Qed.
  Lemma dep_gen tr : tr ∈ cb_dep_triggers m o dp → tr ∈ l.
  Proof. intros. apply origin_spec. by eapply or_cb. Qed.

  (** An update event on a row of model [o'] that changes a tracked column. *)
  Lemma upd_changed o' e ro rn c : o' ∈ s_models S → tracked S o' c →
    ev_tab e = m_table o' → ev_old e = Some ro → ev_new e = Some rn → col ro c ≠ col rn c →
    ∃ c, ref_val E e ROld c ≠ ref_val E e RNew c ∧
      ∀ tr', tr' ∈ l → t_tab tr' = m_table o' → t_ev tr' = EvUpd → c ∈ t_fields tr'.
  Proof.
    intros Ho' Htc Het Eo En Hne. exists c. split.
    - erewrite (ref_old e), (ref_new e) by (eauto using tracked_not_pk). done.
    - intros. by eapply tracked_fields.
  Qed.

  Lemma obs_forward fk cs r0 r1 :
    dep_rel dp = RelForward fk → (∀ c, c ∈ cs → tracked S o c) →
    getrow d1 (m_table m) k = Some r1 → col r0 fk = col r1 fk →
    dep_view S m d1 k r1 dp cs ≠ dep_view S m d k r0 dp cs →
    ∃ e, e ∈ evs ∧ due E d1 e (marker_of m k).
  Proof.
    intros Hr Hcs Hr1 Hfk Hne. pose proof dep_o_in as Ho. pose proof dep_wf as Wd.
    specialize (Wd _ Hfo). rewrite Hr in Wd.
    unfold dep_view in Hne. rewrite Hfo, Hr, Hfk in Hne. destruct (col r1 fk) as [|j|] eqn:Hj; [done| |done].
    assert (Hne' : cols_of cs <$> getrow d1 (m_table o) j ≠ cols_of cs <$> getrow d (m_table o) j) by congruence.
    assert (Hg : getrow d1 (m_table o) j ≠ getrow d (m_table o) j) by congruence.
    destruct (applied_changed _ _ _ _ _ _ Ap Hg) as (Ht & e & He & Hek & Het & Eo & En).
    exists e. split; [done|]. rewrite <- Ht in Het, Eo, En.
    assert (Hsel : VInt k ∈ select_col E d1 (m_table m) (m_pk m) fk (VInt j)).
    { apply select_col_spec. exists k, r1. split; [done|]. rewrite (pk_table m) by done. unfold cell.
      rewrite (decide_True (P := m_pk m = m_pk m)) by done. rewrite decide_False, Hj.
      - simpl. by rewrite bool_decide_true.
      - rewrite <- (pk_table m) by done. by apply column_not_pk. }
    destruct (ev_cases e) as [(r & Kd & Eo' & En')|[(ro & rn & Kd & Eo' & En')|(ro & Kd & Eo' & En')]].
    - eapply (due_intro _ _ _ (model_trigger o (m_ct m) (dep_skip dp) EvIns _) (AMarkSel (m_ct m) (m_table m) (m_pk m) fk RNew (m_pk o))).
      + apply dep_gen. unfold cb_dep_triggers. rewrite Hr. right. left.
      + by left.
      + done.
      + done.
      + simpl. apply elem_of_list_fmap. exists (VInt k). split; [done|]. rewrite <- (pk_table o) by done.
        erewrite (ref_new_pk e) by eauto. done.
      + intros cf [=].
      + done.
    - eapply (due_intro _ _ _ (model_trigger o (m_ct m) (dep_skip dp) EvUpd _) (AMarkSel (m_ct m) (m_table m) (m_pk m) fk RNew (m_pk o))).
      + apply dep_gen. unfold cb_dep_triggers. rewrite Hr. left.
      + by left.
      + done.
      + done.
      + simpl. apply elem_of_list_fmap. exists (VInt k). split; [done|]. rewrite <- (pk_table o) by done.
        erewrite (ref_new_pk e) by eauto. done.
      + intros cf [=].
      + intros _. rewrite En, Eo, En', Eo' in Hne'. simpl in Hne'.
        destruct (cols_of_ne cs ro rn) as (c & Hc & Hcc); [congruence|]. eapply (upd_changed o); eauto.
    - eapply (due_intro _ _ _ (model_trigger o (m_ct m) (dep_skip dp) EvDel _) (AMarkSel (m_ct m) (m_table m) (m_pk m) fk ROld (m_pk o))).
      + apply dep_gen. unfold cb_dep_triggers. rewrite Hr. right. right. left.
      + by left.
      + done.
      + done.
      + simpl. apply elem_of_list_fmap. exists (VInt k). split; [done|]. rewrite <- (pk_table o) by done.
        erewrite (ref_old_pk e) by eauto. done.
      + intros cf [=].
      + done.
  Qed.

  Lemma obs_backward fk cs r0 r1 :
    dep_rel dp = RelBackward fk → (∀ c, c ∈ cs → tracked S o c) → tracked S o fk →
    dep_view S m d1 k r1 dp cs ≠ dep_view S m d k r0 dp cs →
    ∃ e, e ∈ evs ∧ due E d1 e (marker_of m k).
  Proof.
    intros Hr Hcs Htfk Hne. pose proof dep_o_in as Ho.
    unfold dep_view in Hne. rewrite Hfo, Hr in Hne.
    set (F := λ r' : row, if decide (col r' fk = VInt k) then Some (cols_of cs r') else None) in *.
    destruct (gmap_ne (omap F (tab d1 (m_table o))) (omap F (tab d (m_table o)))) as (j & Hj); [congruence|].
    rewrite !lookup_omap in Hj. fold (getrow d1 (m_table o) j) (getrow d (m_table o) j) in Hj.
    assert (Hg : getrow d1 (m_table o) j ≠ getrow d (m_table o) j) by congruence.
    destruct (applied_changed _ _ _ _ _ _ Ap Hg) as (Ht & e & He & Hek & Het & Eo & En).
    exists e. split; [done|]. rewrite <- Ht in Het, Eo, En. rewrite Eo, En in Hj.
    assert (Hpk : fk ≠ e_pk E (m_table o)) by by apply tracked_not_pk.
    assert (Hsel : ∀ rn, ev_new e = Some rn → col rn fk = VInt k →
       marker_of m k ∈ act_marks E d1 e (AMarkSel (m_ct m) (m_table o) fk (m_pk o) RNew (m_pk o))).
    { intros rn En' Hfk. simpl. apply elem_of_list_fmap. exists (VInt k). split; [done|].
      rewrite <- (pk_table o) by done. erewrite (ref_new_pk e) by eauto. apply select_col_spec.
      exists j, rn. split; [congruence|]. unfold cell. rewrite decide_True by done. rewrite decide_False by done.
      simpl. rewrite bool_decide_true by done. done. }
    assert (Hold : ∀ ro, ev_old e = Some ro → col ro fk = VInt k →
       marker_of m k ∈ act_marks E d1 e (AMark (m_ct m) ROld fk)).
    { intros ro Eo' Hfk. simpl. erewrite (ref_old e) by eauto. rewrite Hfk. by left. }
    destruct (ev_cases e) as [(r & Kd & Eo' & En')|[(ro & rn & Kd & Eo' & En')|(ro & Kd & Eo' & En')]];
      rewrite Eo', En' in Hj; simpl in Hj; unfold F in Hj.
    - destruct (decide (col r fk = VInt k)) as [Hfk|]; [|done].
      eapply (due_intro _ _ _ (model_trigger o (m_ct m) (dep_skip dp) EvIns _) _).
      + apply dep_gen. unfold cb_dep_triggers. rewrite Hr. right. left.
      + by left.
      + done.
      + done.
      + by eapply Hsel.
      + intros cf [=].
      + done.
    - assert (Hchg : ∃ c, ref_val E e ROld c ≠ ref_val E e RNew c ∧
         ∀ tr', tr' ∈ l → t_tab tr' = m_table o → t_ev tr' = EvUpd → c ∈ t_fields tr').
      { destruct (decide (col ro fk = col rn fk)) as [Heq|Hneq].
        - rewrite Heq in Hj. case_decide; [|done].
          destruct (cols_of_ne cs ro rn) as (c & Hc & Hcc); [congruence|]. eapply (upd_changed o e ro rn c); eauto.
        - eapply (upd_changed o e ro rn fk); eauto. }
      destruct (decide (col rn fk = VInt k)) as [Hfk|Hfk].
      + eapply (due_intro _ _ _ (model_trigger o (m_ct m) (dep_skip dp) EvUpd _) _).
        * apply dep_gen. unfold cb_dep_triggers. rewrite Hr. left.
        * by left.
        * done.
        * done.
        * by eapply Hsel.
        * intros cf [=].
        * done.
      + destruct (decide (col ro fk = VInt k)) as [Hfk'|]; [|done].
        eapply (due_intro _ _ _ (model_trigger o (m_ct m) (dep_skip dp) EvUpd _) _).
        * apply dep_gen. unfold cb_dep_triggers. rewrite Hr. left.
        * right. by left.
        * done.
        * done.
        * by eapply Hold.
        * intros cf [=].
        * done.
    - destruct (decide (col ro fk = VInt k)) as [Hfk|]; [|done].
      eapply (due_intro _ _ _ (model_trigger o (m_ct m) (dep_skip dp) EvDel _) _).
      + apply dep_gen. unfold cb_dep_triggers. rewrite Hr. right. right. left.
      + by left.
      + done.
      + done.
      + by eapply Hold.
      + intros cf [=].
      + done.
  Qed.

  Lemma obs_generic ctc oidc cs r0 r1 :
    dep_rel dp = RelGenForward ctc oidc → (∀ c, c ∈ cs → tracked S o c) → tracked S o ctc → tracked S o oidc →
    dep_view S m d1 k r1 dp cs ≠ dep_view S m d k r0 dp cs →
    ∃ e, e ∈ evs ∧ due E d1 e (marker_of m k).
  Proof.
    intros Hr Hcs Htct Htoid Hne. pose proof dep_o_in as Ho.
    unfold dep_view in Hne. rewrite Hfo, Hr in Hne.
    set (F := λ r' : row, if decide (col r' ctc = VInt (m_ct m) ∧ to_text (col r' oidc) = Some (pretty k)) then Some (cols_of cs r') else None) in *.
    destruct (gmap_ne (omap F (tab d1 (m_table o))) (omap F (tab d (m_table o)))) as (j & Hj); [congruence|].
    rewrite !lookup_omap in Hj. fold (getrow d1 (m_table o) j) (getrow d (m_table o) j) in Hj.
    assert (Hg : getrow d1 (m_table o) j ≠ getrow d (m_table o) j) by congruence.
    destruct (applied_changed _ _ _ _ _ _ Ap Hg) as (Ht & e & He & Hek & Het & Eo & En).
    exists e. split; [done|]. rewrite <- Ht in Het, Eo, En. rewrite Eo, En in Hj.
    assert (Hpk1 : ctc ≠ e_pk E (m_table o)) by by apply tracked_not_pk.
    assert (Hpk2 : oidc ≠ e_pk E (m_table o)) by by apply tracked_not_pk.
    destruct (ev_cases e) as [(r & Kd & Eo' & En')|[(ro & rn & Kd & Eo' & En')|(ro & Kd & Eo' & En')]];
      rewrite Eo', En' in Hj; simpl in Hj; unfold F in Hj.
    - destruct (decide (col r ctc = VInt (m_ct m) ∧ to_text (col r oidc) = Some (pretty k))) as [[Hct Hoid]|]; [|done].
      eapply (due_intro _ _ _ (gen_trigger o ctc (m_ct m) EvIns _) _).
      + apply dep_gen. unfold cb_dep_triggers. rewrite Hr. right. left.
      + by left.
      + done.
      + done.
      + simpl. erewrite (ref_new e) by eauto. rewrite Hoid. by left.
      + intros cf [= <-]. simpl. by erewrite (ref_new e) by eauto.
      + done.
    - assert (Hchg : ∃ c, ref_val E e ROld c ≠ ref_val E e RNew c ∧
         ∀ tr', tr' ∈ l → t_tab tr' = m_table o → t_ev tr' = EvUpd → c ∈ t_fields tr').
      { destruct (decide (col ro ctc = col rn ctc)) as [Heq|Hneq]; [|eapply (upd_changed o e ro rn ctc); eauto].
        destruct (decide (col ro oidc = col rn oidc)) as [Heq'|Hneq]; [|eapply (upd_changed o e ro rn oidc); eauto].
        rewrite Heq, Heq' in Hj. case_decide; [|done].
        destruct (cols_of_ne cs ro rn) as (c & Hc & Hcc); [congruence|]. eapply (upd_changed o e ro rn c); eauto. }
      destruct (decide (col rn ctc = VInt (m_ct m) ∧ to_text (col rn oidc) = Some (pretty k))) as [[Hct Hoid]|Hn].
      + eapply (due_intro _ _ _ (gen_trigger o ctc (m_ct m) EvUpd _) (AMark (m_ct m) RNew oidc)).
        * apply dep_gen. unfold cb_dep_triggers. rewrite Hr. left.
        * by left.
        * done.
        * done.
        * simpl. erewrite (ref_new e) by eauto. rewrite Hoid. by left.
        * intros cf [= <-]. simpl. right. by erewrite (ref_new e) by eauto.
        * done.
      + destruct (decide (col ro ctc = VInt (m_ct m) ∧ to_text (col ro oidc) = Some (pretty k))) as [[Hct Hoid]|]; [|done].
        eapply (due_intro _ _ _ (gen_trigger o ctc (m_ct m) EvUpd _) (AMark (m_ct m) ROld oidc)).
        * apply dep_gen. unfold cb_dep_triggers. rewrite Hr. left.
        * right. by left.
        * done.
        * done.
        * simpl. erewrite (ref_old e) by eauto. rewrite Hoid. by left.
        * intros cf [= <-]. simpl. left. by erewrite (ref_old e) by eauto.
        * done.
    - destruct (decide (col ro ctc = VInt (m_ct m) ∧ to_text (col ro oidc) = Some (pretty k))) as [[Hct Hoid]|]; [|done].
      eapply (due_intro _ _ _ (gen_trigger o ctc (m_ct m) EvDel _) _).
      + apply dep_gen. unfold cb_dep_triggers. rewrite Hr. right. right. left.
      + by left.
      + done.
      + done.
      + simpl. erewrite (ref_old e) by eauto. rewrite Hoid. by left.
      + intros cf [= <-]. simpl. by erewrite (ref_old e) by eauto.
      + done.
  Qed.

  Lemma obs_m2m lt c rc cs r0 r1 :
    dep_rel dp = RelM2M lt c rc → (∀ c, c ∈ cs → tracked S o c) →
    links_ok S d → links_ok S d1 →
    dep_view S m d1 k r1 dp cs ≠ dep_view S m d k r0 dp cs →
    ∃ e, e ∈ evs ∧ due E d1 e (marker_of m k).
  Proof.
    intros Hr Hcs L0 L1 Hne. pose proof dep_o_in as Ho. pose proof dep_in_field as Hdf. pose proof dep_wf as Wd.
    specialize (Wd _ Hfo). rewrite Hr in Wd. destruct Wd as (Wt & Wc & Wrc).
    pose proof (pk_link _ Wt) as Hpk.
    unfold dep_view in Hne. rewrite Hfo, Hr in Hne.
    set (F := λ d (l : row), if decide (col l c = VInt k)
             then Some (col l rc, match col l rc with VInt j => cols_of cs <$> getrow d (m_table o) j | _ => None end)
             else None) in *.
    destruct (gmap_ne (omap (F d1) (tab d1 lt)) (omap (F d) (tab d lt))) as (i & Hi); [unfold F; congruence|].
    rewrite !lookup_omap in Hi. fold (getrow d1 lt i) (getrow d lt i) in Hi.
    destruct (decide (getrow d1 lt i = getrow d lt i)) as [Hsame|Hg].
    - (* the link row is the same: the row at the other end was updated *)
      rewrite Hsame in Hi. destruct (getrow d lt i) as [lr|] eqn:Hlr; [|done]. simpl in Hi. unfold F in Hi.
      destruct (decide (col lr c = VInt k)) as [Hck|]; [|done].
      destruct (col lr rc) as [|j|] eqn:Hrj; [done| |done].
      assert (Hne' : cols_of cs <$> getrow d1 (m_table o) j ≠ cols_of cs <$> getrow d (m_table o) j) by congruence.
      assert (Hg : getrow d1 (m_table o) j ≠ getrow d (m_table o) j) by congruence.
      destruct (applied_changed _ _ _ _ _ _ Ap Hg) as (Ht & e & He & Hek & Het & Eo & En).
      exists e. split; [done|]. rewrite <- Ht in Het, Eo, En.
      pose proof (L0 _ _ _ _ _ _ _ Hm Hf Hdf Hr Hfo _ _ Hlr _ Hrj) as [ro Hro].
      pose proof (L1 _ _ _ _ _ _ _ Hm Hf Hdf Hr Hfo _ _ Hsame _ Hrj) as [rn Hrn].
      rewrite Eo in Hro. rewrite En in Hrn.
      assert (Kd : ev_kind e = EvUpd).
      { destruct (ev_cases e) as [(?&?&?&?)|[(?&?&?&?&?)|(?&?&?&?)]]; congruence. }
      eapply (due_intro _ _ _ (model_trigger o (m_ct m) (dep_skip dp) EvUpd _) (AMarkSel (m_ct m) lt c rc RNew (m_pk o))).
      + apply dep_gen. unfold cb_dep_triggers. rewrite Hr. right. right. right. left.
      + by left.
      + done.
      + done.
      + simpl. apply elem_of_list_fmap. exists (VInt k). split; [done|]. rewrite <- (pk_table o) by done.
        erewrite (ref_new_pk e) by eauto. apply select_col_spec. exists i, lr. split; [done|].
        rewrite Hpk. unfold cell. rewrite !decide_False by done. rewrite Hck, Hrj. simpl.
        by rewrite bool_decide_true.
      + intros cf [=].
      + intros _. rewrite En, Eo, Hro, Hrn in Hne'. simpl in Hne'.
        destruct (cols_of_ne cs ro rn) as (c0 & Hc & Hcc); [congruence|]. eapply (upd_changed o e ro rn c0); eauto.
    - destruct (applied_changed _ _ _ _ _ _ Ap Hg) as (Ht & e & He & Hek & Het & Eo & En).
      exists e. split; [done|]. rewrite <- Ht in Het, Eo, En. rewrite Eo, En in Hi.
      assert (Hoth : ∀ j, getrow d1 (m_table o) j = getrow d (m_table o) j).
      { intros j. apply (ap_other _ _ _ _ Ap). rewrite <- Ht. intros Heq. by eapply Wt; [exact Ho|]. }
      assert (HF : ∀ x, F d1 x = F d x).
      { intros x. unfold F. case_decide; [|done]. destruct (col x rc); [done| |done]. by rewrite Hoth. }
      assert (Hold : ∀ ro, ev_old e = Some ro → col ro c = VInt k → marker_of m k ∈ act_marks E d1 e (AMark (m_ct m) ROld c)).
      { intros ro Eo' Hck. simpl. erewrite (ref_old e) by (eauto; congruence). rewrite Hck. by left. }
      assert (Hnew : ∀ rn, ev_new e = Some rn → col rn c = VInt k → marker_of m k ∈ act_marks E d1 e (AMark (m_ct m) RNew c)).
      { intros ro Eo' Hck. simpl. erewrite (ref_new e) by (eauto; congruence). rewrite Hck. by left. }
      destruct (ev_cases e) as [(r & Kd & Eo' & En')|[(ro & rn & Kd & Eo' & En')|(ro & Kd & Eo' & En')]];
        rewrite Eo', En' in Hi; simpl in Hi; rewrite ?HF in Hi.
      + unfold F in Hi. destruct (decide (col r c = VInt k)); [|done].
        eapply (due_intro _ _ _ (m2m_trigger lt c rc (m_ct m) EvIns _) (AMark (m_ct m) RNew c)).
        * apply dep_gen. unfold cb_dep_triggers. rewrite Hr. right. left.
        * by left.
        * done.
        * done.
        * by eapply Hnew.
        * intros cf [=].
        * done.
      + assert (Hchg : ∃ c, ref_val E e ROld c ≠ ref_val E e RNew c ∧
           ∀ tr', tr' ∈ l → t_tab tr' = lt → t_ev tr' = EvUpd → c ∈ t_fields tr').
        { assert (Hfl : ∀ tr', tr' ∈ l → t_tab tr' = lt → t_ev tr' = EvUpd → c ∈ t_fields tr' ∧ rc ∈ t_fields tr').
          { intros tr'. apply (link_fields Hlk m f dp o); done. }
          destruct (decide (col ro c = col rn c)) as [Heq|Hneq].
          - destruct (decide (col ro rc = col rn rc)) as [Heq'|Hneq'].
            + exfalso. apply Hi. unfold F. by rewrite Heq, Heq'.
            + exists rc. erewrite (ref_old e), (ref_new e) by (eauto; congruence). split; [done|]. naive_solver.
          - exists c. erewrite (ref_old e), (ref_new e) by (eauto; congruence). split; [done|]. naive_solver. }
        destruct (decide (col rn c = VInt k)) as [Hck|Hck].
        * eapply (due_intro _ _ _ (m2m_trigger lt c rc (m_ct m) EvUpd _) (AMark (m_ct m) RNew c)).
          -- apply dep_gen. unfold cb_dep_triggers. rewrite Hr. left.
          -- by left.
          -- done.
          -- done.
          -- by eapply Hnew.
          -- intros cf [=].
          -- done.
        * unfold F in Hi. rewrite (decide_False (P := col rn c = VInt k)) in Hi by done.
          destruct (decide (col ro c = VInt k)) as [Hck'|]; [|done].
          eapply (due_intro _ _ _ (m2m_trigger lt c rc (m_ct m) EvUpd _) (AMark (m_ct m) ROld c)).
          -- apply dep_gen. unfold cb_dep_triggers. rewrite Hr. left.
          -- right. by left.
          -- done.
          -- done.
          -- by eapply Hold.
          -- intros cf [=].
          -- done.
      + unfold F in Hi. destruct (decide (col ro c = VInt k)); [|done].
        eapply (due_intro _ _ _ (m2m_trigger lt c rc (m_ct m) EvDel _) (AMark (m_ct m) ROld c)).
        * apply dep_gen. unfold cb_dep_triggers. rewrite Hr. right. right. left.
        * by left.
        * done.
        * done.
        * by eapply Hold.
        * intros cf [=].
        * done.
  Qed.
End dep.

(** ** The whole view *)
Lemma obs_via m f fn ds sk rd k t d d1 evs r0 r1 :
  m ∈ s_models S → f ∈ m_fields m → f_kind f = KCallback fn ds sk → declared_reads S m ds rd →
  links_ok S d → links_ok S d1 → applied t d d1 evs →
  getrow d (m_table m) k = Some r0 → getrow d1 (m_table m) k = Some r1 →
  cols_of (rd_own rd) r0 = cols_of (rd_own rd) r1 →
  row_view S m rd k d1 ≠ row_view S m rd k d →
  ∃ e, e ∈ evs ∧ due E d1 e (marker_of m k).
Proof.
  intros Hm Hf Hk Hdr L0 L1 Ap Hr0 Hr1 Heq Hne. unfold row_view in Hne. rewrite Hr0, Hr1 in Hne.
  assert (Hown : ∀ c, c ∈ rd_own rd → col r0 c = col r1 c).
  { intros c Hc. unfold cols_of in Heq. apply elem_of_list_lookup in Hc as [i Hi].
    assert (Hl' : (col r0 <$> rd_own rd) !! i = (col r1 <$> rd_own rd) !! i) by by rewrite Heq.
    rewrite !list_lookup_fmap, Hi in Hl'. simpl in Hl'. congruence. }
  assert (Hv : ∃ p, p ∈ rd_via rd ∧ dep_view S m d1 k r1 p.1 p.2 ≠ dep_view S m d k r0 p.1 p.2).
  { apply fmap_ne_exists. congruence. }
  destruct Hv as ([dp cs] & Hin & Hdv). simpl in Hdv.
  pose proof (dr_dep _ _ _ _ Hdr _ _ Hin) as Hdp.
  destruct (find_model S (dep_other dp)) as [o|] eqn:Hfo.
  2:{ unfold dep_view in Hdv. by rewrite Hfo in Hdv. }
  assert (Hcs : ∀ c, c ∈ cs → tracked S o c) by (intros; by eapply (dr_cols _ _ _ _ Hdr)).
  pose proof (dr_rel _ _ _ _ Hdr _ _ _ Hin Hfo) as Hrel.
  destruct (dep_rel dp) eqn:Hr.
  - eapply obs_forward with (r0 := r0); eauto.
  - eapply obs_backward; eauto.
  - eapply obs_m2m; eauto.
  - destruct Hrel. eapply obs_generic; eauto.
  - done.
Qed.
Lemma obs_view m f fn ds sk rd k :
  m ∈ s_models S → f ∈ m_fields m → f_kind f = KCallback fn ds sk → s_bulk_unsafe S = false →
  declared_reads S m ds rd →
  observed E (row_view S m rd k) (marker_of m k) (links_ok S).
Proof.
  intros Hm Hf Hk Hb Hdr t d d1 evs L0 L1 Ap Hne Hnn.
  destruct (getrow d1 (m_table m) k) as [r1|] eqn:Hr1; [|unfold row_view in Hnn; by rewrite Hr1 in Hnn].
  destruct (getrow d (m_table m) k) as [r0|] eqn:Hr0.
  2:{ eapply obs_own; eauto. intros r Hr. congruence. }
  destruct (decide (cols_of (rd_own rd) r0 = cols_of (rd_own rd) r1)) as [Heq|Hneq].
  2:{ destruct (cols_of_ne _ _ _ Hneq) as (c & Hc & Hcc). eapply obs_own; eauto.
      intros r Hr. assert (r = r0) as -> by congruence. exists c. split; [|done]. by apply (dr_own _ _ _ _ Hdr). }
  exact (obs_via m f fn ds sk rd k t d d1 evs r0 r1 Hm Hf Hk Hdr L0 L1 Ap Hr0 Hr1 Heq Hne).
Qed.
End marking.
