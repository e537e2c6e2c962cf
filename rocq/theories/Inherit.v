(** * Saving through a subclass (multi-table inheritance) or a proxy.

    Model.save_base of Django 1.8 to 2.0 (tox.ini:1-2) saves the tables of the parent classes
    first and sends the signals with the class of the instance as the sender;
    denorm/fields.py:51-53 connects its receivers for the class that declares the field,
    and denorms.py:25, 56 look at the sender's local_many_to_many. *)
From Verif Require Import Base BaseLemmas Schema TrigSet Gen Exec Orm Flush Machine Spec SpecAgg Engine GenLemmas Marking Conditions Invariant Settle Sessions Frame Hist Agg AggEngine AggOps AggDefer AggDrift SaveModes SaveRace Reach.
Open Scope list_scope.

(** The class of an instance: the models of its parent classes, root first (one parent each),
    the model whose table is its own, and whether it is a proxy of that model.  Each model
    lists the columns of its own table only; that get_alldenorms (denorms.py:66-78) meets an
    inherited field several times changes nothing (C30). *)
Record iclass := IClass { ic_parents : list model; ic_own : model; ic_proxy : bool }.
Definition ic_models (c : iclass) : list model := ic_parents c ++ [ic_own c].

(** The attributes of an instance that belong to one table. *)
Definition own_cols (m : model) (r : row) : row := filter (λ p : string * val, p.1 ∈ f_col <$> m_fields m) r.

(** Django's _save_table for one of the tables.  An UPDATE is tried first if there is a primary key, after
    calling pre_save(add=False) for the columns of the table (fields.py:56-80, 159-178,
    282-285); if it matches nothing, or with force_insert, pre_save(add=True) and INSERT.
    All functions get the whole instance [r].  The result says whether a row was updated. *)
Definition insert_table (E : env) (m : model) (pk : option Z) (r : row) (d : db) : res (db * Z * row * bool) :=
  let* q := presave_all E m true pk d r in
  let k := match pk with Some k => k | None => fresh_key (tab q.1 (m_table m)) end in
  let* d2 := exec E (m_table m) [CIns k (own_cols m q.2)] q.1 in Ok (d2, k, q.2, false).
Definition save_table (E : env) (m : model) (force : bool) (pk : option Z) (r : row) (d : db) : res (db * Z * row * bool) :=
  match pk with
  | Some k =>
      if force then insert_table E m pk r d else
      let* p := presave_all E m false pk d r in
      match getrow p.1 (m_table m) k with
      | Some _ => let* d2 := exec E (m_table m) [upd_all k (own_cols m p.2)] p.1 in Ok (d2, k, p.2, true)
      | None => insert_table E m pk p.2 p.1
      end
  | None => insert_table E m None r d
  end.
(** _save_parents: the key of the root is that of all tables; force_insert is not passed on. *)
Definition save_parents (E : env) (ps : list model) (s : db * option Z * row) : res (db * option Z * row) :=
  foldM (λ s m, let* x := save_table E m false s.1.2 s.2 s.1.1 in Ok (x.1.1.1, Some x.1.1.2, x.1.2)) s ps.
(** save_base: pre_save with the class as the sender (of a proxy denorm knows nothing), the parents'
    tables, the own table. *)
Definition save_once (E : env) (c : iclass) (force : bool) (pk : option Z) (r : row) (d : db) : res (db * Z * row * bool) :=
  let* d1 := if ic_proxy c then Ok d else m2m_pre_save E (ic_own c) pk r d in
  let* s := save_parents E (ic_parents c) (d1, pk, r) in
  save_table E (ic_own c) force s.1.2 s.2 s.1.1.
(** And post_save, denorms.py:53-63. *)
Definition save_class (E : env) (c : iclass) (force : bool) (pk : option Z) (r : row) (d : db) : res (db * Z * row) :=
  let* x := save_once E c force pk r d in
  if negb x.2 && negb (ic_proxy c) && has_m2m_denorm (ic_own c)
  then let* y := save_once E c false (Some x.1.1.2) x.1.2 x.1.1.1 in Ok y.1
  else Ok x.1.

Lemma own_cols_col m r c : c ∈ f_col <$> m_fields m → col (own_cols m r) c = col r c.
Proof.
  intros H. unfold col, own_cols. f_equal. destruct (r !! c) as [v|] eqn:Hv.
  - by apply map_filter_lookup_Some.
  - apply map_filter_lookup_None. by left.
Qed.
Lemma own_cols_id m r : (∀ c v, r !! c = Some v → c ∈ f_col <$> m_fields m) → own_cols m r = r.
Proof. intros H. unfold own_cols. apply map_filter_id. intros c v Hv. simpl. eauto. Qed.
Lemma presave_cols E m add pk fs : (∀ f, f ∈ fs → f ∈ m_fields m) → ∀ p q, foldM (presave_field E m add pk) p fs = Ok q →
  (∀ c v, p.2 !! c = Some v → c ∈ f_col <$> m_fields m) → ∀ c v, q.2 !! c = Some v → c ∈ f_col <$> m_fields m.
Proof.
  intros Hfs p q. apply (foldM_rel (λ p q : db * row, (∀ c v, p.2 !! c = Some v → c ∈ f_col <$> m_fields m) → ∀ c v, q.2 !! c = Some v → c ∈ f_col <$> m_fields m)).
  - done.
  - eauto.
  - intros x g y Hg H Hx. assert (Hin : ∀ (u : val) (c : string) (v : val), <[f_col g := u]> x.2 !! c = Some v → c ∈ f_col <$> m_fields m).
    { intros u c v. rewrite lookup_insert_Some. intros [[<- _]|[_ ?]]; [apply elem_of_list_fmap; exists g; auto|eauto]. }
    unfold presave_field in H. destruct (f_kind g).
    + by injection H as <-.
    + injection H as <-. apply Hin.
    + inv_bind H. inv_bind H. injection H as <-. apply Hin.
    + destruct add; [injection H as <-; apply Hin|]. repeat case_match; try done. injection H as <-. apply Hin.
    + injection H as <-. apply Hin.
Qed.

(** ** A class without parents *)
Section plain.
Context (b : backend) (S : schema) (rand : nat → Z) (imm : bool) (depth : nat) (E : env).
Context (Hwf : wf_schema S) (HE : mk_env b S rand imm depth = Ok E).
Lemma existing_table m k r r0 d : getrow d (m_table m) k = Some r0 → (∀ c v, r !! c = Some v → c ∈ f_col <$> m_fields m) →
  save_table E m false (Some k) r d = (let* p := presave_all E m false (Some k) d r in let* d2 := exec E (m_table m) [upd_all k p.2] p.1 in Ok (d2, k, p.2, true)).
Proof.
  intros Hr Hc. unfold save_table. destruct (presave_all E m false (Some k) d r) as [p|] eqn:Hp; [|done]. cbn [rbind].
  pose proof (presave_all_db _ _ _ _ _ _ _ Hp) as [Ht _]. unfold getrow, tab in *. rewrite Ht, Hr.
  rewrite own_cols_id; [done|]. by eapply presave_cols; [|exact Hp|].
Qed.
Lemma once_existing m k r r0 d : m ∈ s_models S → getrow d (m_table m) k = Some r0 → (∀ c v, r !! c = Some v → c ∈ f_col <$> m_fields m) →
  save_once E (IClass [] m false) false (Some k) r d = (let* p := save_existing E m k r d in Ok (p.1, k, p.2, true)).
Proof.
  intros Hm Hr Hc. unfold save_once, save_existing. cbn [ic_proxy ic_own ic_parents].
  destruct (m2m_pre_save E m (Some k) r d) as [d1|] eqn:H1; [|done]. cbn [rbind]. unfold save_parents. cbn [foldM rbind fst snd].
  pose proof (m2m_pre_save_kept b S rand imm depth E Hwf HE m _ _ _ _ Hm H1) as [K _]. specialize (K m Hm k). rewrite Hr in K.
  destruct (getrow d1 (m_table m) k) eqn:Hr1; [|done]. erewrite existing_table by done.
  destruct (presave_all E m false (Some k) d1 r) as [p|]; [|done]. cbn [rbind]. by destruct (exec E _ _ _).
Qed.
(** It is saved as Orm.v says. *)
Lemma class_plain m pk r d : m ∈ s_models S → (∀ c v, r !! c = Some v → c ∈ f_col <$> m_fields m) →
  save_class E (IClass [] m false) false pk r d = save E m pk r d.
Proof.
  intros Hm Hc. assert (Hpost : ∀ k q d2, (∀ c v, q !! c = Some v → c ∈ f_col <$> m_fields m) → is_Some (getrow d2 (m_table m) k) →
    (if has_m2m_denorm m then let* y := save_once E (IClass [] m false) false (Some k) q d2 in Ok y.1 else Ok (d2, k, q)) =
    (let* s := post_save_created E m k q d2 in Ok (s.1, k, s.2))).
  { intros k q d2 Hq [r2 Hr2]. unfold post_save_created. destruct (has_m2m_denorm m); [|done]. erewrite once_existing by done. by destruct (save_existing E m k q d2). }
  destruct pk as [k|]; unfold save_class.
  - unfold save. destruct (getrow d (m_table m) k) as [r0|] eqn:Hr.
    + erewrite once_existing by done. by destruct (save_existing E m k r d).
    + unfold save_once. cbn [ic_proxy ic_own ic_parents]. destruct (m2m_pre_save E m (Some k) r d) as [d1|] eqn:H1; [|done]. cbn [rbind].
      unfold save_parents. cbn [foldM rbind fst snd]. unfold save_table.
      destruct (presave_all E m false (Some k) d1 r) as [p|] eqn:Hp; [|done]. cbn [rbind].
      pose proof (m2m_pre_save_kept b S rand imm depth E Hwf HE m _ _ _ _ Hm H1) as [K _]. specialize (K m Hm k). rewrite Hr in K.
      pose proof (presave_all_db _ _ _ _ _ _ _ Hp) as [Ht _]. assert (Hn : getrow p.1 (m_table m) k = None).
      { unfold getrow, tab in *. rewrite Ht. by destruct (_ !! k) in K |- *. }
      rewrite Hn. unfold insert_table. destruct (presave_all E m true (Some k) p.1 p.2) as [q|] eqn:Hq; [|done]. cbn [rbind].
      assert (Hqc : ∀ c v, q.2 !! c = Some v → c ∈ f_col <$> m_fields m) by (eapply (presave_cols E m true (Some k) (m_fields m) ltac:(done) (p.1, p.2)); [exact Hq|]; eapply (presave_cols E m false (Some k) (m_fields m) ltac:(done) (d1, r) p); done).
      rewrite own_cols_id by done. destruct (exec E _ _ q.1) as [d2|] eqn:Hx; [|done]. cbn [rbind fst snd negb andb].
      by apply Hpost; [|eapply ins_there].
  - unfold save, save_once. cbn [ic_proxy ic_own ic_parents m2m_pre_save rbind]. unfold save_parents. cbn [foldM rbind fst snd]. unfold save_table, insert_table.
    destruct (presave_all E m true None d r) as [q|] eqn:Hq; [|done]. cbn [rbind].
    assert (Hqc : ∀ c v, q.2 !! c = Some v → c ∈ f_col <$> m_fields m) by (by eapply presave_cols; [|exact Hq|]).
    rewrite own_cols_id by done. destruct (exec E _ _ q.1) as [d2|] eqn:Hx; [|done]. cbn [rbind fst snd negb andb].
    by apply Hpost; [|eapply ins_there].
Qed.
(** A proxy differs in the links only. *)
Lemma m2m_pre_save_nodenorm m pk r d : has_m2m_denorm m = false → m2m_pre_save E m pk r d = Ok d.
Proof.
  intros H. unfold m2m_pre_save. destruct pk as [k|]; [|done]. case_decide; [done|]. unfold has_m2m_denorm in H.
  induction (m_m2m m) as [|mm l IH]; [done|]. simpl in H. apply orb_false_iff in H as [H1 H2]. rewrite foldM_cons. destruct (mm_denorm mm); [done|]. cbn [rbind]. by apply IH.
Qed.
Lemma class_proxy ps m force pk r d : has_m2m_denorm m = false → save_class E (IClass ps m true) force pk r d = save_class E (IClass ps m false) force pk r d.
Proof.
  intros H. unfold save_class, save_once. cbn [ic_proxy ic_own ic_parents]. rewrite m2m_pre_save_nodenorm by done. rewrite H.
  cbn [rbind]. destruct (save_parents E ps (d, pk, r)) as [s|]; [|done]. cbn [rbind]. destruct (save_table E m force s.1.2 s.2 s.1.1) as [x|]; [|done]. cbn [rbind]. by rewrite !andb_false_r.
Qed.
(** The model without its ManyToManyFields: what a proxy of [m] saves. *)
Definition no_links (m : model) : model :=
  Model (m_name m) (m_app m) (m_table m) (m_pk m) (m_ct m) (m_proxy m) (m_swapped m) (m_fields m) [] (m_always_skip m) (m_truthy m) (m_visible m).
Lemma no_links_presave m add pk r d : presave_all E (no_links m) add pk d r = presave_all E m add pk d r.
Proof. unfold presave_all. cbn [no_links m_fields]. apply foldM_ext. intros x f. unfold presave_field. by destruct (f_kind f). Qed.
Lemma class_proxy_no_links ps m force pk r d : save_class E (IClass ps m true) force pk r d = save_class E (IClass ps (no_links m) false) force pk r d.
Proof.
  rewrite <- (class_proxy ps (no_links m)) by done. unfold save_class, save_once. cbn [ic_proxy ic_own ic_parents].
  assert (H : ∀ force pk r d, save_table E (no_links m) force pk r d = save_table E m force pk r d).
  { assert (I : ∀ pk r d, insert_table E (no_links m) pk r d = insert_table E m pk r d) by (intros; unfold insert_table; by rewrite no_links_presave).
    intros force' [k|] r' d'; simpl; rewrite !I, ?no_links_presave; [|done]. destruct force'; [done|].
    destruct (presave_all E m false (Some k) d' r') as [p|]; [|done]. cbn [rbind]. by rewrite I. }
  cbn [rbind]. destruct (save_parents E ps (d, pk, r)) as [s|]; [|done]. cbn [rbind]. rewrite H. destruct (save_table E m force s.1.2 s.2 s.1.1) as [x|]; [|done]. cbn [rbind]. by rewrite !andb_false_r.
Qed.
End plain.

(** ** Made of statements *)
Section steps.
  Context (E : env) (R : db → db → Prop).
  Context (Rtrans : ∀ x y z, R x y → R y z → R x z).
  Context (Rtabs : ∀ d d', d_tabs d' = d_tabs d → d_dirty d' = d_dirty d → R d d').
  Context (Rexec : ∀ t cs d d', Forall ch_quiet cs → (e_be E = Postgres → NoDup (ch_key <$> cs)) → exec E t cs d = Ok d' → R d d').
  Lemma insert_table_R m pk r d x : insert_table E m pk r d = Ok x → R d x.1.1.1.
  Proof.
    unfold insert_table. intros H. inv_bind H. inv_bind H. injection H as <-. cbn [fst snd]. apply presave_all_db in H0 as [T D].
    eapply Rtrans; [by eapply Rtabs|]. by eapply (exec1_R E R Rexec); [|exact H1].
  Qed.
  Lemma save_table_R m force pk r d x : save_table E m force pk r d = Ok x → R d x.1.1.1.
  Proof.
    unfold save_table. destruct pk as [k|]; [|apply insert_table_R]. destruct force; [apply insert_table_R|]. intros H. inv_bind H.
    pose proof (presave_all_db _ _ _ _ _ _ _ H0) as [T D]. eapply Rtrans; [by eapply Rtabs|]. destruct (getrow a.1 (m_table m) k); [|by eapply insert_table_R].
    inv_bind H. injection H as <-. cbn [fst snd]. eapply (exec1_R E R Rexec); [|exact H1]. simpl. by intros ??? [= <-].
  Qed.
  Lemma save_parents_R ps s s' : save_parents E ps s = Ok s' → R s.1.1 s'.1.1.
  Proof.
    unfold save_parents. apply (foldM_rel (λ s s' : db * option Z * row, R s.1.1 s'.1.1)); [intros; by apply Rtabs|eauto|].
    intros x m y _ H. inv_bind H. injection H as <-. cbn [fst snd]. by eapply save_table_R.
  Qed.
  Lemma save_once_R c force pk r d x : save_once E c force pk r d = Ok x → R d x.1.1.1.
  Proof.
    unfold save_once. intros H. inv_bind H. inv_bind H. eapply Rtrans; [|eapply Rtrans; [by eapply (save_parents_R _ (a, pk, r))|by eapply save_table_R]].
    destruct (ic_proxy c); [injection H0 as <-; by apply Rtabs|by eapply m2m_pre_save_R].
  Qed.
  Lemma save_class_R c force pk r d x : save_class E c force pk r d = Ok x → R d x.1.1.
  Proof.
    unfold save_class. intros H. inv_bind H. apply save_once_R in H0. destruct (_ && _); [|by injection H as <-].
    inv_bind H. injection H as <-. apply save_once_R in H1. eauto.
  Qed.
End steps.

(** ** Aggregates *)
Section agg.
Context (b : backend) (S : schema) (rand : nat → Z) (imm : bool) (depth : nat) (E : env) (l : list trigger).
Context (Hwf : wf_schema S) (HE : mk_env b S rand imm depth = Ok E) (Hl : gen_all S = Ok l) (Hnames : names_ok b l).
Context (m : model) (f : field) (a : agg) (rel : model) (Haf : agg_field S m f a rel) (k : Z).
Lemma f_in : f_col f ∈ f_col <$> m_fields m.
Proof. apply elem_of_list_fmap. exists f. split; [done|apply Haf]. Qed.
Lemma insert_table_drift m' pk r d x : insert_table E m' pk r d = Ok x → drift m f a rel k d x.1.1.1.
Proof.
  unfold insert_table. intros H. inv_bind H. inv_bind H. injection H as <-. cbn [fst snd]. apply presave_all_db in H0 as [T D].
  eapply drift_trans; [by apply (drift_tabs m f a rel k d a0.1)|]. by eapply exec1_drift; [..|exact H1].
Qed.
Lemma save_table_drift m' force pk r d x : m' ∈ s_models S → save_table E m' force pk r d = Ok x → drift m f a rel k d x.1.1.1.
Proof.
  intros Hm'. unfold save_table. destruct pk as [k'|]; [|apply insert_table_drift]. destruct force; [apply insert_table_drift|]. intros H. inv_bind H.
  pose proof (presave_all_db _ _ _ _ _ _ _ H0) as [T D]. eapply drift_trans; [by apply (drift_tabs m f a rel k d a0.1)|].
  destruct (getrow a0.1 (m_table m') k'); [|by eapply insert_table_drift]. inv_bind H. injection H as <-. cbn [fst snd].
  eapply exec1_drift; [done..| |intros HT|exact H1].
  - simpl. by intros ??? [= <-].
  - apply (table_inj S Hwf) in HT as ->; [|done|apply Haf]. simpl. intros -> o p Ho [= <-]. simpl. rewrite own_cols_col by apply f_in.
    apply (presave_agg S E Hwf m f a rel (agg_field_link _ _ _ _ _ Haf)) in H0 as (k0 & r0 & [= <-] & Hr0 & ->). unfold getrow, tab in *. rewrite T in Ho. congruence.
Qed.
Lemma save_parents_drift ps s s' : (∀ m', m' ∈ ps → m' ∈ s_models S) → save_parents E ps s = Ok s' → drift m f a rel k s.1.1 s'.1.1.
Proof.
  intros Hps. unfold save_parents. apply (foldM_rel (λ s s' : db * option Z * row, drift m f a rel k s.1.1 s'.1.1)); [intros; apply drift_refl|intros ???; apply drift_trans|].
  intros x m' y Hm' H. inv_bind H. injection H as <-. cbn [fst snd]. by eapply save_table_drift; [apply Hps|].
Qed.
Lemma save_once_drift c force pk r d x : (∀ m', m' ∈ ic_models c → m' ∈ s_models S) → save_once E c force pk r d = Ok x → drift m f a rel k d x.1.1.1.
Proof.
  intros Hc. unfold save_once. intros H. inv_bind H. inv_bind H. eapply drift_trans; [|eapply drift_trans; [eapply (save_parents_drift _ (a0, pk, r)); [|exact H1]|eapply save_table_drift; [|exact H]]].
  - destruct (ic_proxy c); [injection H0 as <-; apply drift_refl|]. eapply m2m_pre_save_drift; [done..| |exact H0]. apply Hc. unfold ic_models. set_solver.
  - intros m' Hm'. apply Hc. unfold ic_models. set_solver.
  - apply Hc. unfold ic_models. set_solver.
Qed.
Lemma save_class_drift c force pk r d x : (∀ m', m' ∈ ic_models c → m' ∈ s_models S) → save_class E c force pk r d = Ok x → drift m f a rel k d x.1.1.
Proof.
  intros Hc. unfold save_class. intros H. inv_bind H. apply save_once_drift in H0; [|done]. destruct (_ && _); [|by injection H as <-].
  inv_bind H. injection H as <-. apply save_once_drift in H1; [|done]. by eapply drift_trans.
Qed.
End agg.

Section exact.
Context (b : backend) (S : schema) (rand : nat → Z) (depth : nat) (E : env) (l : list trigger).
Context (Hwf : wf_schema S) (HE : mk_env b S rand true depth = Ok E) (Hl : gen_all S = Ok l) (Hnames : names_ok b l).
Context (m : model) (f : field) (a : agg) (rel : model) (Haf : agg_field S m f a rel).
Local Lemma Hset : settling E m f a rel. Proof. by eapply field_settling. Qed.
Local Lemma Hal : agg_link S m f a rel. Proof. by apply agg_field_link. Qed.
Lemma insert_table_exact m' pk r d x : m' ∈ s_models S → insert_table E m' pk r d = Ok x → exact m f a rel d → exact m f a rel x.1.1.1.
Proof.
  pose proof Hal as Hal. pose proof Hset as Hset. intros Hm'. unfold insert_table. intros H Hx. inv_bind H. inv_bind H. injection H as <-. cbn [fst snd].
  pose proof (presave_all_db _ _ _ _ _ _ _ H0) as [T D]. eapply (exec1_exact b S rand depth E l Hwf HE Hl m f a rel Hal Hset); [| |exact H1|by eapply exact_tabs]; [|done].
  intros HT. apply (table_inj S Hwf) in HT as ->; [|done|apply Haf]. rewrite own_cols_col by by eapply f_in.
  by apply (presave_agg S E Hwf m f a rel Hal) in H0.
Qed.
Lemma save_table_exact m' force pk r d x : m' ∈ s_models S → save_table E m' force pk r d = Ok x → exact m f a rel d → exact m f a rel x.1.1.1.
Proof.
  pose proof Hal as Hal. pose proof Hset as Hset. intros Hm'. unfold save_table. destruct pk as [k'|]; [|by apply insert_table_exact]. destruct force; [by apply insert_table_exact|]. intros H Hx. inv_bind H.
  pose proof (presave_all_db _ _ _ _ _ _ _ H0) as [T D]. apply (exact_tabs m f a rel d a0.1 T) in Hx.
  destruct (getrow a0.1 (m_table m') k'); [|by eapply insert_table_exact]. inv_bind H. injection H as <-. cbn [fst snd].
  eapply (exec1_exact b S rand depth E l Hwf HE Hl m f a rel Hal Hset); [intros HT| |exact H1|done].
  - apply (table_inj S Hwf) in HT as ->; [|done|apply Haf]. simpl. intros o p Ho [= <-]. simpl. rewrite own_cols_col by by eapply f_in.
    apply (presave_agg S E Hwf m f a rel Hal) in H0 as (k0 & r0 & [= <-] & Hr0 & ->). unfold getrow, tab in *. rewrite T in Ho. congruence.
  - simpl. by intros ??? [= <-].
Qed.
Lemma save_parents_exact ps s s' : (∀ m', m' ∈ ps → m' ∈ s_models S) → save_parents E ps s = Ok s' → exact m f a rel s.1.1 → exact m f a rel s'.1.1.
Proof.
  intros Hps. unfold save_parents. apply (foldM_rel (λ s s' : db * option Z * row, exact m f a rel s.1.1 → exact m f a rel s'.1.1)); [done|eauto|].
  intros x m' y Hm' H. inv_bind H. injection H as <-. cbn [fst snd]. by eapply save_table_exact; [apply Hps|].
Qed.
Lemma save_once_exact c force pk r d x : (∀ m', m' ∈ ic_models c → m' ∈ s_models S) → save_once E c force pk r d = Ok x → exact m f a rel d → exact m f a rel x.1.1.1.
Proof.
  pose proof Hal as Hal. pose proof Hset as Hset. intros Hc. unfold save_once. intros H Hx. inv_bind H. inv_bind H.
  eapply save_table_exact; [|exact H|eapply (save_parents_exact _ (a0, pk, r)); [|exact H1|]].
  - apply Hc. unfold ic_models. set_solver.
  - intros m' Hm'. apply Hc. unfold ic_models. set_solver.
  - cbn [fst snd]. destruct (ic_proxy c); [by injection H0 as <-|]. eapply m2m_pre_save_exact; [done..| |exact H0|done]. apply Hc. unfold ic_models. set_solver.
Qed.
Lemma save_class_exact c force pk r d x : (∀ m', m' ∈ ic_models c → m' ∈ s_models S) → save_class E c force pk r d = Ok x → exact m f a rel d → exact m f a rel x.1.1.
Proof.
  intros Hc. unfold save_class. intros H Hx. inv_bind H. apply save_once_exact in H0; [|done..]. destruct (_ && _); [|by injection H as <-].
  inv_bind H. injection H as <-. by apply save_once_exact in H1.
Qed.
End exact.

(** ** A child with an aggregate of its own *)
Section raises.
Context (S : schema) (E : env) (Hwf : wf_schema S) (m : model) (f : field) (a : agg) (rel : model) (Haf : agg_field S m f a rel).
Lemma exec1_none t ch d d' k : t ≠ m_table m → ch_quiet ch → exec E t [ch] d = Ok d' → getrow d (m_table m) k = None → getrow d' (m_table m) k = None.
Proof.
  intros Ht Hq H Hn. apply run_stmt_single in H. unfold run_batch in H. inv_bind H. destruct a0 as [d1 evs]. simpl in H.
  pose proof (fires_alike E evs d1 d' (m_table m) k H) as Ha. unfold alike in Ha.
  assert (H1 : getrow d1 (m_table m) k = None); [|rewrite H1 in Ha; by destruct (getrow d' (m_table m) k)].
  rewrite apply_all_cons in H0. inv_bind H0. destruct a0 as [d2 e2]. simpl in H0. injection H0 as <- <-. destruct ch as [j r|j g|j]; simpl in H1.
  - clear Ha. destruct (getrow d t j); [done|]. destruct (_ || _); [|done]. injection H1 as <- <-. rewrite getrow_put, decide_False; [done|]. by intros [<- _].
  - destruct (getrow d t j) as [o|]; [|by injection H1 as <- <-]. inv_bind H1. clear Ha. destruct (_ || _); [|done]. injection H1 as <- <-. destruct (Hq _ _ _ H0) as [_ Hts].
    rewrite getrow_put, decide_False by by intros [<- _]. unfold getrow, tab in *. by rewrite Hts.
  - destruct (getrow d t j) as [o|]; [|by injection H1 as <- <-]. clear Ha. destruct (_ || _); [|done]. injection H1 as <- <-. rewrite getrow_del, decide_False; [done|]. by intros [<- _].
Qed.
Lemma insert_table_none m' pk r d x k : m_table m' ≠ m_table m → insert_table E m' pk r d = Ok x → getrow d (m_table m) k = None → getrow x.1.1.1 (m_table m) k = None.
Proof.
  intros Hne. unfold insert_table. intros H Hn. inv_bind H. inv_bind H. injection H as <-. cbn [fst snd]. apply presave_all_db in H0 as [T D].
  eapply exec1_none; [exact Hne| |exact H1|]; [done|]. unfold getrow, tab in *. by rewrite T.
Qed.
Lemma save_table_none m' force pk r d x k : m_table m' ≠ m_table m → save_table E m' force pk r d = Ok x → getrow d (m_table m) k = None → getrow x.1.1.1 (m_table m) k = None.
Proof.
  intros Hne. unfold save_table. destruct pk as [k'|]; [|by apply insert_table_none]. destruct force; [by apply insert_table_none|]. intros H Hn. inv_bind H.
  pose proof (presave_all_db _ _ _ _ _ _ _ H0) as [T D]. assert (Hn' : getrow a0.1 (m_table m) k = None) by (unfold getrow, tab in *; by rewrite T).
  destruct (getrow a0.1 (m_table m') k'); [|by eapply insert_table_none]. inv_bind H. injection H as <-. cbn [fst snd].
  eapply exec1_none; [exact Hne| |exact H1|done]. simpl. by intros ??? [= <-].
Qed.
Lemma save_table_key m' force k r d x : save_table E m' force (Some k) r d = Ok x → x.1.1.2 = k.
Proof.
  assert (Hi : ∀ r d, insert_table E m' (Some k) r d = Ok x → x.1.1.2 = k) by (unfold insert_table; intros r' d' H; inv_bind H; inv_bind H; by injection H as <-).
  unfold save_table. destruct force; [apply Hi|]. intros H. inv_bind H. destruct (getrow _ _ _); [|by eapply Hi]. inv_bind H. by injection H as <-.
Qed.
Lemma parents_none ps s s' k : (∀ m', m' ∈ ps → m_table m' ≠ m_table m) → save_parents E ps s = Ok s' → s.1.2 = Some k → getrow s.1.1 (m_table m) k = None →
  s'.1.2 = Some k ∧ getrow s'.1.1 (m_table m) k = None.
Proof.
  intros Hps H Hk Hn. revert s s' H Hk Hn. induction ps as [|p ps IH]; intros s s' H Hk Hn; [by injection H as <-|].
  unfold save_parents in H. rewrite foldM_cons in H. inv_bind H. inv_bind H0. injection H0 as <-. rewrite Hk in H1.
  eapply IH; [intros; apply Hps; by right|exact H|cbn [fst snd]; f_equal; by eapply save_table_key|].
  cbn [fst snd]. eapply save_table_none; [apply Hps; by left|exact H1|done].
Qed.
Lemma fresh_none (T : table) : T !! fresh_key T = None.
Proof.
  unfold fresh_key. assert (Hl : ∀ l i, i ∈ l → i ≤ foldr Z.max 0 l).
  { induction l as [|x l IH]; simpl; [by intros ? ?%elem_of_nil|]. intros i [->|Hi]%elem_of_cons; [lia|]. specialize (IH _ Hi). lia. }
  destruct (T !! _) eqn:HT; [|done]. apply elem_of_map_to_list in HT. assert (Hi : 1 + foldr Z.max 0 (map_to_list T).*1 ∈ (map_to_list T).*1).
  { apply elem_of_list_fmap. by eexists (_, _). } apply Hl in Hi. lia.
Qed.
(** save() without a key: the parent's INSERT gives one, and pre_save(add=False) for the own
    table finds no row. *)
Lemma child_raises p0 ps proxy r d x : (∀ m', m' ∈ p0 :: ps → m_table m' ≠ m_table m) →
  (∀ k, is_Some (getrow d (m_table m) k) → is_Some (getrow d (m_table p0) k)) → save_class E (IClass (p0 :: ps) m proxy) false None r d ≠ Ok x.
Proof.
  intros Hps Hd H. unfold save_class in H. inv_bind H. clear H. rename H0 into H. unfold save_once in H. cbn [ic_parents ic_own ic_proxy] in H. inv_bind H. inv_bind H.
  assert (a1 = d) as -> by (destruct proxy; by injection H0 as <-). clear H0. unfold save_parents in H1. rewrite foldM_cons in H1. inv_bind H1. inv_bind H0. injection H0 as <-. cbn [fst snd] in *.
  assert (Hn : getrow a3.1.1.1 (m_table m) a3.1.1.2 = None).
  { pose proof H2 as H3. unfold save_table, insert_table in H2. inv_bind H2. inv_bind H2. injection H2 as <-. cbn [fst snd] in *.
    apply (λ Hne, save_table_none p0 false None r d _ (fresh_key (tab a1.1 (m_table p0))) Hne H3); [apply Hps; by left|]. apply presave_all_db in H0 as [T _]. apply eq_None_not_Some. intros Hs. apply Hd in Hs.
    assert (He : getrow d (m_table p0) (fresh_key (tab a1.1 (m_table p0))) = None); [|rewrite He in Hs; by destruct Hs].
    unfold getrow. assert (tab d (m_table p0) = tab a1.1 (m_table p0)) as -> by (unfold tab; by rewrite T). apply fresh_none. }
  destruct (parents_none ps (a3.1.1.1, Some a3.1.1.2, a3.1.2) a2 a3.1.1.2) as [Hk Hn2]; [intros; apply Hps; by right|exact H1|done|done|].
  rewrite Hk in H. unfold save_table in H. inv_bind H. apply (presave_agg S E Hwf m f a rel (agg_field_link _ _ _ _ _ Haf)) in H0 as (k0 & r0 & [= <-] & Hr0 & _). congruence.
Qed.
End raises.

(** ** The invariant *)
Section inv.
Context (b : backend) (S : schema) (rand : nat → Z) (imm : bool) (depth : nat) (E : env) (rank : string → nat).
Context (HE : mk_env b S rand imm depth = Ok E) (Hfl : flushable S rank imm).
(** Ordinary operations and saves through any classes. *)
Inductive class_step : db → db → Prop :=
  | cs_op o d d' : run_op E S o d = Ok d' → class_step d d'
  | cs_save c force pk r d x : save_class E c force pk r d = Ok x → class_step d x.1.1.
Lemma class_step_inv d d' : class_step d d' → links_ok S d → consistent_or_marked S d → links_ok S d' ∧ consistent_or_marked S d'.
Proof.
  destruct 1 as [o d d' H|c force pk r d x H]; [by apply (fop_inv b S rand imm depth E rank HE Hfl o)|].
  apply (R_inv b S rand imm depth E rank HE Hfl). intros R Rt Rx Re. by eapply save_class_R.
Qed.
Lemma class_steps_flush d d1 ord n d' : rtc class_step d d1 → links_ok S d → consistent_or_marked S d → no_self_relation S d1 →
  consistent_or_marked S d1 ∧ (flush E S ord n d1 = (d', Done) → consistent S d' ∧ d_dirty d' = []).
Proof.
  intros H L C N. assert (LC : links_ok S d1 ∧ consistent_or_marked S d1).
  { clear N. induction H as [|x y z Hs _ IH]; [done|]. apply class_step_inv in Hs as [L' C']; [|done..]. by apply IH. }
  destruct LC as [L1 C1]. split; [done|]. intros Hf. split; [|by eapply flush_done_clean]. by eapply (fflush_consistent b S rand imm depth E rank HE Hfl).
Qed.
End inv.

(** ** With the conditions of Spec.v *)
Lemma class_error b S rand imm depth E m f a rel k c force pk r d x r0 v : wf_schema S → names_apart S → mk_env b S rand imm depth = Ok E →
  agg_field S m f a rel → (∀ m', m' ∈ ic_models c → m' ∈ s_models S) → getrow d (m_table m) k = Some r0 → col r0 (f_col f) = VInt v →
  save_class E c force pk r d = Ok x →
  ∃ r1, getrow x.1.1 (m_table m) k = Some r1 ∧ col r1 (f_col f) = VInt (v + (agg_value x.1.1 rel a k - agg_value d rel a k)).
Proof.
  intros Hwf Hna HE Haf Hc Hr Hv H. destruct (mk_env_gen _ _ _ _ _ _ HE) as [l Hl]. rewrite !agg_value_recount.
  eapply (save_class_drift b S rand imm depth E l); eauto using names_apart_ok.
Qed.
Lemma class_exact b S rand depth E m f a rel c force pk r d x : wf_schema S → names_apart S → mk_env b S rand true depth = Ok E →
  agg_field S m f a rel → (∀ m', m' ∈ ic_models c → m' ∈ s_models S) → save_class E c force pk r d = Ok x →
  fk_valid m a rel d → agg_exact m f a rel d → fk_valid m a rel x.1.1 ∧ agg_exact m f a rel x.1.1.
Proof.
  intros Hwf Hna HE Haf Hc H V X. destruct (mk_env_gen _ _ _ _ _ _ HE) as [l Hl]. apply (exact_spec m f a rel).
  eapply (save_class_exact b S rand depth E l); eauto using names_apart_ok. by apply exact_spec.
Qed.
