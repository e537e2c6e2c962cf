(** * save(update_fields=…) and the raw saves of loaddata.

    Both end in Django's Model.save_base, which sends the signals that
    denorm/fields.py:51-53 connects, but they do not call every field's pre_save. *)
From Verif Require Import Base BaseLemmas Schema TrigSet Gen Exec Orm Flush Spec Engine GenLemmas Marking Conditions Invariant Settle Sessions.

(** The names update_fields may mention: name and attname of every field but the primary key. *)
Definition named (names : list string) (f : field) : bool := bool_decide (f_name f ∈ names) || bool_decide (f_att f ∈ names).
Definition known_name (m : model) (n : string) : bool := existsb (named [n]) (m_fields m).
(** The columns of the UPDATE statement, from the attributes of the instance. *)
Definition write_cols (fs : list field) (r o : row) : row := foldl (λ o f, <[f_col f := col r (f_col f)]> o) o fs.

(** [instance.save(update_fields=names)] for an instance with primary key [k] and
    attributes [r].  Django: no names, nothing happens (no signal either); an unknown name
    raises ValueError; the pre_save signal is sent (denorms.py:18-51); pre_save is called for
    the named fields only (fields.py:56-80, 159-178, 282-285), in the order of the model;
    the UPDATE assigns to the named columns only; DatabaseError if it matches no row;
    post_save with created=False does nothing (denorms.py:54-55).
    An instance loaded with only() or defer() is saved like this, with the attnames of the
    loaded fields. *)
Definition save_fields (E : env) (m : model) (k : Z) (names : list string) (r : row) (d : db) : res (db * row) :=
  if decide (names = []) then Ok (d, r) else
  if negb (forallb (known_name m) names) then Err EValue else
  let fs := filter (λ f, named names f = true) (m_fields m) in
  let* d1 := m2m_pre_save E m (Some k) r d in
  let* p := foldM (presave_field E m false (Some k)) (d1, r) fs in
  match getrow p.1 (m_table m) k with
  | None => Err ENoRows
  | Some _ => let* d2 := exec E (m_table m) [CUpd k (λ d o, Ok (write_cols fs p.2 o, d))] p.1 in Ok (d2, p.2)
  end.

(** [Model.save_base(instance, raw=True)], used by the deserializers of loaddata: the
    attributes are stored as they are, no pre_save of a field is called.  The signals are
    sent; the receivers (denorms.py:18-63) do not look at their argument raw. *)
Definition raw_save (E : env) (m : model) (k : Z) (r : row) (d : db) : res db :=
  let* d1 := m2m_pre_save E m (Some k) r d in
  match getrow d1 (m_table m) k with
  | Some _ => exec E (m_table m) [upd_all k r] d1
  | None =>
      let* d2 := exec E (m_table m) [CIns k r] d1 in
      let* s := post_save_created E m k r d2 in Ok s.1
  end.
(** One object of a fixture: model, primary key, attributes, and the keys of its m2m fields,
    which are set after the raw save. *)
Record obj := Obj { o_model : string; o_key : Z; o_row : row; o_m2m : list (string * list Z) }.
Definition load_links (E : env) (m : model) (k : Z) (d : db) (x : string * list Z) : res db :=
  match list_find (λ mm, mm_name mm = x.1) (m_m2m m) with
  | Some (_, mm) => m2m_set E mm k x.2 d
  | None => Err EAttribute
  end.
Definition load_obj (E : env) (S : schema) (d : db) (x : obj) : res db :=
  match find_model S (o_model x) with
  | Some m => let* d1 := raw_save E m (o_key x) (o_row x) d in foldM (load_links E m (o_key x)) d1 (o_m2m x)
  | None => Err EValue
  end.
Definition loaddata (E : env) (S : schema) (xs : list obj) (d : db) : res db := foldM (load_obj E S) d xs.
(** dumpdata: the rows of every model that is not a proxy, models in the order given (Django
    takes them app by app), rows in some order.  Only for models without m2m fields. *)
Definition dump (S : schema) (d : db) : list obj :=
  m ← s_models S; if m_proxy m then [] else
  (λ p : Z * row, Obj (m_name m) p.1 p.2 []) <$> map_to_list (tab d (m_table m)).

(** Steps of an application that mixes all of these. *)
Inductive mixed_step (E : env) (S : schema) : db → db → Prop :=
  | ms_op o d d' : run_op E S o d = Ok d' → mixed_step E S d d'
  | ms_fields m k names r d p : m ∈ s_models S → save_fields E m k names r d = Ok p → mixed_step E S d p.1
  | ms_load xs d d' : loaddata E S xs d = Ok d' → mixed_step E S d d'.

(** ** Made of statements *)
Lemma presave_list_db E m add pk fs : ∀ p q, foldM (presave_field E m add pk) p fs = Ok q → d_tabs q.1 = d_tabs p.1 ∧ d_dirty q.1 = d_dirty p.1.
Proof.
  intros p q. apply (foldM_rel (λ p q : db * row, d_tabs q.1 = d_tabs p.1 ∧ d_dirty q.1 = d_dirty p.1)).
  - done.
  - intros a b c [] []. split; congruence.
  - intros a x a' _ Ha. by apply presave_field_db in Ha.
Qed.
Section ops.
  Context (E : env) (S : schema) (R : db → db → Prop).
  Context (Rtrans : ∀ x y z, R x y → R y z → R x z).
  Context (Rtabs : ∀ d d', d_tabs d' = d_tabs d → d_dirty d' = d_dirty d → R d d').
  Context (Rexec : ∀ t cs d d', Forall ch_quiet cs → (e_be E = Postgres → NoDup (ch_key <$> cs)) →
             exec E t cs d = Ok d' → R d d').
  Lemma exec1_R t ch d d' : ch_quiet ch → exec E t [ch] d = Ok d' → R d d'.
  Proof. intros Hq. apply Rexec; [by apply Forall_singleton|intros _; apply NoDup_singleton]. Qed.
  Lemma save_fields_R m k names r d p : save_fields E m k names r d = Ok p → R d p.1.
  Proof.
    unfold save_fields. case_decide; [intros [= <-]; by apply Rtabs|]. case_match; [done|]. intros H1. inv_bind H1. inv_bind H1.
    destruct (getrow a0.1 (m_table m) k); [|done]. inv_bind H1. injection H1 as <-. simpl.
    eapply Rtrans; [by eapply m2m_pre_save_R|]. apply presave_list_db in H3 as [T D].
    eapply Rtrans; [by eapply Rtabs|]. eapply exec1_R; [|exact H4]. simpl. by intros ??? [= <-].
  Qed.
  Lemma raw_save_R m k r d d' : raw_save E m k r d = Ok d' → R d d'.
  Proof.
    unfold raw_save. intros H. inv_bind H. eapply Rtrans; [by eapply m2m_pre_save_R|]. destruct (getrow a (m_table m) k).
    - eapply exec1_R; [|exact H]. simpl. by intros ??? [= <-].
    - inv_bind H. inv_bind H. injection H as <-. eapply Rtrans; [by eapply exec1_R; [|exact H1]|]. by eapply post_save_R.
  Qed.
  Lemma load_R xs d d' : loaddata E S xs d = Ok d' → R d d'.
  Proof.
    apply foldM_rel; [intros; by apply Rtabs|exact Rtrans|]. intros d1 x d2 _. unfold load_obj. destruct (find_model S (o_model x)) as [m|]; [|done].
    intros H. inv_bind H. eapply Rtrans; [by eapply raw_save_R|]. revert H. apply foldM_rel; [intros; by apply Rtabs|exact Rtrans|].
    intros d3 y d4 _. unfold load_links. destruct (list_find _ _) as [[i mm]|]; [|done]. by apply m2m_set_R.
  Qed.
  Lemma mixed_R d d' : mixed_step E S d d' → R d d'.
  Proof. destruct 1; [by eapply run_op_R|by eapply save_fields_R|by eapply load_R]. Qed.
End ops.

(** ** The invariant *)
Section inv.
Context (b : backend) (S : schema) (rand : nat → Z) (imm : bool) (depth : nat) (E : env) (rank : string → nat).
Context (HE : mk_env b S rand imm depth = Ok E) (Hfl : flushable S rank imm).
Lemma mixed_inv d d' : mixed_step E S d d' → links_ok S d → consistent_or_marked S d → links_ok S d' ∧ consistent_or_marked S d'.
Proof.
  intros H L C. destruct (mk_env_gen _ _ _ _ _ _ HE) as [l Hl].
  pose proof (fl_names_ok b S rand imm depth E rank HE Hfl l Hl) as Hn.
  pose proof (fl_ac b S rand imm depth E rank HE Hfl) as Hac. pose proof (flushable_covered S imm rank Hfl) as Hcov. destruct Hfl. split.
  - eapply (mixed_R E S (lgood S)); [..|exact H|exact L].
    + intros x y z H1 H2 L1. auto.
    + intros ?? ?? ?. by eapply links_tabs.
    + intros. by eapply exec_lgood with (l := l).
  - intros m k r' Hm Hr'. eapply row_inv; [done|done| | |done|by intros; apply C].
    + intros f fn ds sk rd Hf Hk Hrd. eapply (mixed_R E S (vgood S m rd k)); [..|exact H|exact L].
      * apply vgood_trans.
      * apply vgood_tabs.
      * intros. eapply exec_vgood with (l := l) (rank := rank); eauto.
    + eapply (mixed_R E S dmono); [..|exact H]; [apply dmono_trans|intros; by apply dmono_eq|intros; by eapply exec_dmono].
Qed.
Lemma mixed_flush d d1 ord n d' : rtc (mixed_step E S) d d1 → links_ok S d → consistent_or_marked S d → no_self_relation S d1 →
  flush E S ord n d1 = (d', Done) → consistent S d' ∧ d_dirty d' = [].
Proof.
  intros Hs L C N Hf. assert (Hi : links_ok S d1 ∧ consistent_or_marked S d1).
  { clear N Hf. induction Hs as [|x y z H1 _ IH]; [done|]. destruct (mixed_inv _ _ H1 L C). by apply IH. }
  destruct Hi. split; [|by eapply flush_done_clean]. by eapply fflush_consistent.
Qed.
End inv.

(** ** What save(update_fields=…) writes *)
Lemma write_cols_other fs r c : (∀ f, f ∈ fs → f_col f ≠ c) → ∀ o, write_cols fs r o !! c = o !! c.
Proof.
  unfold write_cols. induction fs as [|f fs IH]; intros Hn o; simpl; [done|]. rewrite IH by (intros; apply Hn; by right).
  apply lookup_insert_ne. apply Hn. by left.
Qed.
Lemma write_cols_at fs r f : f ∈ fs → ∀ o, write_cols fs r o !! f_col f = Some (col r (f_col f)).
Proof.
  unfold write_cols. induction fs as [|g fs IH] using rev_ind; intros Hf o; [by apply elem_of_nil in Hf|].
  rewrite foldl_app. simpl. destruct (decide (f_col g = f_col f)) as [->|Hne]; [apply lookup_insert|]. rewrite lookup_insert_ne by done.
  apply IH. apply elem_of_app in Hf as [Hf|Hf%elem_of_list_singleton]; [done|]. by subst.
Qed.
(** One UPDATE of one row depends on the function only at the stored row. *)
Lemma exec_upd_ext E t k f g d : (∀ o, getrow d t k = Some o → f d o = g d o) → exec E t [CUpd k f] d = exec E t [CUpd k g] d.
Proof.
  intros H. unfold exec, run_stmt. assert (Hb : ∀ fr, run_batch E fr t [CUpd k f] d = run_batch E fr t [CUpd k g] d).
  { intros fr. unfold run_batch. rewrite !apply_all_cons. simpl. destruct (getrow d t k) as [o|]; [|done]. by rewrite (H o). }
  by destruct (e_be E); simpl; rewrite Hb.
Qed.
Lemma no_m2m_pre_save E m pk r d : has_m2m_denorm m = false → m2m_pre_save E m pk r d = Ok d.
Proof.
  intros H. unfold m2m_pre_save. destruct pk as [k|]; [|done]. case_decide; [done|]. unfold has_m2m_denorm in H.
  induction (m_m2m m) as [|mm l IH]; [done|]. simpl in H |- *. destruct (mm_denorm mm) as [[]|]; [done|]. by apply IH.
Qed.
Lemma save_fields_update E S m k names r d p : has_m2m_denorm m = false → names ≠ [] → save_fields E m k names r d = Ok p →
  ∃ d1 g, d_tabs d1 = d_tabs d ∧ d_dirty d1 = d_dirty d ∧ run_op E S (OUpdate (m_table m) [k] g) d1 = Ok p.1 ∧
    (∀ o c, (∀ f, f ∈ m_fields m → f_col f = c → f_name f ∉ names ∧ f_att f ∉ names) → col (g o) c = col o c) ∧
    (∀ o f, f ∈ m_fields m → f_name f ∈ names ∨ f_att f ∈ names → col (g o) (f_col f) = col p.2 (f_col f)).
Proof.
  intros Hm Hn. unfold save_fields. rewrite decide_False by done. case_match; [done|]. rewrite no_m2m_pre_save by done. simpl. intros H1. inv_bind H1.
  destruct (getrow a.1 (m_table m) k) eqn:Hg; [|done]. inv_bind H1. injection H1 as <-. simpl. apply presave_list_db in H0 as [T D]. simpl in T, D.
  eexists a.1, (write_cols _ a.2). split_and!; [done|done|exact H2|..].
  - intros o c Hc. unfold col. rewrite write_cols_other; [done|]. intros f Hf Hfc. apply elem_of_list_filter in Hf as [Hf Hin].
    destruct (Hc f Hin Hfc) as [N1 N2]. unfold named in Hf. apply orb_true_iff in Hf as [Hf|Hf]; by apply bool_decide_eq_true in Hf.
  - intros o f Hf Hin. unfold col at 1. rewrite write_cols_at; [done|]. apply elem_of_list_filter. split; [|done].
    unfold named. apply orb_true_iff. rewrite !bool_decide_eq_true. done.
Qed.
(** Nothing is written without a row, and an instance that is only missing from the names
    where it agrees with the stored row is saved as a whole. *)
Lemma save_fields_no_row E m k names r d p : names ≠ [] → save_fields E m k names r d = Ok p →
  (∀ n, n ∈ names → ∃ f, f ∈ m_fields m ∧ (f_name f = n ∨ f_att f = n)) ∧ (has_m2m_denorm m = false → is_Some (getrow d (m_table m) k)).
Proof.
  intros Hn. unfold save_fields. rewrite decide_False by done. destruct (forallb (known_name m) names) eqn:Hk; [|done]. cbn [negb]. intros H. split.
  - intros n Hin. apply (proj1 (forallb_forall _ _)) with (x := n) in Hk; [|by apply elem_of_list_In]. unfold known_name in Hk.
    apply existsb_exists in Hk as (f & Hf & Hx). exists f. split; [by apply elem_of_list_In|]. unfold named in Hx.
    apply orb_true_iff in Hx as [Hx|Hx]; apply bool_decide_eq_true, elem_of_list_singleton in Hx; auto.
  - intros Hm. rewrite no_m2m_pre_save in H by done. simpl in H. inv_bind H. apply presave_list_db in H0 as [T _]. simpl in T.
    unfold getrow, tab in *. rewrite T in H. destruct ((default ∅ (d_tabs d !! m_table m)) !! k); [done|discriminate H].
Qed.
Lemma presave_filter E m add pk (P : field → bool) fs : ∀ p, (∀ f, f ∈ fs → P f = false → f_kind f = KPlain) →
  foldM (presave_field E m add pk) p (filter (λ f, P f = true) fs) = foldM (presave_field E m add pk) p fs.
Proof.
  induction fs as [|f fs IH]; intros p Hp; [done|]. rewrite filter_cons. rewrite foldM_cons. case_decide as HP.
  - rewrite foldM_cons. destruct (presave_field E m add pk p f); simpl; [|done]. apply IH. intros; apply Hp; [by right|done].
  - unfold presave_field at 2. rewrite (Hp f); [|by left|by destruct (P f)]. destruct p. simpl. apply IH. intros; apply Hp; [by right|done].
Qed.
Lemma presave_dom E m add pk fs : ∀ p q, foldM (presave_field E m add pk) p fs = Ok q →
  (∀ c, is_Some (p.2 !! c) → is_Some (q.2 !! c)) ∧ (∀ c, (∀ f, f ∈ fs → f_col f = c → f_kind f = KPlain) → q.2 !! c = p.2 !! c).
Proof.
  induction fs as [|f fs IH]; intros p q H; [by injection H as <-|]. rewrite foldM_cons in H. inv_bind H. destruct (IH _ _ H) as [I1 I2].
  assert (Hf : (∀ c, is_Some (p.2 !! c) → is_Some (a.2 !! c)) ∧ ∀ c, (f_col f = c → f_kind f = KPlain) → a.2 !! c = p.2 !! c).
  { clear - H0. unfold presave_field in H0. destruct (f_kind f) eqn:Hk.
    - injection H0 as <-. by destruct p.
    - injection H0 as <-. simpl. split; [intros c Hc; destruct (decide (f_col f = c)) as [<-|]; [rewrite lookup_insert; eauto|by rewrite lookup_insert_ne]|].
      intros c Hc. rewrite lookup_insert_ne; [done|]. intros Hx. by specialize (Hc Hx).
    - inv_bind H0. inv_bind H0. injection H0 as <-. simpl. split; [intros c Hc; destruct (decide (f_col f = c)) as [<-|]; [rewrite lookup_insert; eauto|by rewrite lookup_insert_ne]|].
      intros c Hc. rewrite lookup_insert_ne; [done|]. intros Hx. by specialize (Hc Hx).
    - assert (∃ v, a.2 = <[f_col f := v]> p.2) as [v ->].
      { destruct add; [injection H0 as <-; simpl; eauto|]. destruct (pk ≫= getrow p.1 (m_table m)); [|done]. case_match; [|done]. injection H0 as <-. simpl. eauto. }
      split; [intros c Hc; destruct (decide (f_col f = c)) as [<-|]; [rewrite lookup_insert; eauto|by rewrite lookup_insert_ne]|].
      intros c Hc. rewrite lookup_insert_ne; [done|]. intros Hx. by specialize (Hc Hx).
    - injection H0 as <-. simpl. split; [intros c Hc; destruct (decide (f_col f = c)) as [<-|]; [rewrite lookup_insert; eauto|by rewrite lookup_insert_ne]|].
      intros c Hc. rewrite lookup_insert_ne; [done|]. intros Hx. by specialize (Hc Hx). }
  destruct Hf as [F1 F2]. split; [auto|]. intros c Hc. rewrite I2; [apply F2|]; intros; eapply Hc; eauto; [by left|by right].
Qed.
Lemma save_fields_whole E m k names r d r0 : names ≠ [] →
  (∀ n, n ∈ names → ∃ f, f ∈ m_fields m ∧ (f_name f = n ∨ f_att f = n)) →
  has_m2m_denorm m = false → getrow d (m_table m) k = Some r0 →
  (∀ f, f ∈ m_fields m → named names f = false → f_kind f = KPlain) →
  (∀ f, f ∈ m_fields m → named names f = true → is_Some (r !! f_col f)) →
  (∀ c, (∀ f, f ∈ m_fields m → named names f = true → f_col f ≠ c) → r !! c = r0 !! c) →
  save_fields E m k names r d = save_existing E m k r d.
Proof.
  intros Hn Hk Hm Hr Hpl Hdom Hag. unfold save_fields, save_existing. rewrite decide_False by done.
  assert (forallb (known_name m) names = true) as ->.
  { apply forallb_forall. intros n Hin%elem_of_list_In. destruct (Hk n Hin) as (f & Hf & Hx). unfold known_name. apply existsb_exists. exists f.
    split; [by apply elem_of_list_In|]. unfold named. apply orb_true_iff. rewrite !bool_decide_eq_true, !elem_of_list_singleton. tauto. }
  cbn [negb]. rewrite no_m2m_pre_save by done. cbn [rbind]. rewrite presave_filter by done. unfold presave_all.
  destruct (foldM (presave_field E m false (Some k)) (d, r) (m_fields m)) as [p|] eqn:Hp; simpl; [|done].
  pose proof Hp as Hp'. apply presave_list_db in Hp' as [T _]. simpl in T.
  assert (Hg : getrow p.1 (m_table m) k = Some r0) by (unfold getrow, tab in *; by rewrite T). rewrite Hg.
  unfold upd_all. erewrite exec_upd_ext; [done|]. intros o Ho. rewrite Hg in Ho. injection Ho as <-. simpl. f_equal. f_equal.
  destruct (presave_dom _ _ _ _ _ _ _ Hp) as [D1 D2]. simpl in D1, D2. apply map_eq. intros c.
  destruct (decide (Exists (λ f, f_col f = c ∧ named names f = true) (m_fields m))) as [He|He].
  - apply Exists_exists in He as (f & Hf & <- & Hx). rewrite write_cols_at by (by apply elem_of_list_filter).
    destruct (D1 _ (Hdom f Hf Hx)) as [v Hv]. unfold col. by rewrite Hv.
  - assert (Hno : ∀ f, f ∈ m_fields m → named names f = true → f_col f ≠ c).
    { intros f Hf Hx Hc. apply He. apply Exists_exists. eauto. }
    rewrite write_cols_other by (intros f [Hf1 Hf2]%elem_of_list_filter; by apply Hno). rewrite D2; [symmetry; by apply Hag|].
    intros f Hf Hc. apply Hpl; [done|]. destruct (named names f) eqn:Hx; [|done]. by destruct (Hno f Hf Hx).
Qed.

(** ** Loading a dump while no trigger is installed *)
Lemma raw_save_plain E m k r d : e_trigs E = [] → e_fkimm E = false → e_depth E ≠ O → has_m2m_denorm m = false →
  raw_save E m k r d = Ok (put_row d (m_table m) k r).
Proof.
  intros Ht Hi Hd Hm. unfold raw_save. rewrite no_m2m_pre_save by done. cbn [rbind].
  assert (Hf : ∀ d e, fire E (e_depth E) [] d e = Ok d) by (intros d1 e; destruct (e_depth E); [done|]; simpl; by rewrite Ht).
  assert (Hx : ∀ ch e d1, apply_change E (m_table m) d ch = Ok (d1, [e]) → exec E (m_table m) [ch] d = Ok d1).
  { intros ch e d1 Ha. unfold exec, run_stmt. assert (Hb : run_batch E (fire E (e_depth E) []) (m_table m) [ch] d = Ok d1).
    { unfold run_batch. rewrite apply_all_cons, Ha. simpl. by rewrite Hf. }
    destruct (e_be E); [simpl; by rewrite Hb|done|simpl; by rewrite Hb]. }
  destruct (getrow d (m_table m) k) as [o|] eqn:Hg.
  - eapply Hx. simpl. rewrite Hg. simpl. by rewrite Hi.
  - rewrite (Hx (CIns k r) (Ev (m_table m) k (ChIns r)) (put_row d (m_table m) k r)); [|simpl; rewrite Hg, Hi; done]. cbn [rbind].
    unfold post_save_created. by rewrite Hm.
Qed.
Lemma load_plain E S m k r xs : wf_schema S → m ∈ s_models S → e_trigs E = [] → e_fkimm E = false → e_depth E ≠ O → (∀ m, m ∈ s_models S → m_m2m m = []) →
  Forall (λ x, (∃ m', m' ∈ s_models S ∧ m_name m' = o_model x) ∧ o_m2m x = [] ∧ (o_model x = m_name m → o_key x = k → o_row x = r)) xs →
  ∀ d, ∃ d', loaddata E S xs d = Ok d' ∧ d_dirty d' = d_dirty d ∧
    ((∃ x, x ∈ xs ∧ o_model x = m_name m ∧ o_key x = k) → getrow d' (m_table m) k = Some r) ∧
    (¬ (∃ x, x ∈ xs ∧ o_model x = m_name m ∧ o_key x = k) → getrow d' (m_table m) k = getrow d (m_table m) k).
Proof.
  intros Hwf Hm Ht Hi Hd Hno. induction xs as [|x xs IH]; intros Hall d.
  { exists d. split_and!; [done|done| |done]. by intros (x & Hx%elem_of_nil & _). }
  apply Forall_cons in Hall as [((m' & Hm' & Hn) & Hl & Hr) Hall].
  assert (Hx : load_obj E S d x = Ok (put_row d (m_table m') (o_key x) (o_row x))).
  { unfold load_obj. rewrite <- Hn, (find_model_self S m' (wf_names _ Hwf) Hm'). rewrite raw_save_plain; [by rewrite Hl|done..|].
    unfold has_m2m_denorm. by rewrite (Hno m' Hm'). }
  destruct (IH Hall (put_row d (m_table m') (o_key x) (o_row x))) as (d' & Hd' & Hdd & H1 & H2).
  exists d'. unfold loaddata in *. rewrite foldM_cons, Hx. split; [done|]. split; [done|].
  destruct (decide (Exists (λ y, o_model y = m_name m ∧ o_key y = k) xs)) as [He|He].
  { apply Exists_exists in He as (y & Hy & Hy1 & Hy2). split; [intros _; apply H1; eauto|]. intros Hc. destruct Hc. exists y. split; [by right|done]. }
  assert (Hn' : ¬ (∃ y, y ∈ xs ∧ o_model y = m_name m ∧ o_key y = k)) by (intros (y & Hy & Hy1); apply He, Exists_exists; eauto).
  rewrite (H2 Hn'), getrow_put. split.
  - intros (y & [->|Hy]%elem_of_cons & Hy1 & Hy2); [|by destruct Hn'; eauto]. rewrite decide_True; [by rewrite Hr|].
    split; [|done]. f_equal. eapply NoDup_fmap_eq; [apply (wf_names _ Hwf)|done|done|congruence].
  - intros Hc. rewrite decide_False; [done|]. intros [Hx1 Hx2]. apply Hc. exists x. split; [by left|]. split; [|done].
    rewrite <- Hn. f_equal. by eapply table_inj.
Qed.
Lemma load_dump E S d e : wf_schema S → e_trigs E = [] → e_fkimm E = false → e_depth E ≠ O → (∀ m, m ∈ s_models S → m_m2m m = []) →
  (∀ m k, m ∈ s_models S → getrow e (m_table m) k = None) →
  ∃ d', loaddata E S (dump S d) e = Ok d' ∧ d_dirty d' = d_dirty e ∧ ∀ m k, m ∈ s_models S → getrow d' (m_table m) k = getrow d (m_table m) k.
Proof.
  intros Hwf Ht Hi Hd Hno He.
  assert (Hel : ∀ x, x ∈ dump S d ↔ ∃ m, m ∈ s_models S ∧ o_model x = m_name m ∧ getrow d (m_table m) (o_key x) = Some (o_row x) ∧ o_m2m x = []).
  { intros x. unfold dump. rewrite elem_of_list_bind. split.
    - intros (m & Hx & Hm). rewrite (wf_noproxy _ _ (wf_models _ Hwf _ Hm)) in Hx. apply elem_of_list_fmap in Hx as ([k r] & -> & Hx%elem_of_map_to_list). by exists m.
    - intros (m & Hm & Hn & Hg & Hl). exists m. split; [|done]. rewrite (wf_noproxy _ _ (wf_models _ Hwf _ Hm)).
      apply elem_of_list_fmap. exists (o_key x, o_row x). split; [destruct x; simpl in *; by subst|]. by apply elem_of_map_to_list. }
  assert (Hall : ∀ m k r, m ∈ s_models S → (∀ r', getrow d (m_table m) k = Some r' → r' = r) →
    Forall (λ x, (∃ m', m' ∈ s_models S ∧ m_name m' = o_model x) ∧ o_m2m x = [] ∧ (o_model x = m_name m → o_key x = k → o_row x = r)) (dump S d)).
  { intros m k r Hm Hr. apply Forall_forall. intros x (m' & Hm' & Hn & Hg & Hl)%Hel. split_and!; [by exists m'|done|].
    intros Hxn <-. assert (m' = m) as -> by (eapply NoDup_fmap_eq; [apply (wf_names _ Hwf)|done|done|congruence]). by apply Hr. }
  assert (Hone : ∀ m k, m ∈ s_models S → ∃ d', loaddata E S (dump S d) e = Ok d' ∧ d_dirty d' = d_dirty e ∧ getrow d' (m_table m) k = getrow d (m_table m) k).
  { intros m k Hm. destruct (getrow d (m_table m) k) as [r|] eqn:Hr.
    - destruct (load_plain E S m k r (dump S d) Hwf Hm Ht Hi Hd Hno (Hall m k r Hm ltac:(naive_solver)) e) as (d' & H1 & H2 & H3 & _).
      exists d'. split_and!; [done|done|]. apply H3. exists (Obj (m_name m) k r []). split; [|done]. apply Hel. by exists m.
    - destruct (load_plain E S m k ∅ (dump S d) Hwf Hm Ht Hi Hd Hno (Hall m k ∅ Hm ltac:(naive_solver)) e) as (d' & H1 & H2 & _ & H3).
      exists d'. split_and!; [done|done|]. rewrite H3; [by apply He|]. intros (x & (m' & Hm' & Hn & Hg & Hl)%Hel & Hx1 & Hx2).
      assert (m' = m) as -> by (eapply NoDup_fmap_eq; [apply (wf_names _ Hwf)|done|done|congruence]). congruence. }
  destruct (s_models S) as [|m0 ms] eqn:HS.
  - exists e. unfold dump. rewrite HS. split_and!; [done|done|]. by intros m k ?%elem_of_nil.
  - destruct (Hone m0 0 ltac:(by left)) as (d' & H1 & H2 & _). exists d'. split_and!; [done|done|]. intros m k Hm.
    destruct (Hone m k Hm) as (d2 & H3 & _ & H4). congruence.
Qed.

(** Columns that are not named keep their value in the instance too. *)
Lemma save_fields_instance E m k names r d p : save_fields E m k names r d = Ok p →
  ∀ c, (∀ f, f ∈ m_fields m → f_col f = c → f_name f ∉ names ∧ f_att f ∉ names) → p.2 !! c = r !! c.
Proof.
  unfold save_fields. case_decide; [by intros [= <-]|]. case_match; [done|]. intros H1 c Hc. inv_bind H1. inv_bind H1.
  destruct (getrow _ _ _); [|done]. inv_bind H1. injection H1 as <-. simpl. apply presave_dom in H3 as [_ I2]. rewrite I2; [done|].
  intros f Hf Hfc. apply elem_of_list_filter in Hf as [Hf Hin]. destruct (Hc f Hin Hfc) as [N1 N2].
  unfold named in Hf. apply orb_true_iff in Hf as [Hf|Hf]; by apply bool_decide_eq_true in Hf.
Qed.
(** The same model with other fields. *)
Definition with_fields (m : model) (fs : list field) : model :=
  Model (m_name m) (m_app m) (m_table m) (m_pk m) (m_ct m) (m_proxy m) (m_swapped m) fs (m_m2m m) (m_always_skip m) (m_truthy m) (m_visible m).
Lemma save_fields_others E m k names r d fs : filter (λ f, named names f = true) fs = filter (λ f, named names f = true) (m_fields m) →
  save_fields E (with_fields m fs) k names r d = save_fields E m k names r d.
Proof.
  intros Hfs. unfold save_fields. case_decide; [done|].
  assert (Hk : ∀ fs' n, n ∈ names → existsb (named [n]) fs' = existsb (named [n]) (filter (λ f, named names f = true) fs')).
  { intros fs' n Hn. induction fs' as [|f fs' IH]; [done|]. rewrite filter_cons. simpl. rewrite IH. case_decide as Hx; [done|].
    assert (named [n] f = false) as ->; [|done]. apply not_true_iff_false. intros Hy. apply Hx. unfold named in *.
    apply orb_true_iff in Hy. rewrite !bool_decide_eq_true, !elem_of_list_singleton in Hy. apply orb_true_iff. rewrite !bool_decide_eq_true.
    destruct Hy as [-> | ->]; auto. }
  assert (forallb (known_name (with_fields m fs)) names = forallb (known_name m) names) as ->.
  { assert (Hs : ∀ l, (∀ n, n ∈ l → n ∈ names) → forallb (known_name (with_fields m fs)) l = forallb (known_name m) l); [|by apply Hs].
    induction l as [|n l IH]; intros Hl; [done|]. simpl. rewrite IH by (intros; apply Hl; by right). f_equal. unfold known_name. simpl.
    rewrite (Hk fs), (Hk (m_fields m)) by (apply Hl; by left). by rewrite Hfs. }
  cbn [with_fields m_fields m_table]. rewrite Hfs. reflexivity.
Qed.
