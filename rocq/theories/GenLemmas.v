(** * Facts about trigger sets and trigger generation (TrigSet.v, Gen.v). *)
From Verif Require Import Base BaseLemmas Schema TrigSet Gen Exec Spec.

(** ** find_model *)
Lemma find_model_in S n m : find_model S n = Some m → m ∈ s_models S ∧ m_name m = n.
Proof.
  unfold find_model. destruct (list_find _ _) as [[i m']|] eqn:H; simpl; [|done]. intros [= <-].
  apply list_find_Some in H as (H1 & H2 & _). split; [by eapply elem_of_list_lookup_2|done].
Qed.
Lemma NoDup_fmap_eq {A B} (f : A → B) l x y : NoDup (f <$> l) → x ∈ l → y ∈ l → f x = f y → x = y.
Proof.
  intros Hnd Hx Hy Heq. apply elem_of_list_lookup in Hx as [i Hi]. apply elem_of_list_lookup in Hy as [j Hj].
  assert (i = j).
  { eapply NoDup_lookup; [exact Hnd|rewrite list_lookup_fmap, Hi; done|rewrite list_lookup_fmap, Hj; simpl; congruence]. }
  congruence.
Qed.
Lemma find_model_self S m : NoDup (m_name <$> s_models S) → m ∈ s_models S → find_model S (m_name m) = Some m.
Proof.
  intros Hnd Hm. unfold find_model.
  destruct (list_find _ _) as [[i m']|] eqn:H; simpl.
  - apply list_find_Some in H as (H1 & H2 & _). f_equal. symmetry.
    eapply NoDup_fmap_eq; [exact Hnd|done|by eapply elem_of_list_lookup_2|done].
  - apply list_find_None in H. eapply Forall_forall in H; [|exact Hm]. done.
Qed.

(** ** De-duplication keeps every action, once. *)
Lemma elem_dedup seen l a : a ∈ dedup seen l ↔ a ∈ l ∧ a ∉ seen.
Proof.
  revert seen. induction l as [|b l IH]; intros seen; simpl.
  - split; [by intros ?%elem_of_nil|]. intros [?%elem_of_nil _]. done.
  - case_decide as Hb.
    + rewrite IH, elem_of_cons. naive_solver.
    + rewrite !elem_of_cons, IH. rewrite not_elem_of_cons. destruct (decide (a = b)); naive_solver.
Qed.
Lemma NoDup_dedup seen l : NoDup (dedup seen l).
Proof.
  revert seen. induction l as [|b l IH]; intros seen; simpl; [constructor|].
  case_decide; [done|]. constructor; [|done]. rewrite elem_dedup. set_solver.
Qed.

(** ** TriggerSet.append *)
Definition same_head (t1 t2 : trigger) : Prop :=
  t_tab t1 = t_tab t2 ∧ t_ev t1 = t_ev t2 ∧ t_fields t1 = t_fields t2 ∧ t_ctf t1 = t_ctf t2 ∧ t_ct t1 = t_ct t2.

Lemma tset_add_keys b ts tr : (tset_add b ts tr).*1 = ts.*1 ∨ ((tset_add b ts tr).*1 = ts.*1 ++ [trig_name b tr] ∧ trig_name b tr ∉ ts.*1).
Proof.
  induction ts as [|[n t0] ts IH]; csimpl; [right; split; [done|apply not_elem_of_nil]|].
  case_decide as Hn; csimpl; [by left|]. destruct IH as [->|[-> H]]; [by left|right].
  split; [done|]. apply not_elem_of_cons. split; [congruence|done].
Qed.

(** The invariant of a trigger set built from the list [l]. *)
Record tset_ok (b : backend) (l : list trigger) (ts : tset) : Prop := TsetOk {
  to_nodup : NoDup ts.*1;
  to_complete : ∀ tr, tr ∈ l → ∃ tr0, (trig_name b tr, tr0) ∈ ts ∧ ∀ a, a ∈ t_acts tr → a ∈ t_acts tr0;
  to_sound : ∀ n tr0, (n, tr0) ∈ ts →
     (∃ tr1, tr1 ∈ l ∧ trig_name b tr1 = n ∧ same_head tr0 tr1) ∧
     ∀ a, a ∈ t_acts tr0 → ∃ tr2, tr2 ∈ l ∧ trig_name b tr2 = n ∧ a ∈ t_acts tr2
}.

Lemma tset_add_spec b ts tr n tr0 : NoDup ts.*1 →
  (n, tr0) ∈ tset_add b ts tr ↔
    (n ≠ trig_name b tr ∧ (n, tr0) ∈ ts) ∨
    (n = trig_name b tr ∧
      ((∃ t0, (n, t0) ∈ ts ∧ tr0 = trig_append t0 (t_acts tr)) ∨ (n ∉ ts.*1 ∧ tr0 = tr))).
Proof.
  induction ts as [|[n' t'] ts IH]; intros Hnd; csimpl.
  - rewrite elem_of_list_singleton. split.
    + intros [= -> ->]. right. split; [done|]. right. split; [apply not_elem_of_nil|done].
    + intros [[_ ?%elem_of_nil]|[-> [(t0 & ?%elem_of_nil & _)|[_ ->]]]]; done.
  - apply NoDup_cons in Hnd as [Hn Hnd]. csimpl in *. case_decide as Heq.
    + subst n'. setoid_rewrite elem_of_cons. split.
      * intros [[= -> ->]|Hin].
        -- right. split; [done|]. left. exists t'. split; [by left|done].
        -- left. split; [|by right]. intros ->. apply Hn. apply elem_of_list_fmap. by exists (trig_name b tr, tr0).
      * intros [[Hne [Heq|Hin]]|[-> [(t0 & [Heq|Hin] & ->)|[Hni ->]]]].
        -- by injection Heq as ->.
        -- by right.
        -- injection Heq as ->. by left.
        -- exfalso. apply Hn. apply elem_of_list_fmap. by exists (trig_name b tr, t0).
        -- exfalso. apply Hni. by left.
    + setoid_rewrite elem_of_cons. rewrite IH by done. split.
      * intros [[= -> ->]|[[Hne Hin]|[-> [(t0 & Hin & ->)|[Hni ->]]]]].
        -- left. split; [done|by left].
        -- left. split; [done|by right].
        -- right. split; [done|]. left. exists t0. split; [by right|done].
        -- right. split; [done|]. right. split; [|done]. intros [He|?]; [by apply Heq|done].
      * intros [[Hne [He|Hin]]|[-> [(t0 & [He|Hin] & ->)|[Hni ->]]]].
        -- by left.
        -- right. left. done.
        -- injection He as He _. done.
        -- right. right. split; [done|]. left. by exists t0.
        -- right. right. split; [done|]. right. split; [|done]. intros ?. apply Hni. by right.
Qed.

Lemma tset_add_nodup b ts tr : NoDup ts.*1 → NoDup (tset_add b ts tr).*1.
Proof.
  intros H. destruct (tset_add_keys b ts tr) as [->|[-> Hn]]; [done|].
  apply NoDup_app. split_and!; [done| |apply NoDup_singleton].
  intros x Hx ->%elem_of_list_singleton. done.
Qed.

Lemma tset_ok_add b l ts tr : tset_ok b l ts → tset_ok b (l ++ [tr]) (tset_add b ts tr).
Proof.
  intros [Hnd Hc Hs]. split.
  - by apply tset_add_nodup.
  - intros tr' [Hin| ->%elem_of_list_singleton]%elem_of_app.
    + destruct (Hc _ Hin) as (tr0 & H0 & Ha). destruct (decide (trig_name b tr' = trig_name b tr)) as [He|Hne].
      * exists (trig_append tr0 (t_acts tr)). split.
        -- apply tset_add_spec; [done|]. right. split; [done|]. left. by exists tr0.
        -- intros a Hina. simpl. apply elem_of_app. left. by apply Ha.
      * exists tr0. split; [|done]. apply tset_add_spec; [done|]. left. done.
    + destruct (decide (trig_name b tr ∈ ts.*1)) as [Hk|Hk].
      * apply elem_of_list_fmap in Hk as ([n t0] & Hn & Hin). simpl in Hn. subst n.
        exists (trig_append t0 (t_acts tr)). split.
        -- apply tset_add_spec; [done|]. right. split; [done|]. left. by exists t0.
        -- intros a Hina. simpl. apply elem_of_app. by right.
      * exists tr. split; [|done]. apply tset_add_spec; [done|]. right. split; [done|]. by right.
  - intros n tr0 Hin. apply tset_add_spec in Hin; [|done].
    destruct Hin as [[Hne Hin]|[-> [(t0 & Hin & ->)|[Hni ->]]]].
    + destruct (Hs _ _ Hin) as [(tr1 & H1 & H2 & H3) H4]. split.
      * exists tr1. split_and!; [apply elem_of_app; by left|done|done].
      * intros a Ha. destruct (H4 _ Ha) as (tr2 & ? & ? & ?). exists tr2. split_and!; [apply elem_of_app; by left|done|done].
    + destruct (Hs _ _ Hin) as [(tr1 & H1 & H2 & H3) H4]. split.
      * exists tr1. split_and!; [apply elem_of_app; by left|done|done].
      * intros a Ha. simpl in Ha. apply elem_of_app in Ha as [Ha|Ha].
        -- destruct (H4 _ Ha) as (tr2 & ? & ? & ?). exists tr2. split_and!; [apply elem_of_app; by left|done|done].
        -- exists tr. split_and!; [apply elem_of_app; right; by left|done|done].
    + split.
      * exists tr. split_and!; [apply elem_of_app; right; by left|done|]. unfold same_head; auto.
      * intros a Ha. exists tr. split_and!; [apply elem_of_app; right; by left|done|done].
Qed.

Lemma tset_ok_append b l ts l' : tset_ok b l ts → tset_ok b (l ++ l') (tset_append b ts l').
Proof.
  revert l ts. induction l' as [|tr l' IH]; intros l ts H; simpl; [by rewrite app_nil_r|].
  rewrite (cons_middle tr l l'), (assoc_L app). apply IH. by apply tset_ok_add.
Qed.
Lemma tset_ok_nil b : tset_ok b [] [].
Proof. split; [apply NoDup_nil_2|intros ? H|intros ? ? H]; by apply elem_of_nil in H. Qed.

(** ** All triggers generated for a schema, before merging. *)
Definition gen_all (S : schema) : res (list trigger) :=
  foldM (λ acc p, let* l := field_triggers S p.1 p.2 in Ok (acc ++ l)) [] (alldenorms S).

Lemma build_gen b S ts : build_triggerset b S = Ok ts → ∃ l, gen_all S = Ok l ∧ tset_ok b l ts.
Proof.
  unfold build_triggerset, gen_all. generalize (alldenorms S). intros ps.
  assert (Hg : ∀ acc ts0 ts, tset_ok b acc ts0 →
    foldM (λ ts p, let* l := field_triggers S p.1 p.2 in Ok (tset_append b ts l)) ts0 ps = Ok ts →
    ∃ l, foldM (λ acc p, let* l := field_triggers S p.1 p.2 in Ok (acc ++ l)) acc ps = Ok l ∧ tset_ok b l ts).
  { induction ps as [|p ps IH]; intros acc ts0 ts1 Hok H; simpl in *.
    - injection H as <-. by exists acc.
    - inv_bind H. inv_bind H0. injection H0 as <-. rewrite H1. simpl.
      eapply IH; [|exact H]. by apply tset_ok_append. }
  apply Hg, tset_ok_nil.
Qed.

Lemma gen_all_elem S l tr : gen_all S = Ok l →
  tr ∈ l ↔ ∃ m f lf, (m, f) ∈ alldenorms S ∧ field_triggers S m f = Ok lf ∧ tr ∈ lf.
Proof.
  unfold gen_all. generalize (alldenorms S). intros ps.
  assert (Hg : ∀ acc l, foldM (λ acc p, let* l := field_triggers S p.1 p.2 in Ok (acc ++ l)) acc ps = Ok l →
     tr ∈ l ↔ tr ∈ acc ∨ ∃ m f lf, (m, f) ∈ ps ∧ field_triggers S m f = Ok lf ∧ tr ∈ lf).
  { induction ps as [|[m f] ps IH]; intros acc l0 H; simpl in *.
    - injection H as <-. split; [by left|]. intros [?|(?&?&?&?%elem_of_nil&_)]; done.
    - inv_bind H. inv_bind H0. injection H0 as <-. rewrite (IH _ _ H), elem_of_app.
      setoid_rewrite elem_of_cons. split.
      + intros [[?|?]|(m'&f'&lf&?&?&?)]; [by left|right; eauto 10|right; eauto 10].
      + intros [?|(m'&f'&lf&[[= -> ->]|?]&?&?)]; [by left; left| |right; eauto 10].
        left. right. by assert (lf = a0) as -> by congruence. }
  intros H. rewrite (Hg _ _ H). split; [intros [?%elem_of_nil|?]; [done|done]|by right].
Qed.
Lemma gen_all_ok S l m f : gen_all S = Ok l → (m, f) ∈ alldenorms S → ∃ lf, field_triggers S m f = Ok lf.
Proof.
  unfold gen_all. generalize (@nil trigger). generalize (alldenorms S). intros ps acc.
  revert acc l. induction ps as [|p ps IH]; intros acc l H Hin; [by apply elem_of_nil in Hin|].
  simpl in H. inv_bind H. inv_bind H0. apply elem_of_cons in Hin as [<-|Hin]; [eauto|].
  eapply IH; eauto.
Qed.

Lemma alldenorms_elem S m f : wf_schema S →
  (m, f) ∈ alldenorms S ↔ m ∈ s_models S ∧ f ∈ m_fields m ∧ is_denorm f = true.
Proof.
  intros Hwf. unfold alldenorms. rewrite elem_of_list_bind. split.
  - intros (m0 & H & Hm0). pose proof (wf_models _ Hwf _ Hm0) as W. rewrite (wf_noproxy _ _ W) in H.
    apply elem_of_list_bind in H as (f0 & H & Hf0). destruct (is_denorm f0) eqn:Hd; [|by apply elem_of_nil in H].
    rewrite (wf_owner _ _ W _ Hf0) in H. rewrite (find_model_self _ _ (wf_names _ Hwf) Hm0) in H.
    rewrite (wf_noswap _ _ W) in H. apply elem_of_list_singleton in H as [= -> ->]. done.
  - intros (Hm & Hf & Hd). exists m. split; [|done]. pose proof (wf_models _ Hwf _ Hm) as W.
    rewrite (wf_noproxy _ _ W). apply elem_of_list_bind. exists f. split; [|done]. rewrite Hd.
    rewrite (wf_owner _ _ W _ Hf), (find_model_self _ _ (wf_names _ Hwf) Hm), (wf_noswap _ _ W). by left.
Qed.

Lemma deps_triggers_spec S this g ds l : deps_triggers S this g ds = Ok l →
  (∀ dp, dp ∈ ds → ∃ o, find_model S (dep_other dp) = Some o ∧ ∀ tr, tr ∈ g this o dp → tr ∈ l) ∧
  (∀ tr, tr ∈ l → ∃ dp o, dp ∈ ds ∧ find_model S (dep_other dp) = Some o ∧ tr ∈ g this o dp).
Proof.
  unfold deps_triggers.
  assert (Hg : ∀ acc l, foldM (λ acc dp, with_model S (dep_other dp) (λ o, Ok (acc ++ g this o dp))) acc ds = Ok l →
    (∀ tr, tr ∈ acc → tr ∈ l) ∧
    (∀ dp, dp ∈ ds → ∃ o, find_model S (dep_other dp) = Some o ∧ ∀ tr, tr ∈ g this o dp → tr ∈ l) ∧
    (∀ tr, tr ∈ l → tr ∈ acc ∨ ∃ dp o, dp ∈ ds ∧ find_model S (dep_other dp) = Some o ∧ tr ∈ g this o dp)).
  { induction ds as [|dp ds IH]; intros acc l0 H; simpl in H.
    - injection H as <-. split_and!; [done|by intros ? ?%elem_of_nil|by left].
    - inv_bind H. unfold with_model in H0. destruct (find_model S (dep_other dp)) as [o|] eqn:Ho; [|done].
      injection H0 as <-. destruct (IH _ _ H) as (H1 & H2 & H3). split_and!.
      + intros tr Htr. apply H1, elem_of_app. by left.
      + intros dp' [->|Hin]%elem_of_cons; [|by apply H2]. exists o. split; [done|].
        intros tr Htr. apply H1, elem_of_app. by right.
      + intros tr Htr. destruct (H3 _ Htr) as [Hin|(dp' & o' & ? & ? & ?)].
        * apply elem_of_app in Hin as [?|?]; [by left|]. right. exists dp, o. split_and!; [left|done|done].
        * right. exists dp', o'. split_and!; [by right|done|done]. }
  intros H. destruct (Hg _ _ H) as (_ & H2 & H3). split; [done|]. intros tr Htr.
  destruct (H3 _ Htr) as [?%elem_of_nil|?]; done.
Qed.

(** ** Installed triggers *)
Definition names_ok (b : backend) (l : list trigger) : Prop := ∀ t1 t2, t1 ∈ l → t2 ∈ l →
  trig_name b t1 = trig_name b t2 →
  t_tab t1 = t_tab t2 ∧ t_ev t1 = t_ev t2 ∧
  (b ≠ MySQL → t_ctf t1 = t_ctf t2 ∧ (t_ctf t1 ≠ None → t_ct t1 = t_ct t2)).

Lemma mapM_res_elem {A B} (f : A → res B) l l' : mapM_res f l = Ok l' →
  (∀ x, x ∈ l → ∃ y, f x = Ok y ∧ y ∈ l') ∧ (∀ y, y ∈ l' → ∃ x, x ∈ l ∧ f x = Ok y).
Proof.
  revert l'. induction l as [|x l IH]; intros l' H; simpl in H.
  - injection H as <-. split; by intros ? ?%elem_of_nil.
  - inv_bind H. inv_bind H. injection H as <-. destruct (IH _ H1) as [I1 I2]. split.
    + intros y [->|Hy]%elem_of_cons; [exists a; split; [done|left]|].
      destruct (I1 _ Hy) as (z & ? & ?). exists z. split; [done|by right].
    + intros y [->|Hy]%elem_of_cons; [exists x; split; [left|done]|].
      destruct (I2 _ Hy) as (z & ? & ?). exists z. split; [by right|done].
Qed.

Lemma trig_sql_spec b tr it : trig_sql b tr = Ok it →
  i_name it = trig_name b tr ∧ i_tab it = t_tab tr ∧ i_ev it = t_ev tr ∧
  trig_cond b tr = Ok (i_cond it) ∧ i_acts it = dedup [] (t_acts tr).
Proof.
  unfold trig_sql. intros H. inv_bind H. repeat case_match; try done; injection H as <-; done.
Qed.

(** What is installed, in terms of the generated triggers. *)
Record inst_ok (b : backend) (l : list trigger) (its : list itrig) : Prop := InstOk {
  io_complete : ∀ tr a, tr ∈ l → a ∈ t_acts tr →
    ∃ it tr1, it ∈ its ∧ tr1 ∈ l ∧ i_name it = trig_name b tr ∧ trig_name b tr1 = trig_name b tr ∧
      i_tab it = t_tab tr1 ∧ i_ev it = t_ev tr1 ∧ trig_cond b tr1 = Ok (i_cond it) ∧ a ∈ i_acts it;
  io_sound : ∀ it, it ∈ its →
    ∃ tr1, tr1 ∈ l ∧ i_name it = trig_name b tr1 ∧ i_tab it = t_tab tr1 ∧ i_ev it = t_ev tr1 ∧
      trig_cond b tr1 = Ok (i_cond it) ∧ NoDup (i_acts it) ∧
      ∀ a, a ∈ i_acts it → ∃ tr2, tr2 ∈ l ∧ trig_name b tr2 = trig_name b tr1 ∧ a ∈ t_acts tr2;
  io_names : NoDup (i_name <$> its)
}.

Lemma trig_cond_same_head b t1 t2 : same_head t1 t2 → trig_cond b t1 = trig_cond b t2.
Proof. intros (H1 & H2 & H3 & H4 & H5). unfold trig_cond. by rewrite H2, H3, H4, H5. Qed.
Lemma trig_name_same_head b t1 t2 : same_head t1 t2 → trig_name b t1 = trig_name b t2.
Proof. intros (H1 & H2 & H3 & H4 & H5). unfold trig_name, base_name. by rewrite H1, H2, H4, H5. Qed.

Lemma installed_ok b S its : installed b S = Ok its → ∃ l, gen_all S = Ok l ∧ inst_ok b l its.
Proof.
  unfold installed. intros H. inv_bind H. destruct (build_gen _ _ _ H0) as (l & Hl & Hok).
  exists l. split; [done|]. destruct (mapM_res_elem _ _ _ H) as [M1 M2].
  destruct Hok as [Hnd Hc Hs]. split.
  - intros tr ac Htr Hac. destruct (Hc _ Htr) as (tr0 & Hin & Hacts).
    destruct (M1 _ Hin) as (it & Hsql & Hit). simpl in Hsql. apply trig_sql_spec in Hsql as (E1 & E2 & E3 & E4 & E5).
    destruct (Hs _ _ Hin) as [(tr1 & T1 & T2 & T3) _]. exists it, tr1.
    destruct T3 as (h1 & h2 & h3 & h4 & h5).
    split_and!; try done.
    + rewrite E1. rewrite (trig_name_same_head b tr0 tr1) by done. done.
    + congruence.
    + congruence.
    + rewrite <- E4. symmetry. by apply trig_cond_same_head.
    + rewrite E5. apply elem_dedup. split; [by apply Hacts|apply not_elem_of_nil].
  - intros it Hit. destruct (M2 _ Hit) as ([n tr0] & Hin & Hsql). simpl in Hsql.
    apply trig_sql_spec in Hsql as (E1 & E2 & E3 & E4 & E5).
    destruct (Hs _ _ Hin) as [(tr1 & T1 & T2 & T3) T4]. exists tr1.
    pose proof T3 as (h1 & h2 & h3 & h4 & h5).
    split_and!; try congruence.
    + rewrite E1. by apply trig_name_same_head.
    + rewrite <- E4. symmetry. by apply trig_cond_same_head.
    + rewrite E5. apply NoDup_dedup.
    + intros a1 Ha1. rewrite E5 in Ha1. apply elem_dedup in Ha1 as [Ha1 _].
      destruct (T4 _ Ha1) as (tr2 & ? & ? & ?). exists tr2. split_and!; [done|congruence|done].
  - assert (Hn : ∀ ts its, mapM_res (λ p : string * trigger, trig_sql b p.2) ts = Ok its →
       (∀ n t, (n, t) ∈ ts → n = trig_name b t) → i_name <$> its = ts.*1).
    { clear. induction ts as [|[n t] ts IH]; intros its H Hk; simpl in H; [by injection H as <-|].
      inv_bind H. inv_bind H. injection H as <-. csimpl. rewrite (IH _ H1).
      - f_equal. apply trig_sql_spec in H0 as (-> & _). symmetry. apply Hk. left.
      - intros ???. apply Hk. by right. }
    erewrite Hn; [exact Hnd|exact H|]. intros n t Hin.
    destruct (Hs _ _ Hin) as [(tr1 & T1 & T2 & T3) _]. rewrite <- T2. symmetry. by apply trig_name_same_head.
Qed.
