(** * Merging: an installed trigger runs the actions of all generated triggers of its
    name, in order, each once. *)
From Verif Require Import Base BaseLemmas Schema TrigSet Gen Exec Orm Spec GenLemmas.

Definition merged (b : backend) (l : list trigger) (ts : tset) : Prop :=
  ∀ n tr0, (n, tr0) ∈ ts → t_acts tr0 = concat (t_acts <$> filter (λ tr, trig_name b tr = n) l).
Lemma merged_add b l ts tr : NoDup ts.*1 → (∀ tr, tr ∈ l → trig_name b tr ∈ ts.*1) → merged b l ts → merged b (l ++ [tr]) (tset_add b ts tr).
Proof.
  intros Hnd Hc Hm n tr0 Hin. rewrite filter_app, fmap_app, concat_app. apply tset_add_spec in Hin; [|done].
  destruct Hin as [[Hne Hin]|[-> [(t0 & Hin & ->)|[Hni ->]]]].
  - rewrite (Hm _ _ Hin). rewrite filter_cons_False by done. simpl. by rewrite app_nil_r.
  - rewrite filter_cons_True by done. simpl. rewrite app_nil_r. by rewrite (Hm _ _ Hin).
  - rewrite (filter_cons_True _ tr) by done. simpl. rewrite app_nil_r.
    assert (filter (λ tr', trig_name b tr' = trig_name b tr) l = []) as ->; [|done].
    destruct (filter _ l) as [|x xs] eqn:Hf; [done|]. assert (Hx : x ∈ filter (λ tr', trig_name b tr' = trig_name b tr) l) by (rewrite Hf; left).
    apply elem_of_list_filter in Hx as [Hx1 Hx2]. apply Hc in Hx2. by rewrite Hx1 in Hx2.
Qed.
Lemma tset_add_key b ts tr n : n ∈ (tset_add b ts tr).*1 ↔ n ∈ ts.*1 ∨ n = trig_name b tr.
Proof.
  induction ts as [|[n0 tr0] ts IH]; csimpl.
  - rewrite elem_of_list_singleton, elem_of_nil. tauto.
  - case_decide as Hd; csimpl.
    + rewrite elem_of_cons. split; [tauto|]. intros [?| -> ]; [done|by left].
    + rewrite !elem_of_cons, IH. tauto.
Qed.
Record merge_ok (b : backend) (l : list trigger) (ts : tset) : Prop := MergeOk {
  mo_nodup : NoDup ts.*1;
  mo_keys : ∀ n, n ∈ ts.*1 ↔ ∃ tr, tr ∈ l ∧ trig_name b tr = n;
  mo_acts : merged b l ts
}.
Lemma merge_ok_add b l ts tr : merge_ok b l ts → merge_ok b (l ++ [tr]) (tset_add b ts tr).
Proof.
  intros [H1 H2 H3]. split.
  - by apply tset_add_nodup.
  - intros n. rewrite tset_add_key, H2. setoid_rewrite elem_of_app. setoid_rewrite elem_of_list_singleton. naive_solver.
  - apply merged_add; [done| |done]. intros tr' Htr'. apply H2. eauto.
Qed.
Lemma merge_ok_append b l' : ∀ l ts, merge_ok b l ts → merge_ok b (l ++ l') (tset_append b ts l').
Proof.
  induction l' as [|tr l' IH]; intros l ts H; simpl; [by rewrite app_nil_r|].
  rewrite (cons_middle tr l l'), (assoc_L app). apply IH. by apply merge_ok_add.
Qed.
Lemma merge_ok_nil b : merge_ok b [] [].
Proof. split; [apply NoDup_nil_2| |by intros ??? %elem_of_nil]. intros n. split; [by intros ?%elem_of_nil|by intros (? & ?%elem_of_nil & _)]. Qed.
Lemma build_merge b S ts : build_triggerset b S = Ok ts → ∃ l, gen_all S = Ok l ∧ merge_ok b l ts.
Proof.
  unfold build_triggerset, gen_all. generalize (alldenorms S). intros ps.
  assert (Hg : ∀ acc ts0 ts, merge_ok b acc ts0 →
    foldM (λ ts p, let* l := field_triggers S p.1 p.2 in Ok (tset_append b ts l)) ts0 ps = Ok ts →
    ∃ l, foldM (λ acc p, let* l := field_triggers S p.1 p.2 in Ok (acc ++ l)) acc ps = Ok l ∧ merge_ok b l ts).
  { induction ps as [|p ps IH]; intros acc ts0 ts1 Hok H; simpl in *.
    - injection H as <-. by exists acc.
    - inv_bind H. inv_bind H0. injection H0 as <-. rewrite H1. simpl.
      eapply IH; [|exact H]. by apply merge_ok_append. }
  apply Hg, merge_ok_nil.
Qed.
Lemma installed_merge b S its l : installed b S = Ok its → gen_all S = Ok l → ∀ it, it ∈ its →
  i_acts it = dedup [] (concat (t_acts <$> filter (λ tr, trig_name b tr = i_name it) l)).
Proof.
  unfold installed. intros H Hl it Hit. inv_bind H. pose proof H0 as Hb. apply build_merge in H0 as (l' & Hl' & Hm).
  assert (l' = l) as -> by congruence. destruct (mapM_res_elem _ _ _ H) as [_ M2]. destruct (M2 _ Hit) as ([n tr0] & Hin & Hsql).
  simpl in Hsql. apply trig_sql_spec in Hsql as (E1 & _ & _ & _ & E5). rewrite E5, (mo_acts _ _ _ Hm _ _ Hin). do 3 f_equal.
  assert (n = i_name it) as <-; [|done]. rewrite E1.
  destruct (build_gen _ _ _ Hb) as (l2 & Hl2 & [_ _ Hs]). destruct (Hs _ _ Hin) as [(tr1 & _ & T2 & T3) _].
  rewrite <- T2. first [by apply trig_name_same_head|symmetry; by apply trig_name_same_head].
Qed.
(** Everything but the actions is taken from the first trigger of the name. *)
Definition headed (b : backend) (l : list trigger) (ts : tset) : Prop :=
  ∀ n tr0, (n, tr0) ∈ ts → ∃ tr rest, filter (λ tr, trig_name b tr = n) l = tr :: rest ∧ same_head tr0 tr.
Lemma headed_add b l ts tr : NoDup ts.*1 → (∀ n, n ∈ ts.*1 ↔ ∃ tr, tr ∈ l ∧ trig_name b tr = n) → headed b l ts → headed b (l ++ [tr]) (tset_add b ts tr).
Proof.
  intros Hnd Hc Hm n tr0 Hin. rewrite filter_app. apply tset_add_spec in Hin; [|done].
  destruct Hin as [[Hne Hin]|[-> [(t0 & Hin & ->)|[Hni ->]]]].
  - destruct (Hm _ _ Hin) as (t1 & rest & -> & Hs). simpl. by eexists _, _.
  - destruct (Hm _ _ Hin) as (t1 & rest & -> & Hs). simpl. eexists _, _. split; [done|]. exact Hs.
  - assert (filter (λ tr', trig_name b tr' = trig_name b tr) l = []) as ->.
    { destruct (filter _ l) as [|x xs] eqn:Hf; [done|]. assert (Hx : x ∈ filter (λ tr', trig_name b tr' = trig_name b tr) l) by (rewrite Hf; left).
      apply elem_of_list_filter in Hx as [Hx1 Hx2]. exfalso. apply Hni, Hc. eauto. }
    simpl. rewrite filter_cons_True by done. eexists _, _. split; [done|]. done.
Qed.
Lemma headed_append b l' : ∀ l ts, merge_ok b l ts → headed b l ts → headed b (l ++ l') (tset_append b ts l').
Proof.
  induction l' as [|tr l' IH]; intros l ts H Hh; simpl; [by rewrite app_nil_r|].
  rewrite (cons_middle tr l l'), (assoc_L app). apply IH; [by apply merge_ok_add|]. destruct H as [H1 H2 _]. by apply headed_add.
Qed.
Lemma build_headed b S ts : build_triggerset b S = Ok ts → ∃ l, gen_all S = Ok l ∧ headed b l ts.
Proof.
  unfold build_triggerset, gen_all. generalize (alldenorms S). intros ps.
  assert (Hg : ∀ acc ts0 ts, merge_ok b acc ts0 → headed b acc ts0 →
    foldM (λ ts p, let* l := field_triggers S p.1 p.2 in Ok (tset_append b ts l)) ts0 ps = Ok ts →
    ∃ l, foldM (λ acc p, let* l := field_triggers S p.1 p.2 in Ok (acc ++ l)) acc ps = Ok l ∧ headed b l ts).
  { induction ps as [|p ps IH]; intros acc ts0 ts1 Hok Hh H; simpl in *.
    - injection H as <-. by exists acc.
    - inv_bind H. inv_bind H0. injection H0 as <-. rewrite H1. simpl.
      eapply IH; [| |exact H]; [by apply merge_ok_append|by apply headed_append]. }
  apply Hg; [apply merge_ok_nil|by intros ??? %elem_of_nil].
Qed.
Lemma installed_headed b S its l : installed b S = Ok its → gen_all S = Ok l → ∀ it, it ∈ its →
  ∃ tr rest, filter (λ tr, trig_name b tr = i_name it) l = tr :: rest ∧ i_tab it = t_tab tr ∧ i_ev it = t_ev tr ∧ trig_cond b tr = Ok (i_cond it).
Proof.
  unfold installed. intros H Hl it Hit. inv_bind H. pose proof H0 as Hb. apply build_headed in H0 as (l' & Hl' & Hm).
  assert (l' = l) as -> by congruence. destruct (mapM_res_elem _ _ _ H) as [_ M2]. destruct (M2 _ Hit) as ([n tr0] & Hin & Hsql).
  simpl in Hsql. apply trig_sql_spec in Hsql as (E1 & E2 & E3 & E4 & _). destruct (Hm _ _ Hin) as (tr & rest & Hf & Hs).
  assert (trig_name b tr = n).
  { assert (Hx : tr ∈ filter (λ tr, trig_name b tr = n) l) by (rewrite Hf; left). by apply elem_of_list_filter in Hx as [Hx _]. }
  exists tr, rest. rewrite E1, E2, E3, (trig_name_same_head b tr0 tr) by done. subst n. split; [done|].
  rewrite <- (trig_cond_same_head b tr0 tr) by done. destruct Hs as (S1 & S2 & _). done.
Qed.
(** A prefix after dropping duplicates comes from a prefix before. *)
Lemma dedup_prefix l : ∀ seen X Y, dedup seen l = X ++ Y → ∃ X' Y', l = X' ++ Y' ∧ X = dedup seen X'.
Proof.
  induction l as [|a l IH]; intros seen X Y H; simpl in H.
  - exists [], []. split; [done|]. symmetry in H. by apply app_eq_nil in H as [-> _].
  - destruct (decide (a ∈ seen)) as [Hs|Hs].
    + destruct (IH _ _ _ H) as (X' & Y' & -> & ->). exists (a :: X'), Y'. split; [done|]. simpl. by rewrite decide_True.
    + destruct X as [|x X]; simpl in H.
      * exists [], (a :: l). done.
      * injection H as <- H. destruct (IH _ _ _ H) as (X' & Y' & -> & ->). exists (a :: X'), Y'. split; [done|]. simpl. by rewrite decide_False.
Qed.
(** [x] before [y] *)
Definition before {A} (x y : A) (l : list A) : Prop := ∀ X Y, l = X ++ Y → y ∈ X → x ∈ X.
Lemma before_app {A} (x y : A) l1 l2 : before x y l1 → before x y l2 → before x y (l1 ++ l2).
Proof.
  intros H1 H2 X Y H Hy. apply app_eq_app in H as (k & [[-> ->]|[-> ->]]).
  - eapply H1; [done|done].
  - apply elem_of_app in Hy as [Hy|Hy]; apply elem_of_app.
    + left. eapply (H1 l1 []); [by rewrite app_nil_r|done].
    + right. by eapply (H2 k Y).
Qed.
Lemma before_none {A} (x y : A) l : y ∉ l → before x y l.
Proof. intros Hn X Y -> Hy. exfalso. apply Hn. apply elem_of_app. by left. Qed.
Lemma before_concat {A} (x y : A) ls : (∀ l, l ∈ ls → before x y l) → before x y (concat ls).
Proof.
  induction ls as [|l ls IH]; intros H; simpl; [apply before_none; by apply not_elem_of_nil|].
  apply before_app; [apply H; left|]. apply IH. intros. apply H. by right.
Qed.
Lemma before_dedup x y l : before x y l → before x y (dedup [] l).
Proof.
  intros H X Y Hd Hy. apply dedup_prefix in Hd as (X' & Y' & -> & ->). apply elem_dedup in Hy as [Hy _].
  apply elem_dedup. split; [|by apply not_elem_of_nil]. by eapply H.
Qed.
