(** * One trigger per table, event and content type; registering twice; names. *)
From Verif Require Import Base BaseLemmas Schema TrigSet Gen Exec Orm Spec GenLemmas Merge Conditions.

(** What a trigger stands for: table, event and, for triggers of generic relations on
    SQLite and PostgreSQL, the content type (db/base.py:134-142, db/sqlite3/triggers.py:54-58,
    db/postgresql/triggers.py:58-62). *)
Definition slot (b : backend) (tr : trigger) : string * evkind * option Z :=
  (t_tab tr, t_ev tr, match b, t_ctf tr with MySQL, _ | _, None => None | _, Some _ => Some (t_ct tr) end).

Lemma slot_name b t1 t2 : slot b t1 = slot b t2 → trig_name b t1 = trig_name b t2.
Proof.
  unfold slot, trig_name, base_name. intros [= -> -> H].
  destruct b, (t_ctf t1), (t_ctf t2); try done; by injection H as ->.
Qed.
Lemma names_ok_slot b l t1 t2 : names_ok b l → t1 ∈ l → t2 ∈ l → trig_name b t1 = trig_name b t2 → slot b t1 = slot b t2.
Proof.
  intros Hn H1 H2 He. destruct (Hn _ _ H1 H2 He) as (E1 & E2 & E3). unfold slot. rewrite E1, E2. f_equal.
  destruct (decide (b = MySQL)) as [->|Hb]; [done|]. destruct (E3 Hb) as [E4 E5]. rewrite <- E4.
  destruct b; try done; (destruct (t_ctf t1); [f_equal; by apply E5|done]).
Qed.
(** Different triggers may only share a name when exactly one of them is generic. *)
Lemma name_slot b t1 t2 : trig_name b t1 = trig_name b t2 → (b = MySQL ∨ (t_ctf t1 = None ↔ t_ctf t2 = None)) → slot b t1 = slot b t2.
Proof.
  rewrite !trig_name_full. intros [He Ht]%base_name_inj Hg. unfold slot. rewrite He.
  destruct (decide (b = MySQL)) as [->|Hb]; [unfold full_tab in Ht; by rewrite Ht|].
  destruct Hg as [?|Hg]; [done|].
  destruct (t_ctf t1) as [c1|] eqn:C1, (t_ctf t2) as [c2|] eqn:C2; [|naive_solver..|].
  - assert (Ht' : t_tab t1 +:+ "_" +:+ pretty (t_ct t1) = t_tab t2 +:+ "_" +:+ pretty (t_ct t2)) by (unfold full_tab in Ht; rewrite C1, C2 in Ht; by destruct b).
    apply (split_last us) in Ht' as [-> Hp]; [|apply pretty_Z_us..]. apply pretty_Z_inj' in Hp as ->. done.
  - assert (t_tab t1 = t_tab t2) as -> by (unfold full_tab in Ht; rewrite C1, C2 in Ht; by destruct b). by destruct b.
Qed.

Lemma same_head_slot b t1 t2 : same_head t1 t2 → slot b t1 = slot b t2.
Proof. intros (H1 & H2 & H3 & H4 & H5). unfold slot. by rewrite H1, H2, H4, H5. Qed.

Lemma one_per_slot b S ts p q : build_triggerset b S = Ok ts → p ∈ ts → q ∈ ts → slot b p.2 = slot b q.2 → p = q.
Proof.
  intros H Hp Hq Hs. destruct (build_gen _ _ _ H) as (l & Hl & [Hnd _ Hso]). destruct p as [n t], q as [n' t']. simpl in Hs.
  apply slot_name in Hs.
  destruct (Hso _ _ Hp) as [(t1 & _ & <- & Hh1) _]. destruct (Hso _ _ Hq) as [(t2 & _ & <- & Hh2) _].
  rewrite (trig_name_same_head b _ _ Hh1), (trig_name_same_head b _ _ Hh2) in Hs.
  by eapply (NoDup_fmap_eq fst).
Qed.

Lemma names_apart_ok' b S l : wf_schema S → gen_all S = Ok l → names_apart S → names_ok b l.
Proof.
  intros Hwf Hl [Hna Hct] t1 t2 H1 H2 Hn. rewrite !trig_name_full in Hn. apply base_name_inj in Hn as [He Ht].
  destruct (trigger_where _ _ Hwf Hl _ H1) as [T1 G1]. destruct (trigger_where _ _ Hwf Hl _ H2) as [T2 G2].
  destruct (decide (b = MySQL)) as [->|Hb].
  { unfold full_tab in Ht. split_and!; done. }
  assert (Hgo : (match t_ctf t1 with None => t_tab t1 | Some _ => t_tab t1 +:+ "_" +:+ pretty (t_ct t1) end) =
                (match t_ctf t2 with None => t_tab t2 | Some _ => t_tab t2 +:+ "_" +:+ pretty (t_ct t2) end)).
  { unfold full_tab in Ht. destruct b; [done|done|done]. }
  clear Ht. destruct (t_ctf t1) as [c1|] eqn:C1, (t_ctf t2) as [c2|] eqn:C2.
  - apply (split_last us) in Hgo as [Htab Hp]; [|apply pretty_Z_us..]. apply pretty_Z_inj' in Hp.
    split_and!; [done|done|]. intros _. split; [|done]. f_equal.
    eapply Hct; [by eapply G1|]. rewrite Htab, Hp. by apply G2.
  - exfalso. by eapply Hna; [apply G1|exact T2|].
  - exfalso. by eapply Hna; [apply G2|exact T1|].
  - split_and!; [done|done|]. done.
Qed.
Lemma acts_exact b S ts : wf_schema S → names_apart S → build_triggerset b S = Ok ts →
  (∀ n tr0 it, (n, tr0) ∈ ts → trig_sql b tr0 = Ok it →
    NoDup (i_acts it) ∧ i_tab it = t_tab tr0 ∧ i_ev it = t_ev tr0 ∧
    ∀ a, a ∈ i_acts it ↔ ∃ m f lf tr, (m, f) ∈ alldenorms S ∧ field_triggers S m f = Ok lf ∧ tr ∈ lf ∧ slot b tr = slot b tr0 ∧ a ∈ t_acts tr) ∧
  (∀ m f, (m, f) ∈ alldenorms S → ∃ lf, field_triggers S m f = Ok lf ∧ ∀ tr, tr ∈ lf → ∃ n tr0, (n, tr0) ∈ ts ∧ slot b tr = slot b tr0).
Proof.
  intros Hwf Hna H. destruct (build_gen _ _ _ H) as (l & Hl & [Hnd Hc Hs]).
  assert (Hn : names_ok b l) by by eapply names_apart_ok'.
  split.
  - intros n tr0 it Hin Hsql. apply trig_sql_spec in Hsql as (_ & E2 & E3 & _ & E5). split; [rewrite E5; apply NoDup_dedup|]. split; [done|]. split; [done|].
    destruct (Hs _ _ Hin) as [(t1 & H1 & H2 & H3) H4].
    intros a. rewrite E5, elem_dedup. split.
    + intros [Ha _]. destruct (H4 _ Ha) as (tr2 & G1 & G2 & G3). destruct (proj1 (gen_all_elem _ _ _ Hl) G1) as (m & f & lf & ? & ? & ?).
      exists m, f, lf, tr2. split_and!; [done|done|done| |done]. rewrite (same_head_slot b _ _ H3). eapply names_ok_slot; [exact Hn|done|done|congruence].
    + intros (m & f & lf & tr & G1 & G2 & G3 & G4 & G5). split; [|by apply not_elem_of_nil].
      assert (Htr : tr ∈ l) by (apply (gen_all_elem _ _ _ Hl); eauto 10).
      destruct (Hc _ Htr) as (tr3 & G6 & G7). assert (trig_name b tr = n).
      { rewrite (same_head_slot b _ _ H3) in G4. apply slot_name in G4. congruence. }
      assert (tr3 = tr0) as <-; [|by apply G7]. subst n. eassert (HH : (_, tr3) = (_, tr0)) by (eapply (NoDup_fmap_eq fst); [exact Hnd|exact G6|exact Hin|done]). by injection HH.
  - intros m f Hmf. destruct (gen_all_ok _ _ _ _ Hl Hmf) as [lf Hlf]. exists lf. split; [done|]. intros tr Htr.
    assert (Hin : tr ∈ l) by (apply (gen_all_elem _ _ _ Hl); eauto 10).
    destruct (Hc _ Hin) as (tr0 & G1 & _). exists (trig_name b tr), tr0. split; [done|].
    destruct (Hs _ _ G1) as [(t1 & H1 & H2 & H3) _]. rewrite (same_head_slot b _ _ H3). by eapply names_ok_slot.
Qed.

(** ** Registering twice *)
Definition build_from (b : backend) (S : schema) (ps : list (model * field)) : res tset :=
  foldM (λ ts p, let* l := field_triggers S p.1 p.2 in Ok (tset_append b ts l)) [] ps.

(** Membership is all that matters about the actions already seen. *)
Lemma dedup_seen l : ∀ s1 s2, (∀ a, a ∈ s1 ↔ a ∈ s2) → dedup s1 l = dedup s2 l.
Proof.
  induction l as [|a l IH]; intros s1 s2 H; simpl; [done|]. destruct (decide (a ∈ s1)) as [H1|H1].
  - rewrite decide_True by (by apply H). by apply IH.
  - rewrite decide_False by (by rewrite <- H). f_equal. apply IH. intros x. rewrite !elem_of_cons, H. done.
Qed.
Lemma dedup_app l1 l2 : ∀ s, dedup s (l1 ++ l2) = dedup s l1 ++ dedup (l1 ++ s) l2.
Proof.
  induction l1 as [|a l1 IH]; intros s; simpl; [done|]. destruct (decide (a ∈ s)) as [Ha|Ha].
  - rewrite IH. f_equal. apply dedup_seen. intros x. rewrite elem_of_cons, !elem_of_app. naive_solver.
  - simpl. f_equal. rewrite IH. f_equal. apply dedup_seen. intros x. rewrite !elem_of_cons, !elem_of_app, elem_of_cons. tauto.
Qed.
Lemma dedup_none l s : (∀ a, a ∈ l → a ∈ s) → dedup s l = [].
Proof. induction l as [|a l IH]; intros H; simpl; [done|]. rewrite decide_True by (apply H; left). apply IH. intros. apply H. by right. Qed.

(** Trigger sets that install the same. *)
Definition teq (p q : string * trigger) : Prop := p.1 = q.1 ∧ same_head p.2 q.2 ∧ dedup [] (t_acts p.2) = dedup [] (t_acts q.2).
Lemma dedup_eq_elem A B : dedup [] A = dedup [] B → ∀ a, a ∈ A ↔ a ∈ B.
Proof.
  intros H a. assert (H1 := elem_dedup [] A a). assert (H2 := elem_dedup [] B a). rewrite H in H1. pose proof (not_elem_of_nil a). tauto.
Qed.
Lemma teq_refl ts : Forall2 teq ts ts.
Proof. apply Forall2_same_length_lookup_2; [done|]. intros i x y Hx Hy. assert (x = y) as -> by congruence. split_and!; [done|unfold same_head; auto|done]. Qed.
Lemma teq_add b ts ts' tr : Forall2 teq ts ts' → Forall2 teq (tset_add b ts tr) (tset_add b ts' tr).
Proof.
  induction 1 as [|[n t] [n' t'] ts ts' (H1 & H2 & H3) Hf IH]; simpl; [apply teq_refl|]. simpl in *. subst n'. case_decide.
  - constructor; [|done]. split; [done|]. split; [done|]. simpl. rewrite !dedup_app, H3. f_equal. apply dedup_seen.
    intros a. rewrite !elem_of_app. by rewrite (dedup_eq_elem _ _ H3 a).
  - constructor; [done|done].
Qed.
Lemma teq_append b l ts ts' : Forall2 teq ts ts' → Forall2 teq (tset_append b ts l) (tset_append b ts' l).
Proof. revert ts ts'. induction l as [|tr l IH]; intros ts ts' H; simpl; [done|]. by apply IH, teq_add. Qed.
Lemma teq_trans ts1 ts2 ts3 : Forall2 teq ts1 ts2 → Forall2 teq ts2 ts3 → Forall2 teq ts1 ts3.
Proof. apply Forall2_transitive. intros x y z (A1 & (A2 & A3 & A4 & A5 & A6) & A7) (B1 & (B2 & B3 & B4 & B5 & B6) & B7). split_and!; [congruence|unfold same_head; split_and!; congruence|congruence]. Qed.
Lemma teq_sql b ts ts' : Forall2 teq ts ts' → tset_sql b ts = tset_sql b ts'.
Proof.
  unfold tset_sql. induction 1 as [|[n t] [n' t'] ts ts' (H1 & H2 & H3) Hf IH]; simpl; [done|]. simpl in *.
  assert (trig_sql b t = trig_sql b t') as ->.
  { unfold trig_sql. rewrite (trig_cond_same_head b _ _ H2), (trig_name_same_head b _ _ H2), H3. destruct H2 as (-> & -> & _). done. }
  by rewrite IH.
Qed.
(** A trigger all of whose actions its namesake has already. *)
Definition has (b : backend) (ts : tset) (tr : trigger) : Prop := ∃ tr0, (trig_name b tr, tr0) ∈ ts ∧ ∀ a, a ∈ t_acts tr → a ∈ t_acts tr0.
Lemma add_again b ts tr : NoDup ts.*1 → has b ts tr → Forall2 teq (tset_add b ts tr) ts.
Proof.
  intros Hnd (tr0 & Hin & Ha). induction ts as [|[n t] ts IH]; [by apply elem_of_nil in Hin|]. csimpl in Hnd. apply NoDup_cons in Hnd as [Hn Hnd]. simpl.
  case_decide as Hd.
  - subst n. constructor; [|apply teq_refl]. split; [done|]. split; [unfold same_head; auto|]. simpl.
    assert (t = tr0) as ->. { apply elem_of_cons in Hin as [[= ->]|Hin]; [done|]. exfalso. apply Hn. apply elem_of_list_fmap. by exists (trig_name b tr, tr0). }
    rewrite dedup_app, (dedup_none (t_acts tr)), app_nil_r; [done|]. intros a H. apply elem_of_app. left. by apply Ha.
  - constructor; [split_and!; [done|unfold same_head; auto|done]|]. apply IH; [done|]. apply elem_of_cons in Hin as [[= <- <-]|Hin]; [done|done].
Qed.
Lemma has_add b ts tr tr' : NoDup ts.*1 → has b ts tr → has b (tset_add b ts tr') tr.
Proof.
  intros Hnd (tr0 & Hin & Ha). destruct (decide (trig_name b tr = trig_name b tr')) as [He|Hne].
  - exists (trig_append tr0 (t_acts tr')). split; [|intros a H; apply elem_of_app; left; by apply Ha].
    apply tset_add_spec; [done|]. right. split; [done|]. left. by exists tr0.
  - exists tr0. split; [|done]. apply tset_add_spec; [done|]. by left.
Qed.
Lemma append_again b l : ∀ ts, NoDup ts.*1 → (∀ tr, tr ∈ l → has b ts tr) → Forall2 teq (tset_append b ts l) ts.
Proof.
  induction l as [|tr l IH]; intros ts Hnd H; simpl; [apply teq_refl|].
  eapply teq_trans; [apply IH|].
  - by apply tset_add_nodup.
  - intros tr' Htr'. apply has_add; [done|]. apply H. by right.
  - apply add_again; [done|]. apply H. left.
Qed.
Lemma foldM_app {A B} (f : A → B → res A) l1 l2 : ∀ a, foldM f a (l1 ++ l2) = rbind (foldM f a l1) (λ a', foldM f a' l2).
Proof. induction l1 as [|x l1 IH]; intros a; simpl; [done|]. destruct (f a x); simpl; [apply IH|done]. Qed.
Lemma build_from_ok b S ps ts : build_from b S ps = Ok ts → NoDup ts.*1 ∧ ∀ p, p ∈ ps → ∃ l, field_triggers S p.1 p.2 = Ok l ∧ ∀ tr, tr ∈ l → has b ts tr.
Proof.
  assert (Hg : ∀ ts0 ts, NoDup ts0.*1 → foldM (λ ts p, let* l := field_triggers S p.1 p.2 in Ok (tset_append b ts l)) ts0 ps = Ok ts →
    NoDup ts.*1 ∧ (∀ tr, has b ts0 tr → has b ts tr) ∧ ∀ p, p ∈ ps → ∃ l, field_triggers S p.1 p.2 = Ok l ∧ ∀ tr, tr ∈ l → has b ts tr).
  { induction ps as [|p ps IH]; intros ts0 ts1 Hnd H; simpl in H.
    - injection H as <-. split_and!; [done|done|by intros ? ?%elem_of_nil].
    - inv_bind H. inv_bind H0. injection H0 as <-.
      assert (Hap : ∀ lx tsx, NoDup tsx.*1 → NoDup (tset_append b tsx lx).*1 ∧ (∀ tr, has b tsx tr → has b (tset_append b tsx lx) tr) ∧ ∀ tr, tr ∈ lx → has b (tset_append b tsx lx) tr).
      { clear. induction lx as [|tr lx IH]; intros tsx Hnd; simpl; [split_and!; [done|done|by intros ? ?%elem_of_nil]|].
        destruct (IH (tset_add b tsx tr)) as (I1 & I2 & I3); [by apply tset_add_nodup|]. split_and!; [done| |].
        - intros tr' H. apply I2. by apply has_add.
        - intros tr' [->|H]%elem_of_cons; [|by apply I3]. apply I2.
          destruct (decide (trig_name b tr ∈ tsx.*1)) as [Hk|Hk].
          + apply elem_of_list_fmap in Hk as ([n t0] & Hn & Hin). simpl in Hn. subst n. exists (trig_append t0 (t_acts tr)). split.
            * apply tset_add_spec; [done|]. right. split; [done|]. left. by exists t0.
            * intros a Ha. apply elem_of_app. by right.
          + exists tr. split; [|done]. apply tset_add_spec; [done|]. right. split; [done|]. by right. }
      destruct (Hap a0 ts0 Hnd) as (A1 & A2 & A3). destruct (IH _ _ A1 H) as (I1 & I2 & I3). split_and!; [done| |].
      + intros tr Htr. by apply I2, A2.
      + intros p' [->|Hp]%elem_of_cons; [|by apply I3]. exists a0. split; [done|]. intros tr Htr. by apply I2, A3. }
  intros H. destruct (Hg [] ts) as (H1 & _ & H3); [apply NoDup_nil_2|exact H|]. done.
Qed.
Lemma twice_same b S p ps1 ps2 : p ∈ ps1 →
  (let* ts := build_from b S (ps1 ++ p :: ps2) in tset_sql b ts) = (let* ts := build_from b S (ps1 ++ ps2) in tset_sql b ts).
Proof.
  intros Hp. unfold build_from. rewrite !foldM_app. fold (build_from b S ps1). destruct (build_from b S ps1) as [ts1|] eqn:H1; simpl; [|done].
  destruct (build_from_ok b S ps1 ts1 H1) as (Hnd & Hh). destruct (Hh _ Hp) as (l & Hl & Ha). rewrite Hl. simpl.
  assert (Ht : Forall2 teq (tset_append b ts1 l) ts1) by by apply append_again.
  clear -Ht. revert Ht. generalize (tset_append b ts1 l). intros ts0 Ht. revert ts0 ts1 Ht.
  induction ps2 as [|q ps2 IH]; intros ts0 ts1 Ht; simpl; [by apply teq_sql|].
  destruct (field_triggers S q.1 q.2) as [lq|]; simpl; [|done]. apply IH. by apply teq_append.
Qed.
