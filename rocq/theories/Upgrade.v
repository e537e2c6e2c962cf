(** * Bringing a database up to date after the declarations have changed.

    The catalogue of Install.v decides which triggers fire; the commands denorm_drop,
    denorm_init and denorm_rebuild (management/commands, denorms.py:536-590) are run with the
    new models on a database that was set up for others. *)
From stdpp Require Import relations.
From Verif Require Import Base BaseLemmas Schema TrigSet Gen GenLemmas Exec Orm Flush Spec Engine Marking Conditions Names Render RenderProps Resolve Invariant Settle Sessions Hist Install Machine Frame Passes DaemonData Request.
Open Scope list_scope.

(** The triggers of the catalogue that fire when the models' tables are written: those on a
    table that its unqualified name finds, running what the catalogue says on the table
    they are attached to.  Triggers that denorm did not create are taken to leave
    the tables of the models alone. *)
Definition fires (c : catalog) (e : centry) : option itrig :=
  if decide (find_table c (ce_tab e) = Some (ce_sch e))
  then (λ it, ITrig (i_name it) (ce_tab e) (i_ev it) (i_cond it) (i_acts it)) <$> runs c e
  else None.
Definition cat_trigs (c : catalog) : list itrig := omap (fires c) (ct_trigs c).
(** A session of the application with models [S] on that database. *)
Definition cat_env (b : backend) (S : schema) (rand : nat → Z) (imm : bool) (depth : nat) (c : catalog) : env :=
  Env b (pk_of_table S) (cat_trigs c) rand (schema_fks S) imm depth.
(** Whatever drop does not take for its own is somebody else's. *)
Definition others_foreign (b : backend) (c : catalog) : Prop := ∀ e, e ∈ ct_trigs c → selected b (ce_name e) = false → ∃ n, ce_body e = TForeign n.

Lemma omap_none {A B} (f : A → option B) l : (∀ x, x ∈ l → f x = None) → omap f l = [].
Proof. induction l as [|x l IH]; intros H; [done|]. csimpl. rewrite (H x) by left. apply IH. intros y Hy. apply H. by right. Qed.
Lemma omap_forall2 {A B} (f : A → option B) l (l' : list B) : Forall2 (λ y x, f x = Some y) l' l → omap f l = l'.
Proof. induction 1 as [|y x l' l H _ IH]; [done|]. csimpl. by rewrite H, IH. Qed.
Lemma omap_app' {A B} (f : A → option B) (l l' : list A) : omap f (l ++ l') = omap f l ++ omap f l'.
Proof. induction l as [|x l IH]; [done|]. csimpl. destruct (f x); [|done]. by rewrite IH. Qed.

(** Dropping and installing gives the session that Orm.v assumes. *)
Lemma upgraded_env b S rand imm depth E ts digest rnd c : cat_ok b c → others_foreign b c →
  mk_env b S rand imm depth = Ok E → build_triggerset b S = Ok ts →
  (∀ p, p ∈ ts → fold b (t_tab p.2) = t_tab p.2 ∧ is_Some (find_table c (t_tab p.2))) → NoDup (names_from b digest rnd 0 ts) →
  ∃ c1 c2, drop b c = (c1, true) ∧ install b digest rnd ts c1 = (c2, true) ∧ cat_env b S rand imm depth c2 = E.
Proof.
  intros Hc Hfo HE Hb Ht Hn. unfold mk_env, installed in HE. rewrite Hb in HE. cbn [rbind] in HE.
  destruct (tset_sql b ts) as [its|] eqn:Hs; [|done]. cbn [rbind] in HE. injection HE as <-.
  destruct (drop_install b digest rnd ts its c Hc Hs) as (c1 & c2 & l & D & I & T & Tt & Tp & L & _); [|done|].
  { intros p Hp. destruct (Ht p Hp) as [-> H]. done. }
  exists c1, c2. split; [done|]. split; [done|]. unfold cat_env. f_equal. unfold cat_trigs. rewrite T, omap_app'.
  rewrite omap_none; [simpl|].
  - apply omap_forall2. assert (Hfold : ∀ it, it ∈ its → fold b (i_tab it) = i_tab it).
    { intros it Hit. unfold tset_sql in Hs. clear -Hs Hit Ht. revert its Hs Hit. induction ts as [|p ts IH]; intros its Hs Hit.
      - injection Hs as <-. by apply elem_of_nil in Hit.
      - cbn [mapM_res] in Hs. destruct (trig_sql b p.2) as [it0|] eqn:Eit; [|done]. cbn [rbind] in Hs.
        destruct (mapM_res _ ts) as [its'|] eqn:Em; [|done]. injection Hs as <-. apply elem_of_cons in Hit as [->|Hit].
        + destruct (Ht p ltac:(left)) as [Hp _]. unfold trig_sql in Eit. destruct (trig_cond b p.2); [|done]. simpl in Eit. repeat case_decide; try case_match; simplify_eq; exact Hp.
        + eapply (IH ltac:(intros q Hq; apply Ht; by right)); done. }
    clear -L Tt Tp Hfold. induction L as [|it e its l (H1 & H2 & H3) _ IH]; [constructor|]. constructor.
    + unfold fires. assert (find_table c2 (ce_tab e) = find_table c (ce_tab e)) as -> by (unfold find_table; by rewrite Tt, Tp).
      rewrite decide_True by done. rewrite H3. simpl. rewrite H1, Hfold by left. by destruct it.
    + apply IH. intros it' Hit'. apply Hfold. by right.
  - intros e [He1 He2]%elem_of_list_filter. destruct (Hfo e He2 He1) as [n Hb']. unfold fires, runs. rewrite Hb'. by case_decide.
Qed.

(** Whatever the data and the triggers were before: afterwards everything is right and stays
    right or marked. *)
Lemma upgrade_ok b S rand imm depth E rank ts digest rnd c : cat_ok b c → others_foreign b c →
  mk_env b S rand imm depth = Ok E → flushable S rank imm → build_triggerset b S = Ok ts →
  (∀ p, p ∈ ts → fold b (t_tab p.2) = t_tab p.2 ∧ is_Some (find_table c (t_tab p.2))) → NoDup (names_from b digest rnd 0 ts) →
  ∃ c1 c2, drop b c = (c1, true) ∧ install b digest rnd ts c1 = (c2, true) ∧
    ∀ d ord n d', links_ok S d → no_self_relation S d → (∀ m k r, m ∈ s_models S → getrow d (m_table m) k = Some r → m_visible m r = true) →
      rebuildall (cat_env b S rand imm depth c2) S ord n None None d = (d', Done) →
      consistent S d' ∧ d_dirty d' = [] ∧
      ∀ os, consistent_or_marked S (run_ops (cat_env b S rand imm depth c2) S os d').1.
Proof.
  intros Hc Hfo HE Hfl Hb Ht Hn. destruct (upgraded_env b S rand imm depth E ts digest rnd c Hc Hfo HE Hb Ht Hn) as (c1 & c2 & D & I & Heq).
  exists c1, c2. split; [done|]. split; [done|]. rewrite Heq. intros d ord n d' L N V Hr.
  destruct (rebuild_repairs_all b S rand imm depth E rank HE Hfl d ord n d' L N V Hr) as [C1 C2]. split; [done|]. split; [done|].
  assert (I' : finv S d').
  { unfold rebuildall in Hr. eapply (fflush_inv b S rand imm depth E rank HE Hfl); [exact Hr|]. by apply rebuild_inv; [apply (fl_wf _ _ _ Hfl)|..]. }
  destruct I' as (L' & _ & _). intros os. apply (run_ops_inv b S rand imm depth E rank HE Hfl os d' L'). intros m k r Hm Hk. right. intros f Hf. by apply (C1 m k r f).
Qed.

(** ** denorm_init without denorm_drop *)
(** A trigger name that is taken makes install fail, wherever it comes in the set. *)
Lemma install_go_free b digest rnd ts : ∀ i c c', install_go b digest rnd i ts c = (c', true) →
  ∀ j p it s, ts !! j = Some p → trig_sql b p.2 = Ok it → find_table c (fold b (t_tab p.2)) = Some s →
  ckey b (new_entry b digest (rnd (i + j)%nat) p.2 s it) ∉ ckey b <$> ct_trigs c.
Proof.
  induction ts as [|q ts IH]; intros i c c' H j p it s Hj Hit Hs; [by destruct j|]. cbn [install_go] in H.
  destruct (create b digest (rnd i) q.2 c) as [c1|] eqn:Hc; [|done].
  assert (Hc1 : ct_tabs c1 = ct_tabs c ∧ ct_path c1 = ct_path c ∧ ∃ e, ct_trigs c1 = ct_trigs c ++ [e]).
  { unfold create in Hc. destruct (trig_sql b q.2); [|done]. destruct (find_table c (fold b (t_tab q.2))); [|done]. case_decide; [done|]. injection Hc as <-. simpl. eauto. }
  destruct Hc1 as (T1 & T2 & e & T3). destruct j as [|j]; simpl in Hj.
  - injection Hj as ->. rewrite Nat.add_0_r. unfold create in Hc. rewrite Hit, Hs in Hc. by case_decide.
  - specialize (IH (Datatypes.S i) c1 c' H j p it s Hj Hit). rewrite T3, fmap_app, not_elem_of_app in IH.
    replace (i + Datatypes.S j)%nat with (Datatypes.S i + j)%nat by lia. apply IH. unfold find_table. by rewrite T1, T2.
Qed.
Lemma install_taken b digest rnd ts c j p it s : ts !! j = Some p → trig_sql b p.2 = Ok it → find_table c (fold b (t_tab p.2)) = Some s →
  ckey b (new_entry b digest (rnd j) p.2 s it) ∈ ckey b <$> ct_trigs c → (install b digest rnd ts c).2 = false ∧ (b ≠ MySQL → (install b digest rnd ts c).1 = c).
Proof.
  intros Hj Hit Hs Hin. unfold install. destruct (install_go b digest rnd 0 ts c) as [c' ok] eqn:Hg. destruct ok.
  - by apply (install_go_free b digest rnd ts 0 c c' Hg j p it s Hj Hit Hs) in Hin.
  - destruct b; simpl; (split; [done|]); done.
Qed.
