(** * Every change of a related row makes redrawing the cache key due. *)
From Verif Require Import Base BaseLemmas Schema TrigSet Gen Exec Orm Flush Spec Engine GenLemmas Marking Conditions Invariant KeyDraw.

(** The statement leaves the row [k] of table [t] in place and does not assign the
    columns [cs] of it. *)
Definition spares (o : op) (t : string) (k : Z) (cs : list string) : Prop :=
  match o with
  | OSave _ _ _ => False
  | OInsert _ _ => True
  | OUpdate t' ks g => t' = t → k ∈ ks → ∀ r c, c ∈ cs → col (g r) c = col r c
  | ODelete t' ks => t' = t → k ∉ ks
  end.

(** The rows reached through a dependency of a cache key.  The generic trigger
    compares the primary key with the object id itself, so an integer object id is
    needed. *)
Definition key_view (S : schema) (m : model) (d : db) (k : Z) (r : row) (dp : dep) (cs : list string) : depview :=
  match dep_rel dp, find_model S (dep_other dp) with
  | RelGenForward ctc oidc, Some o =>
      DVRows (omap (λ r' : row, if decide (col r' ctc = VInt (m_ct m) ∧ col r' oidc = VInt k)
             then Some (cols_of cs r') else None) (tab d (m_table o)))
  | _, _ => dep_view S m d k r dp cs
  end.

Section obs.
Context (b : backend) (S : schema) (rand : nat → Z) (imm : bool) (depth : nat) (E : env) (l : list trigger).
Context (Hwf : wf_schema S) (HE : mk_env b S rand imm depth = Ok E) (Hl : gen_all S = Ok l).
Context (Hnames : names_ok b l) (Hlk : wf_links S).
Context (Hm2m : no_m2m_dep S ∨ (imm = true ∧ m2m_declared S)).
Context (rank : string → nat) (Hac : b = SQLite → acyclic E rank).
Context (m : model) (f : field) (ds : list dep).
Context (Hm : m ∈ s_models S) (Hf : f ∈ m_fields m) (Hk : f_kind f = KCacheKey ds).
Context (k : Z).
Notation tm := (m_table m).
Notation fc := (f_name f).
Notation pk_table := (pk_table b S rand imm depth E l Hwf HE Hl).
Notation pk_link := (pk_link b S rand imm depth E l HE Hl).
Notation column_not_tw := (column_not_tw b S rand imm depth E l Hwf HE Hl).
Notation link_not_tw := (link_not_tw b S rand imm depth E l Hwf HE Hl).
Notation column_not_pk := (column_not_pk b S rand imm depth E l Hwf HE Hl).
Notation tracked_not_pk := (tracked_not_pk b S rand imm depth E l Hwf HE Hl).
Notation ref_new := (ref_new E).
Notation ref_old := (ref_old E).
Notation ref_new_pk := (ref_new_pk E).
Notation ref_old_pk := (ref_old_pk E).

Lemma key_col : f_col f = fc.
Proof. destruct (wf_name _ _ (wf_models _ Hwf _ Hm) _ Hf) as [Hp| ->]; [|done]. unfold plain_or_callback in Hp. by rewrite Hk in Hp. Qed.

Ltac cases_in H :=
  repeat (apply elem_of_cons in H as [->|H]); try (by apply elem_of_nil in H); simpl in *.

Lemma key_writers it x w : it ∈ e_trigs E → AUpd tm fc x w ∈ i_acts it →
  ∃ dp o tr, dp ∈ ds ∧ find_model S (dep_other dp) = Some o ∧ tr ∈ ck_dep_triggers m o fc dp ∧ AUpd tm fc x w ∈ t_acts tr ∧ t_tab tr = i_tab it.
Proof using Hwf HE Hl Hnames Hm Hf Hk.
  clear rank Hac Hlk Hm2m.
  intros Hit Ha. destruct (io_sound _ _ _ (E_inst b S rand imm depth E l HE Hl) _ Hit) as (tr1 & Htr1 & _ & Htab & _ & _ & _ & Hacts).
  destruct (Hacts _ Ha) as (tr2 & Htr2 & Hnm & Hin).
  assert (Htb : t_tab tr2 = i_tab it) by (rewrite Htab; by apply (Hnames _ _ Htr2 Htr1)).
  clear tr1 Htr1 Htab Hacts Hnm. apply (origin_spec S l Hwf Hl) in Htr2.
  destruct Htr2 as [m' f' fn ds' sk Hm' Hf' Hk' Hb Htr|m' f' fn ds' sk dp o Hm' Hf' Hk' Hdp Hfo Htr|m' f' ds' dp o Hm' Hf' Hk' Hdp Hfo Htr|m' f' a rel Hm' Hf' Hk' Hfo Htr].
  - exfalso. unfold cb_self_triggers in Htr. cases_in Htr; set_solver.
  - exfalso. unfold cb_dep_triggers in Htr. destruct (dep_rel dp); cases_in Htr; set_solver.
  - assert (m_table m' = tm ∧ f_name f' = fc) as [Ht Hn].
    { unfold ck_dep_triggers in Htr. destruct (dep_rel dp); cases_in Htr; set_solver. }
    eapply (table_inj S Hwf) in Ht; [subst m'|done|done].
    assert (f' = f) as ->.
    { pose proof (wf_models _ Hwf _ Hm) as W. eapply NoDup_fmap_eq; [apply (wf_cols _ _ W)|done|done|].
      destruct (wf_name _ _ W _ Hf') as [Hp| <-]; [unfold plain_or_callback in Hp; by rewrite Hk' in Hp|]. by rewrite key_col. }
    assert (ds' = ds) as -> by congruence. by exists dp, o, tr2.
  - exfalso. assert (m_table m' = tm ∧ f_name f' = fc) as [Ht Hn].
    { unfold agg_triggers in Htr. cases_in Htr; set_solver. }
    eapply (table_inj S Hwf) in Ht; [subst m'|done|done].
    assert (f' = f) as ->; [|congruence].
    pose proof (wf_models _ Hwf _ Hm) as W. eapply NoDup_fmap_eq; [apply (wf_cols _ _ W)|done|done|].
    destruct (wf_name _ _ W _ Hf') as [Hp| <-]; [unfold plain_or_callback in Hp; by rewrite Hk' in Hp|]. by rewrite key_col.
Qed.
Lemma key_only it x w : it ∈ e_trigs E → AUpd tm fc x w ∈ i_acts it → x = XRand.
Proof using Hwf HE Hl Hnames Hm Hf Hk.
  clear rank Hac Hlk Hm2m.
  intros Hit Ha. destruct (key_writers _ _ _ Hit Ha) as (dp & o & tr & Hdp & Hfo & Htr & Hin & _).
  unfold ck_dep_triggers in Htr. destruct (dep_rel dp); cases_in Htr; set_solver.
Qed.
Lemma key_dep_wf dp : dp ∈ ds → wf_dep S m dp.
Proof. intros. eapply (wf_deps _ Hwf); [done|exact Hf|]. unfold field_deps. by rewrite Hk. Qed.

Lemma key_stable : stable_where E tm fc.
Proof.
  intros it w Hit Ha. destruct (key_writers _ _ _ Hit Ha) as (dp & o & tr & Hdp & Hfo & Htr & Hin & _).
  pose proof (key_dep_wf _ Hdp _ Hfo) as Wd. destruct (find_model_in _ _ _ Hfo) as [Ho _].
  rewrite (pk_table m Hm). unfold ck_dep_triggers in Htr. destruct (dep_rel dp).
  - assert (∃ rf, w = WEq fk rf (m_pk o) [] []) as [rf ->].
    { cases_in Htr; set_solver. }
    right. by apply column_not_tw.
  - assert (∃ rf, w = WEq (m_pk m) rf fk [] []) as [rf ->] by (cases_in Htr; set_solver). by left.
  - assert ((∃ rf, w = WEq (m_pk m) rf c [] []) ∨ w = WIn (m_pk m) tab c rc RNew (m_pk o)) as [[rf ->]| ->] by (cases_in Htr; set_solver).
    + by left.
    + destruct Wd as (Wt & _). split; [by left|]. split; right; by apply link_not_tw.
  - assert (∃ rf, w = WEq (m_pk m) rf oidc [] []) as [rf ->] by (cases_in Htr; set_solver). by left.
  - assert (∃ rf, w = WEq (m_pk m) rf (m_pk m) [] []) as [rf ->] by (cases_in Htr; set_solver). by left.
Qed.

Section dep.
  Context (dp : dep) (o : model) (Hdp : dp ∈ ds) (Hfo : find_model S (dep_other dp) = Some o).
  Context (t : string) (d d1 : db) (evs : list event) (Ap : applied t d d1 evs).
  Context (r1 : row) (Hr1 : getrow d1 tm k = Some r1).
  Notation due := (key_due E tm fc k).

  Lemma kdep_gen tr : tr ∈ ck_dep_triggers m o fc dp → tr ∈ l.
  Proof. intros. apply (origin_spec S l Hwf Hl). by eapply or_ck. Qed.
  Lemma kdep_in : dp ∈ field_deps f.
  Proof. unfold field_deps. by rewrite Hk. Qed.

  Lemma kdue_intro e tr w :
    tr ∈ ck_dep_triggers m o fc dp → AUpd tm fc XRand w ∈ t_acts tr → ev_tab e = t_tab tr → ev_kind e = t_ev tr →
    where_holds E d1 e tm k r1 w = true → ct_match E tr e →
    (t_ev tr = EvUpd → ∃ c, ref_val E e ROld c ≠ ref_val E e RNew c ∧
        ∀ tr', tr' ∈ l → t_tab tr' = t_tab tr → t_ev tr' = EvUpd → c ∈ t_fields tr') →
    due d1 e.
  Proof.
    intros Htr Ha Ht Hkd Hw Hct Hch.
    destruct (act_due_intro b S rand imm depth E l HE Hl Hnames e tr (AUpd tm fc XRand w)) as (it & ? & ? & ? & ? & ?);
      [by apply kdep_gen|done..|]. by exists it, w, r1.
  Qed.
  Lemma kupd_changed o' e ro rn c : o' ∈ s_models S → tracked S o' c →
    ev_tab e = m_table o' → ev_old e = Some ro → ev_new e = Some rn → col ro c ≠ col rn c →
    ∃ c, ref_val E e ROld c ≠ ref_val E e RNew c ∧
      ∀ tr', tr' ∈ l → t_tab tr' = m_table o' → t_ev tr' = EvUpd → c ∈ t_fields tr'.
  Proof.
    intros Ho' Htc Het Eo En Hne. exists c. split.
    - erewrite (ref_old e), (ref_new e) by (eauto using tracked_not_pk). done.
    - intros. by eapply (tracked_fields S l Hwf Hl).
  Qed.
  Lemma where_eq e c rf rc v : cell (e_pk E tm) k r1 c = VInt v → ref_val E e rf rc = VInt v →
    where_holds E d1 e tm k r1 (WEq c rf rc [] []) = true.
  Proof. intros H1 H2. simpl. rewrite H1, H2. simpl. by rewrite bool_decide_true. Qed.
  Lemma cell_pk : cell (e_pk E tm) k r1 (m_pk m) = VInt k.
  Proof. rewrite (pk_table m Hm). unfold cell. by rewrite decide_True. Qed.

  Lemma kobs_forward fk cs r0 :
    dep_rel dp = RelForward fk → (∀ c, c ∈ cs → tracked S o c) → col r0 fk = col r1 fk →
    key_view S m d1 k r1 dp cs ≠ key_view S m d k r0 dp cs → ∃ e, e ∈ evs ∧ due d1 e.
  Proof.
    intros Hr Hcs Hfk Hne. destruct (find_model_in _ _ _ Hfo) as [Ho _]. pose proof (key_dep_wf _ Hdp _ Hfo) as Wd.
    rewrite Hr in Wd.
    unfold key_view, dep_view in Hne. rewrite Hr, Hfo, Hfk in Hne. destruct (col r1 fk) as [|j|] eqn:Hj; [done| |done].
    assert (Hne' : cols_of cs <$> getrow d1 (m_table o) j ≠ cols_of cs <$> getrow d (m_table o) j) by congruence.
    assert (Hg : getrow d1 (m_table o) j ≠ getrow d (m_table o) j) by congruence.
    destruct (applied_changed _ _ _ _ _ _ Ap Hg) as (Ht & e & He & Hek & Het & Eo & En).
    exists e. split; [done|]. rewrite <- Ht in Het, Eo, En.
    assert (Hcell : cell (e_pk E tm) k r1 fk = VInt j).
    { unfold cell. rewrite decide_False; [done|]. by apply column_not_pk. }
    assert (Hn : ∀ r, ev_new e = Some r → where_holds E d1 e tm k r1 (WEq fk RNew (m_pk o) [] []) = true).
    { intros r En'. eapply where_eq; [exact Hcell|]. rewrite <- (pk_table o Ho). by erewrite (ref_new_pk e) by eauto. }
    assert (Hold : ∀ r, ev_old e = Some r → where_holds E d1 e tm k r1 (WEq fk ROld (m_pk o) [] []) = true).
    { intros r En'. eapply where_eq; [exact Hcell|]. rewrite <- (pk_table o Ho). by erewrite (ref_old_pk e) by eauto. }
    destruct (ev_cases e) as [(r & Kd & Eo' & En')|[(ro & rn & Kd & Eo' & En')|(ro & Kd & Eo' & En')]].
    - eapply (kdue_intro _ (model_trigger o (m_ct m) (dep_skip dp) EvIns _)).
      + unfold ck_dep_triggers. rewrite Hr. right. left.
      + by left.
      + done.
      + done.
      + by eapply Hn.
      + intros cf [=].
      + done.
    - eapply (kdue_intro _ (model_trigger o (m_ct m) (dep_skip dp) EvUpd _)).
      + unfold ck_dep_triggers. rewrite Hr. left.
      + by left.
      + done.
      + done.
      + by eapply Hn.
      + intros cf [=].
      + intros _. rewrite En, Eo, En', Eo' in Hne'. simpl in Hne'.
        destruct (cols_of_ne cs ro rn) as (c & Hc & Hcc); [congruence|]. eapply (kupd_changed o); eauto.
    - eapply (kdue_intro _ (model_trigger o (m_ct m) (dep_skip dp) EvDel _)).
      + unfold ck_dep_triggers. rewrite Hr. right. right. left.
      + by left.
      + done.
      + done.
      + by eapply Hold.
      + intros cf [=].
      + done.
  Qed.

  Lemma kobs_backward fk cs r0 :
    dep_rel dp = RelBackward fk → (∀ c, c ∈ cs → tracked S o c) → tracked S o fk →
    key_view S m d1 k r1 dp cs ≠ key_view S m d k r0 dp cs → ∃ e, e ∈ evs ∧ due d1 e.
  Proof.
    intros Hr Hcs Htfk Hne. destruct (find_model_in _ _ _ Hfo) as [Ho _].
    unfold key_view, dep_view in Hne. rewrite Hr, Hfo in Hne.
    set (F := λ r' : row, if decide (col r' fk = VInt k) then Some (cols_of cs r') else None) in *.
    destruct (gmap_ne (omap F (tab d1 (m_table o))) (omap F (tab d (m_table o)))) as (j & Hj); [congruence|].
    rewrite !lookup_omap in Hj. fold (getrow d1 (m_table o) j) (getrow d (m_table o) j) in Hj.
    assert (Hg : getrow d1 (m_table o) j ≠ getrow d (m_table o) j) by congruence.
    destruct (applied_changed _ _ _ _ _ _ Ap Hg) as (Ht & e & He & Hek & Het & Eo & En).
    exists e. split; [done|]. rewrite <- Ht in Het, Eo, En. rewrite Eo, En in Hj.
    assert (Hpk : fk ≠ e_pk E (m_table o)) by by apply tracked_not_pk.
    assert (Hsel : ∀ rn, ev_new e = Some rn → col rn fk = VInt k →
       where_holds E d1 e tm k r1 (WEq (m_pk m) RNew fk [] []) = true).
    { intros rn En' Hfk. eapply where_eq; [apply cell_pk|]. by erewrite (ref_new e) by eauto. }
    assert (Hold : ∀ ro, ev_old e = Some ro → col ro fk = VInt k →
       where_holds E d1 e tm k r1 (WEq (m_pk m) ROld fk [] []) = true).
    { intros ro Eo' Hfk. eapply where_eq; [apply cell_pk|]. by erewrite (ref_old e) by eauto. }
    destruct (ev_cases e) as [(r & Kd & Eo' & En')|[(ro & rn & Kd & Eo' & En')|(ro & Kd & Eo' & En')]];
      rewrite Eo', En' in Hj; simpl in Hj; unfold F in Hj.
    - destruct (decide (col r fk = VInt k)) as [Hfk|]; [|done].
      eapply (kdue_intro _ (model_trigger o (m_ct m) (dep_skip dp) EvIns _)).
      + unfold ck_dep_triggers. rewrite Hr. right. left.
      + by left.
      + done.
      + done.
      + by eapply Hsel.
      + intros cf [=].
      + done.
    - assert (Hchg : ∃ c, ref_val E e ROld c ≠ ref_val E e RNew c ∧
         ∀ tr', tr' ∈ l → t_tab tr' = m_table o → t_ev tr' = EvUpd → c ∈ t_fields tr').
      { destruct (decide (col ro fk = col rn fk)) as [Heq|Hneq].
        - rewrite Heq in Hj. case_decide; [|done].
          destruct (cols_of_ne cs ro rn) as (c & Hc & Hcc); [congruence|]. eapply (kupd_changed o e ro rn c); eauto.
        - eapply (kupd_changed o e ro rn fk); eauto. }
      destruct (decide (col rn fk = VInt k)) as [Hfk|Hfk].
      + eapply (kdue_intro _ (model_trigger o (m_ct m) (dep_skip dp) EvUpd _)).
        * unfold ck_dep_triggers. rewrite Hr. left.
        * by left.
        * done.
        * done.
        * by eapply Hsel.
        * intros cf [=].
        * done.
      + destruct (decide (col ro fk = VInt k)) as [Hfk'|]; [|done].
        eapply (kdue_intro _ (model_trigger o (m_ct m) (dep_skip dp) EvUpd _)).
        * unfold ck_dep_triggers. rewrite Hr. left.
        * right. by left.
        * done.
        * done.
        * by eapply Hold.
        * intros cf [=].
        * done.
    - destruct (decide (col ro fk = VInt k)) as [Hfk|]; [|done].
      eapply (kdue_intro _ (model_trigger o (m_ct m) (dep_skip dp) EvDel _)).
      + unfold ck_dep_triggers. rewrite Hr. right. right. left.
      + by left.
      + done.
      + done.
      + by eapply Hold.
      + intros cf [=].
      + done.
  Qed.

  Lemma kobs_generic ctc oidc cs r0 :
    dep_rel dp = RelGenForward ctc oidc → (∀ c, c ∈ cs → tracked S o c) → tracked S o ctc → tracked S o oidc →
    key_view S m d1 k r1 dp cs ≠ key_view S m d k r0 dp cs → ∃ e, e ∈ evs ∧ due d1 e.
  Proof.
    intros Hr Hcs Htct Htoid Hne. destruct (find_model_in _ _ _ Hfo) as [Ho _].
    unfold key_view in Hne. rewrite Hr, Hfo in Hne.
    set (F := λ r' : row, if decide (col r' ctc = VInt (m_ct m) ∧ col r' oidc = VInt k) then Some (cols_of cs r') else None) in *.
    destruct (gmap_ne (omap F (tab d1 (m_table o))) (omap F (tab d (m_table o)))) as (j & Hj); [congruence|].
    rewrite !lookup_omap in Hj. fold (getrow d1 (m_table o) j) (getrow d (m_table o) j) in Hj.
    assert (Hg : getrow d1 (m_table o) j ≠ getrow d (m_table o) j) by congruence.
    destruct (applied_changed _ _ _ _ _ _ Ap Hg) as (Ht & e & He & Hek & Het & Eo & En).
    exists e. split; [done|]. rewrite <- Ht in Het, Eo, En. rewrite Eo, En in Hj.
    assert (Hpk1 : ctc ≠ e_pk E (m_table o)) by by apply tracked_not_pk.
    assert (Hpk2 : oidc ≠ e_pk E (m_table o)) by by apply tracked_not_pk.
    assert (Hnew : ∀ rn, ev_new e = Some rn → col rn oidc = VInt k →
       where_holds E d1 e tm k r1 (WEq (m_pk m) RNew oidc [] []) = true).
    { intros rn En' Hfk. eapply where_eq; [apply cell_pk|]. by erewrite (ref_new e) by eauto. }
    assert (Hold : ∀ ro, ev_old e = Some ro → col ro oidc = VInt k →
       where_holds E d1 e tm k r1 (WEq (m_pk m) ROld oidc [] []) = true).
    { intros ro Eo' Hfk. eapply where_eq; [apply cell_pk|]. by erewrite (ref_old e) by eauto. }
    destruct (ev_cases e) as [(r & Kd & Eo' & En')|[(ro & rn & Kd & Eo' & En')|(ro & Kd & Eo' & En')]];
      rewrite Eo', En' in Hj; simpl in Hj; unfold F in Hj.
    - destruct (decide (col r ctc = VInt (m_ct m) ∧ col r oidc = VInt k)) as [[Hct Hoid]|]; [|done].
      eapply (kdue_intro _ (gen_trigger o ctc (m_ct m) EvIns _)).
      + unfold ck_dep_triggers. rewrite Hr. right. left.
      + by left.
      + done.
      + done.
      + by eapply Hnew.
      + intros cf [= <-]. simpl. by erewrite (ref_new e) by eauto.
      + done.
    - assert (Hchg : ∃ c, ref_val E e ROld c ≠ ref_val E e RNew c ∧
         ∀ tr', tr' ∈ l → t_tab tr' = m_table o → t_ev tr' = EvUpd → c ∈ t_fields tr').
      { destruct (decide (col ro ctc = col rn ctc)) as [Heq|Hneq]; [|eapply (kupd_changed o e ro rn ctc); eauto].
        destruct (decide (col ro oidc = col rn oidc)) as [Heq'|Hneq]; [|eapply (kupd_changed o e ro rn oidc); eauto].
        rewrite Heq, Heq' in Hj. case_decide; [|done].
        destruct (cols_of_ne cs ro rn) as (c & Hc & Hcc); [congruence|]. eapply (kupd_changed o e ro rn c); eauto. }
      destruct (decide (col rn ctc = VInt (m_ct m) ∧ col rn oidc = VInt k)) as [[Hct Hoid]|Hn].
      + eapply (kdue_intro _ (gen_trigger o ctc (m_ct m) EvUpd _) (WEq (m_pk m) RNew oidc [] [])).
        * unfold ck_dep_triggers. rewrite Hr. left.
        * by left.
        * done.
        * done.
        * by eapply Hnew.
        * intros cf [= <-]. simpl. right. by erewrite (ref_new e) by eauto.
        * done.
      + destruct (decide (col ro ctc = VInt (m_ct m) ∧ col ro oidc = VInt k)) as [[Hct Hoid]|]; [|done].
        eapply (kdue_intro _ (gen_trigger o ctc (m_ct m) EvUpd _) (WEq (m_pk m) ROld oidc [] [])).
        * unfold ck_dep_triggers. rewrite Hr. left.
        * right. by left.
        * done.
        * done.
        * by eapply Hold.
        * intros cf [= <-]. simpl. left. by erewrite (ref_old e) by eauto.
        * done.
    - destruct (decide (col ro ctc = VInt (m_ct m) ∧ col ro oidc = VInt k)) as [[Hct Hoid]|]; [|done].
      eapply (kdue_intro _ (gen_trigger o ctc (m_ct m) EvDel _)).
      + unfold ck_dep_triggers. rewrite Hr. right. right. left.
      + by left.
      + done.
      + done.
      + by eapply Hold.
      + intros cf [= <-]. simpl. by erewrite (ref_old e) by eauto.
      + done.
  Qed.

  Lemma kobs_m2m lt c rc cs r0 :
    dep_rel dp = RelM2M lt c rc → (∀ c, c ∈ cs → tracked S o c) →
    links_ok S d → links_ok S d1 →
    key_view S m d1 k r1 dp cs ≠ key_view S m d k r0 dp cs → ∃ e, e ∈ evs ∧ due d1 e.
  Proof.
    intros Hr Hcs L0 L1 Hne. destruct (find_model_in _ _ _ Hfo) as [Ho _]. pose proof kdep_in as Hdf. pose proof (key_dep_wf _ Hdp _ Hfo) as Wd.
    rewrite Hr in Wd. destruct Wd as (Wt & Wc & Wrc).
    pose proof (pk_link _ Wt) as Hpk.
    unfold key_view, dep_view in Hne. rewrite Hr, Hfo in Hne.
    set (F := λ d (l : row), if decide (col l c = VInt k)
             then Some (col l rc, match col l rc with VInt j => cols_of cs <$> getrow d (m_table o) j | _ => None end)
             else None) in *.
    destruct (gmap_ne (omap (F d1) (tab d1 lt)) (omap (F d) (tab d lt))) as (i & Hi); [unfold F; congruence|].
    rewrite !lookup_omap in Hi. fold (getrow d1 lt i) (getrow d lt i) in Hi.
    destruct (decide (getrow d1 lt i = getrow d lt i)) as [Hsame|Hg].
    - (* the link row is the same: the row at the other end was updated *)
      rewrite Hsame in Hi. destruct (getrow d lt i) as [lr|] eqn:Hlr; [|done]. simpl in Hi. unfold F in Hi.
      destruct (decide (col lr c = VInt k)) as [Hck|]; [|done].
      destruct (col lr rc) as [|j|] eqn:Hrj; [done| |done].
      assert (Hne' : cols_of cs <$> getrow d1 (m_table o) j ≠ cols_of cs <$> getrow d (m_table o) j) by congruence.
      assert (Hg : getrow d1 (m_table o) j ≠ getrow d (m_table o) j) by congruence.
      destruct (applied_changed _ _ _ _ _ _ Ap Hg) as (Ht & e & He & Hek & Het & Eo & En).
      exists e. split; [done|]. rewrite <- Ht in Het, Eo, En.
      pose proof (L0 _ _ _ _ _ _ _ Hm Hf Hdf Hr Hfo _ _ Hlr _ Hrj) as [ro Hro].
      pose proof (L1 _ _ _ _ _ _ _ Hm Hf Hdf Hr Hfo _ _ Hsame _ Hrj) as [rn Hrn].
      rewrite Eo in Hro. rewrite En in Hrn.
      assert (Kd : ev_kind e = EvUpd).
      { destruct (ev_cases e) as [(?&?&?&?)|[(?&?&?&?&?)|(?&?&?&?)]]; congruence. }
      eapply (kdue_intro _ (model_trigger o (m_ct m) (dep_skip dp) EvUpd _) (WIn (m_pk m) lt c rc RNew (m_pk o))).
      + unfold ck_dep_triggers. rewrite Hr. right. right. right. left.
      + by left.
      + done.
      + done.
      + simpl. apply existsb_exists. exists (VInt k). rewrite cell_pk. split; [|simpl; by rewrite bool_decide_true].
        apply elem_of_list_In. rewrite <- (pk_table o Ho).
        erewrite (ref_new_pk e) by eauto. apply select_col_spec. exists i, lr. split; [done|].
        rewrite Hpk. unfold cell. rewrite !decide_False by done. rewrite Hck, Hrj. simpl.
        by rewrite bool_decide_true.
      + intros cf [=].
      + intros _. rewrite En, Eo, Hro, Hrn in Hne'. simpl in Hne'.
        destruct (cols_of_ne cs ro rn) as (c0 & Hc & Hcc); [congruence|]. eapply (kupd_changed o e ro rn c0); eauto.
    - destruct (applied_changed _ _ _ _ _ _ Ap Hg) as (Ht & e & He & Hek & Het & Eo & En).
      exists e. split; [done|]. rewrite <- Ht in Het, Eo, En. rewrite Eo, En in Hi.
      assert (Hoth : ∀ j, getrow d1 (m_table o) j = getrow d (m_table o) j).
      { intros j. apply (ap_other _ _ _ _ Ap). rewrite <- Ht. intros Heq. by eapply Wt; [exact Ho|]. }
      assert (HF : ∀ x, F d1 x = F d x).
      { intros x. unfold F. case_decide; [|done]. destruct (col x rc); [done| |done]. by rewrite Hoth. }
      assert (Hold : ∀ ro, ev_old e = Some ro → col ro c = VInt k → where_holds E d1 e tm k r1 (WEq (m_pk m) ROld c [] []) = true).
      { intros ro Eo' Hck. eapply where_eq; [apply cell_pk|]. by erewrite (ref_old e) by (eauto; congruence). }
      assert (Hnew : ∀ rn, ev_new e = Some rn → col rn c = VInt k → where_holds E d1 e tm k r1 (WEq (m_pk m) RNew c [] []) = true).
      { intros ro Eo' Hck. eapply where_eq; [apply cell_pk|]. by erewrite (ref_new e) by (eauto; congruence). }
      destruct (ev_cases e) as [(r & Kd & Eo' & En')|[(ro & rn & Kd & Eo' & En')|(ro & Kd & Eo' & En')]];
        rewrite Eo', En' in Hi; simpl in Hi; rewrite ?HF in Hi.
      + unfold F in Hi. destruct (decide (col r c = VInt k)); [|done].
        eapply (kdue_intro _ (m2m_trigger lt c rc (m_ct m) EvIns _)).
        * unfold ck_dep_triggers. rewrite Hr. right. left.
        * by left.
        * done.
        * done.
        * by eapply Hnew.
        * intros cf [=].
        * done.
      + assert (Hchg : ∃ c, ref_val E e ROld c ≠ ref_val E e RNew c ∧
           ∀ tr', tr' ∈ l → t_tab tr' = lt → t_ev tr' = EvUpd → c ∈ t_fields tr').
        { assert (Hfl : ∀ tr', tr' ∈ l → t_tab tr' = lt → t_ev tr' = EvUpd → c ∈ t_fields tr' ∧ rc ∈ t_fields tr').
          { intros tr'. apply (link_fields b S rand imm depth E l Hwf HE Hl Hnames Hlk m f dp o); done. }
          destruct (decide (col ro c = col rn c)) as [Heq|Hneq].
          - destruct (decide (col ro rc = col rn rc)) as [Heq'|Hneq'].
            + exfalso. apply Hi. unfold F. by rewrite Heq, Heq'.
            + exists rc. erewrite (ref_old e), (ref_new e) by (eauto; congruence). split; [done|]. naive_solver.
          - exists c. erewrite (ref_old e), (ref_new e) by (eauto; congruence). split; [done|]. naive_solver. }
        destruct (decide (col rn c = VInt k)) as [Hck|Hck].
        * eapply (kdue_intro _ (m2m_trigger lt c rc (m_ct m) EvUpd _)).
          -- unfold ck_dep_triggers. rewrite Hr. left.
          -- by left.
          -- done.
          -- done.
          -- by eapply Hnew.
          -- intros cf [=].
          -- done.
        * unfold F in Hi. rewrite (decide_False (P := col rn c = VInt k)) in Hi by done.
          destruct (decide (col ro c = VInt k)) as [Hck'|]; [|done].
          eapply (kdue_intro _ (m2m_trigger lt c rc (m_ct m) EvUpd _)).
          -- unfold ck_dep_triggers. rewrite Hr. left.
          -- right. by left.
          -- done.
          -- done.
          -- by eapply Hold.
          -- intros cf [=].
          -- done.
      + unfold F in Hi. destruct (decide (col ro c = VInt k)); [|done].
        eapply (kdue_intro _ (m2m_trigger lt c rc (m_ct m) EvDel _)).
        * unfold ck_dep_triggers. rewrite Hr. right. right. left.
        * by left.
        * done.
        * done.
        * by eapply Hold.
        * intros cf [=].
        * done.
  Qed.
End dep.

(** ** Statements *)
Definition row_kept (t : string) (ks : list string) (ch : change) : Prop :=
  match ch with
  | CUpd k' g => t = tm → k' = k → ∀ d o p, g d o = Ok p → ∀ c, c ∈ ks → col p.1 c = col o c
  | _ => True
  end.

Section via.
  Context (dp : dep) (o : model) (cs : list string) (Hdp : dp ∈ ds) (Hfo : find_model S (dep_other dp) = Some o).
  Context (Hcs : ∀ c, c ∈ cs → tracked S o c).
  Context (Hrel : match dep_rel dp with
    | RelBackward fk => tracked S o fk
    | RelGenForward ctc oidc => tracked S o ctc ∧ tracked S o oidc
    | RelGenBackward _ _ => False
    | _ => True
    end).
  Definition own_cols : list string := match dep_rel dp with RelForward fk => [fk] | _ => [] end.
  Context (n0 : nat) (own : string → val).
  Definition kI (d : db) : Prop := links_ok S d ∧ kJ tm k n0 d ∧
    ∀ r c, getrow d tm k = Some r → c ∈ own_cols → col r c = own c.
  Definition okc (t : string) (ch : change) : Prop := key_ch E tm fc k t ch ∧ row_kept t own_cols ch.
  Definition kv (d : db) : option depview := (λ r, key_view S m d k r dp cs) <$> getrow d tm k.

  Lemma own_col c : c ∈ own_cols → column_of m c.
  Proof.
    unfold own_cols. pose proof (key_dep_wf _ Hdp _ Hfo) as Wd. destruct (dep_rel dp); [|by intros ?%elem_of_nil..].
    by intros ->%elem_of_list_singleton.
  Qed.

  Lemma kv_obs t d d1 evs : kI d → kI d1 → applied t d d1 evs → kv d1 ≠ kv d → ∃ e, e ∈ evs ∧ key_due E tm fc k d1 e.
  Proof.
    intros (L0 & [_ [r0 Hr0]] & O0) (L1 & [_ [r1 Hr1]] & O1) Ap. unfold kv. rewrite Hr0, Hr1. simpl. intros Hne.
    assert (Hne' : key_view S m d1 k r1 dp cs ≠ key_view S m d k r0 dp cs) by congruence. clear Hne.
    destruct (dep_rel dp) eqn:Hr.
    - eapply (kobs_forward dp o Hdp Hfo t d d1 evs Ap r1 Hr1) with (r0 := r0); eauto.
      transitivity (own fk); [|symmetry]; [apply (O0 _ _ Hr0)|apply (O1 _ _ Hr1)]; unfold own_cols; rewrite Hr; by left.
    - by eapply (kobs_backward dp o Hdp Hfo t d d1 evs Ap r1 Hr1).
    - by eapply (kobs_m2m dp o Hdp Hfo t d d1 evs Ap r1 Hr1).
    - destruct Hrel. by eapply (kobs_generic dp o Hdp Hfo t d d1 evs Ap r1 Hr1).
    - done.
  Qed.

  Lemma kI_apply t d ch d' evs : okc t ch → kI d → apply_change E t d ch = Ok (d', evs) → kI d'.
  Proof.
    intros [Hk1 Hk2] (L & J & O) H. split_and!.
    - eapply (links_apply b S rand imm depth E l); eauto. apply Hk1.
    - by apply (key_apply E tm fc k n0 key_only _ _ _ _ _ Hk1 H).
    - intros r c Hr Hc. destruct J as [_ [r0 Hr0]]. destruct Hk1 as [Hq Hk1].
      destruct ch as [k' r'|k' g|k']; simpl in *.
      + destruct (getrow d t k') eqn:Hg; [done|]. case_match; [|done]. injection H as <- <-.
        rewrite getrow_put in Hr. case_decide as Hd; [destruct Hd as [<- <-]; congruence|]. by apply O.
      + destruct (getrow d t k') as [o'|] eqn:Hg; [|injection H as <- <-; by apply O].
        inv_bind H. case_match; [|done]. injection H as <- <-. rewrite getrow_put in Hr.
        destruct (Hq _ _ _ H0) as [_ Hts].
        assert (Heq : ∀ t' k', getrow a.2 t' k' = getrow d t' k') by (intros; unfold getrow, tab; by rewrite Hts).
        case_decide as Hd.
        * destruct Hd as [Ht Hkk]. subst t k'. injection Hr as <-.
          rewrite (Hk2 eq_refl eq_refl _ _ _ H0 _ Hc). by apply O.
        * rewrite Heq in Hr. by apply O.
      + destruct (getrow d t k') as [o'|] eqn:Hg; [|injection H as <- <-; by apply O].
        case_match; [|done]. injection H as <- <-. rewrite getrow_del in Hr. case_decide; [done|]. by apply O.
  Qed.
  Lemma okc_upd tr e d t c x w ch : tr ∈ e_trigs E → AUpd t c x w ∈ i_acts tr → ch ∈ upd_changes E e d t c x w → okc t ch.
  Proof.
    intros Htr Ha Hin. split; [eapply (upd_changes_key E tm fc k key_only); eauto|].
    apply elem_of_list_fmap in Hin as ([k' r] & -> & _). simpl. intros -> -> d1 o' p H c' Hc'.
    inv_bind H. injection H as <-. simpl. rewrite col_insert_ne; [done|]. intros ->.
    apply (column_not_tw m c Hm); [by apply own_col|]. by exists tr, x, w.
  Qed.

  Lemma key_exec t cs' d d' :
    Forall (okc t) cs' → (b = Postgres → NoDup (ch_key <$> cs')) → exec E t cs' d = Ok d' →
    kI d → kI d' ∧ (kv d' ≠ kv d → redrawn rand n0 tm fc k d').
  Proof.
    destruct (E_fields b S rand imm depth E l HE Hl) as (Hb & _ & _ & _ & _ & Hrand).
    intros Hok Hnd H Hi.
    destruct (exec_kgood E tm fc k n0 key_only key_stable kv kI okc) with (rank := rank) (t := t) (cs := cs') (d := d) (d' := d') as (I' & _ & HV); try done.
    - apply kv_obs.
    - intros x Hx. apply Hx.
    - intros ?? Hx. apply Hx.
    - apply kI_apply.
    - apply okc_upd.
    - eapply unique_names; eauto.
    - intros Hsq. apply Hac. congruence.
    - intros Hp. apply Hnd. congruence.
    - split; [done|]. by rewrite <- Hrand.
  Qed.
End via.

Lemma key_stmt dp o cs op d d' r :
  dp ∈ ds → find_model S (dep_other dp) = Some o → (∀ c, c ∈ cs → tracked S o c) →
  match dep_rel dp with
  | RelBackward fk => tracked S o fk
  | RelGenForward ctc oidc => tracked S o ctc ∧ tracked S o oidc
  | RelGenBackward _ _ => False
  | _ => True
  end →
  run_op E S op d = Ok d' → links_ok S d → getrow d tm k = Some r → spares op tm k (fc :: own_cols dp) →
  (∃ r', getrow d' tm k = Some r' ∧ ∀ c, c ∈ own_cols dp → col r' c = col r c) ∧
  (kv dp cs d' ≠ kv dp cs d → redrawn rand (d_rnd d) tm fc k d').
Proof.
  intros Hdp Hfo Hcs Hrel H L Hr Hsp.
  assert (Hi : kI dp (d_rnd d) (col r) d).
  { split_and!; [done|split; [done|by eexists]|]. intros r' c Hr' _. congruence. }
  assert (Hi' : ∀ x, kI dp (d_rnd d) (col r) x → ∃ r', getrow x tm k = Some r' ∧ ∀ c, c ∈ own_cols dp → col r' c = col r c).
  { intros x (_ & [_ [r' Hr']] & O). exists r'. split; [done|]. intros. by apply O. }
  destruct op as [|t rows|t ks g|t ks]; simpl in H, Hsp; [done|..].
  - apply (key_exec dp o cs Hdp Hfo Hcs Hrel (d_rnd d) (col r) _ _ _ _) in H; [destruct H; split; auto|..|done].
    + apply Forall_forall. intros x Hx. by apply elem_of_list_fmap in Hx as (y & -> & _).
    + intros ->. destruct (E_fields _ S rand imm depth E l HE Hl) as (Hb & _).
      rewrite <- list_fmap_compose. rewrite (list_fmap_ext _ fst) by done.
      unfold exec, run_stmt in H. rewrite Hb in H. unfold run_batch in H. inv_bind H. destruct a.
      by apply apply_ins_nodup in H0 as [].
  - apply (key_exec dp o cs Hdp Hfo Hcs Hrel (d_rnd d) (col r) _ _ _ _) in H; [destruct H; split; auto|..|done].
    + apply Forall_forall. intros x Hx. apply elem_of_list_fmap in Hx as (y & -> & Hy). rewrite elem_of_remove_dups in Hy.
      split; [split|]; simpl.
      * by intros ??? [= <-].
      * intros ??? [= <-]. simpl. split; [done|]. intros -> Hyk; rewrite Hyk in Hy. left. apply Hsp; [done|done|by left].
      * intros -> Hyk; rewrite Hyk in Hy; intros ??? [= <-] c Hc. simpl. apply Hsp; [done|done|by right].
    + intros _. rewrite <- list_fmap_compose. rewrite (list_fmap_ext _ id) by done. rewrite list_fmap_id. apply NoDup_remove_dups.
  - apply (key_exec dp o cs Hdp Hfo Hcs Hrel (d_rnd d) (col r) _ _ _ _) in H; [destruct H; split; auto|..|done].
    + apply Forall_forall. intros x Hx. apply elem_of_list_fmap in Hx as (y & -> & Hy). rewrite elem_of_remove_dups in Hy.
      split; [split|]; simpl; [done| |done]. destruct (decide (t = tm)) as [->|]; [right|by left]. intros ->. by apply Hsp.
    + intros _. rewrite <- list_fmap_compose. rewrite (list_fmap_ext _ id) by done. rewrite list_fmap_id. apply NoDup_remove_dups.
Qed.
End obs.
