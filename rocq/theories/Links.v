(** * What saving does to denormalized ManyToManyFields. *)
From Verif Require Import Base BaseLemmas Schema TrigSet Gen Exec Orm Flush Spec Engine GenLemmas Marking Invariant Settle Sessions Frame Races.

(** ** Statements on a table no trigger writes to *)
Definition chg (T : table) (ch : change) : option table :=
  match ch with
  | CIns k r => match T !! k with None => Some (<[k := r]> T) | Some _ => None end
  | CDel k => Some (delete k T)
  | CUpd _ _ => None
  end.
Fixpoint chg_all (T : table) (cs : list change) : option table :=
  match cs with [] => Some T | ch :: cs' => match chg T ch with Some T' => chg_all T' cs' | None => None end end.
Definition ins_del (ch : change) : Prop := match ch with CUpd _ _ => False | _ => True end.

Lemma tab_put d t k r t' : tab (put_row d t k r) t' = if decide (t' = t) then <[k := r]> (tab d t) else tab d t'.
Proof. unfold put_row, tab. simpl. case_decide; [subst; by rewrite lookup_insert|by rewrite lookup_insert_ne]. Qed.
Lemma tab_del d t k t' : tab (del_row d t k) t' = if decide (t' = t) then delete k (tab d t) else tab d t'.
Proof. unfold del_row, tab. simpl. case_decide; [subst; by rewrite lookup_insert|by rewrite lookup_insert_ne]. Qed.

Section links.
Context (E : env).
Lemma fire_tab t n act d e d' : (∀ c, ¬ tw E t c) → fire E n act d e = Ok d' → tab d' t = tab d t.
Proof.
  intros Ht. apply (fire_rel E (λ d d', tab d' t = tab d t)); [done|congruence|done|].
  intros d1 d2 t' k c o v Htw Hr Hd. rewrite tab_put. case_decide; [subst; by apply Ht in Htw|]. by destruct Hd as [-> | ->].
Qed.
Lemma fires_tab t n act d evs d' : (∀ c, ¬ tw E t c) → foldM (fire E n act) d evs = Ok d' → tab d' t = tab d t.
Proof.
  intros Ht. apply (foldM_rel (λ d d', tab d' t = tab d t)); [done|congruence|]. intros ? ? ? _. by apply fire_tab.
Qed.
Lemma apply_change_tab t d ch d' evs : ins_del ch → apply_change E t d ch = Ok (d', evs) → chg (tab d t) ch = Some (tab d' t).
Proof.
  destruct ch as [k r|k f|k]; [|done|]; intros _; simpl; unfold getrow.
  - destruct (tab d t !! k) eqn:Hk; [done|]. case_match; [|done]. intros [= <- <-]. rewrite tab_put. by rewrite decide_True.
  - destruct (tab d t !! k) eqn:Hk.
    + case_match; [|done]. intros [= <- <-]. rewrite tab_del. by rewrite decide_True.
    + intros [= <- <-]. by rewrite delete_notin.
Qed.
Lemma apply_all_tab t cs : ∀ d d' evs, Forall ins_del cs → apply_all E t cs d = Ok (d', evs) → chg_all (tab d t) cs = Some (tab d' t).
Proof.
  induction cs as [|ch cs IH]; intros d d' evs Hq H; [by injection H as <- <-|].
  rewrite apply_all_cons in H. inv_bind H. inv_bind H. injection H as <- <-. apply Forall_cons in Hq as [Hq1 Hq2]. simpl.
  destruct a as [d1 e1], a0 as [d2 e2]. rewrite (apply_change_tab _ _ _ _ _ Hq1 H0). simpl in *. by eapply IH.
Qed.
Lemma exec_tab t cs d d' : (∀ c, ¬ tw E t c) → Forall ins_del cs → exec E t cs d = Ok d' → chg_all (tab d t) cs = Some (tab d' t).
Proof.
  intros Ht Hq H. unfold exec, run_stmt in H.
  assert (Hb : ∀ cs d d', Forall ins_del cs → run_batch E (fire E (e_depth E) []) t cs d = Ok d' → chg_all (tab d t) cs = Some (tab d' t)).
  { clear -Ht. intros cs d d' Hq H. unfold run_batch in H. inv_bind H. destruct a as [d1 evs]. simpl in H.
    rewrite (apply_all_tab _ _ _ _ _ Hq H0). f_equal. symmetry. by eapply fires_tab. }
  assert (Hs : foldM (λ d c, run_batch E (fire E (e_depth E) []) t [c] d) d cs = Ok d' → chg_all (tab d t) cs = Some (tab d' t)).
  { clear H. revert d Hq. induction cs as [|ch cs IH]; intros d Hq H; [by injection H as <-|]. simpl in H. inv_bind H.
    apply Forall_cons in Hq as [Hq1 Hq2]. apply Hb in H0; [|by apply Forall_singleton]. simpl in *.
    destruct (chg (tab d t) ch) as [T|]; [|done]. injection H0 as ->. by apply IH. }
  destruct (e_be E); [by apply Hs|by apply Hb|by apply Hs].
Qed.
(** Other tables. *)
Lemma exec_tab_other t t' cs d d' : t' ≠ t → (∀ c, ¬ tw E t' c) → Forall ch_quiet cs → exec E t cs d = Ok d' → tab d' t' = tab d t'.
Proof.
  intros Hne Ht Hq. apply (run_stmt_rel E (λ d d', tab d' t' = tab d t')); [done|congruence| |].
  - intros ? ? ?. by apply fire_tab.
  - intros d1 ch d2 evs Hch Hap. eapply Forall_forall in Hq; [|exact Hch]. destruct (apply_change_applied _ _ _ _ _ _ Hq Hap) as [Ap _].
    apply map_eq. intros i. apply (ap_other _ _ _ _ Ap t' i Hne).
Qed.

Lemma chg_all_ins cs : ∀ T T', Forall (λ ch, ∃ k r, ch = CIns k r) cs → chg_all T cs = Some T' →
  ∀ i r, T' !! i = Some r ↔ T !! i = Some r ∨ CIns i r ∈ cs.
Proof.
  induction cs as [|ch cs IH]; intros T T' Hq H i r; [injection H as <-; set_solver|].
  apply Forall_cons in Hq as [(k & x & ->) Hq]. simpl in H. destruct (T !! k) eqn:Hk; [done|].
  rewrite (IH _ _ Hq H). destruct (decide (i = k)) as [->|Hne].
  - rewrite lookup_insert, Hk. rewrite elem_of_cons. naive_solver.
  - rewrite lookup_insert_ne by done. rewrite elem_of_cons. naive_solver.
Qed.
Lemma chg_all_del ks : ∀ T T', chg_all T (CDel <$> ks) = Some T' → ∀ i r, T' !! i = Some r ↔ T !! i = Some r ∧ i ∉ ks.
Proof.
  induction ks as [|k ks IH]; intros T T' H i r; [injection H as <-; set_solver|]. csimpl in H. rewrite (IH _ _ H). rewrite lookup_delete_Some. set_solver.
Qed.
Lemma number_ins n rows : Forall (λ ch, ∃ k r, ch = CIns k r) (number n rows).
Proof. revert n. induction rows as [|r rows IH]; intros n; [constructor|]. simpl. constructor; [by eexists _, _|apply IH]. Qed.
Lemma number_elem rows : ∀ n r, r ∈ rows ↔ ∃ i, CIns i r ∈ number n rows.
Proof.
  induction rows as [|x rows IH]; intros n r; simpl; [split; [by intros ?%elem_of_nil|by intros (i & ?%elem_of_nil)]|].
  rewrite elem_of_cons, (IH (n + 1)). split.
  - intros [-> |(i & Hi)]; [exists n; left|exists i; by right].
  - intros (i & [[= -> ->]|Hi]%elem_of_cons); [by left|right; by exists i].
Qed.

(** ** Setting the links of one row *)
(** The value [x] is linked to the row [k]. *)
Definition linked_to (d : db) (mm : m2m) (k : Z) (x : val) : Prop :=
  ∃ i lr, getrow d (mm_table mm) i = Some lr ∧ col lr (mm_col mm) = VInt k ∧ col lr (mm_rev mm) = x.
Lemma links_spec d mm k i x : (i, x) ∈ links d mm k ↔ ∃ lr, getrow d (mm_table mm) i = Some lr ∧ col lr (mm_col mm) = VInt k ∧ col lr (mm_rev mm) = x.
Proof.
  unfold links. rewrite elem_of_list_fmap. split.
  - intros ([j lr] & [= -> ->] & [H1 H2]%elem_of_list_filter). apply elem_of_map_to_list in H2. by exists lr.
  - intros (lr & H1 & H2 & <-). exists (i, lr). split; [done|]. apply elem_of_list_filter. split; [done|]. by apply elem_of_map_to_list.
Qed.
Lemma m2m_set_exact mm k vals d d' : (∀ c, ¬ tw E (mm_table mm) c) → mm_col mm ≠ mm_rev mm → m2m_set E mm k vals d = Ok d' →
  (∀ x, linked_to d' mm k x ↔ ∃ v, v ∈ vals ∧ x = VInt v) ∧
  (∀ i lr, col lr (mm_col mm) ≠ VInt k → getrow d' (mm_table mm) i = Some lr ↔ getrow d (mm_table mm) i = Some lr).
Proof.
  intros Ht Hne H. unfold m2m_set in H. inv_bind H. rename a into d1.
  apply exec_tab in H0; [|done|apply Forall_fmap, Forall_forall; done].
  apply exec_tab in H; [|done|]; [|eapply Forall_impl; [apply number_ins|by intros ? (? & ? & ->)]].
  pose proof (chg_all_del _ _ _ H0) as H1. pose proof (chg_all_ins _ _ _ (number_ins _ _) H) as H2.
  set (new := filter (λ v, VInt v ∉ (links d mm k).*2) (remove_dups vals)) in *.
  set (gone := filter (λ p : Z * val, p.2 ∉ VInt <$> vals) (links d mm k)) in *.
  assert (Hgone : ∀ i, i ∈ gone.*1 ↔ ∃ lr, getrow d (mm_table mm) i = Some lr ∧ col lr (mm_col mm) = VInt k ∧ col lr (mm_rev mm) ∉ VInt <$> vals).
  { intros i. unfold gone. rewrite elem_of_list_fmap. split.
    - intros ([j x] & -> & [Hx Hl]%elem_of_list_filter). apply links_spec in Hl as (lr & ? & ? & <-). by exists lr.
    - intros (lr & ? & ? & Hx). exists (i, col lr (mm_rev mm)). split; [done|]. apply elem_of_list_filter. split; [done|]. apply links_spec. by exists lr. }
  assert (Hrow : ∀ v, col (<[mm_col mm := VInt k]> (<[mm_rev mm := VInt v]> ∅)) (mm_rev mm) = VInt v ∧ col (<[mm_col mm := VInt k]> (<[mm_rev mm := VInt v]> ∅)) (mm_col mm) = VInt k).
  { intros v. rewrite col_insert_ne by done. by rewrite !col_insert_eq. }
  split.
  - intros x. split.
    + intros (i & lr & Hi & Hc & <-). apply H2 in Hi as [Hi|Hi].
      * apply H1 in Hi as [Hi Hg]. destruct (decide (col lr (mm_rev mm) ∈ VInt <$> vals)) as [Hin|Hn].
        -- apply elem_of_list_fmap in Hin as (v & Hv & Hin). by exists v.
        -- exfalso. apply Hg, Hgone. by exists lr.
      * assert (Hi' : ∃ i, CIns i lr ∈ number (fresh_key (tab d1 (mm_table mm))) ((λ v, <[mm_col mm := VInt k]> (<[mm_rev mm := VInt v]> ∅)) <$> new)) by by exists i.
        apply number_elem in Hi'. apply elem_of_list_fmap in Hi' as (v & -> & Hv). apply elem_of_list_filter in Hv as [_ Hv]. rewrite elem_of_remove_dups in Hv.
        exists v. split; [done|]. apply Hrow.
    + intros (v & Hv & ->). destruct (decide (VInt v ∈ (links d mm k).*2)) as [Hin|Hn].
      * apply elem_of_list_fmap in Hin as ([i x] & Hvx & Hl). simpl in Hvx. subst x. apply links_spec in Hl as (lr & Hi & Hc & Hx). exists i, lr. split_and!; [|done|done].
        apply H2. left. apply H1. split; [done|]. intros Hg. apply Hgone in Hg as (lr' & Hi' & _ & Hx'). rewrite Hi in Hi'. injection Hi' as <-.
        apply Hx'. rewrite Hx. by apply elem_of_list_fmap_1.
      * assert (Hi : <[mm_col mm := VInt k]> (<[mm_rev mm := VInt v]> ∅) ∈ (λ v, <[mm_col mm := VInt k]> (<[mm_rev mm := VInt v]> (∅ : row))) <$> new).
        { apply (elem_of_list_fmap_1 (λ v, <[mm_col mm := VInt k]> (<[mm_rev mm := VInt v]> (∅ : row)))). apply elem_of_list_filter. split; [done|]. by apply elem_of_remove_dups. }
        apply (number_elem _ (fresh_key (tab d1 (mm_table mm)))) in Hi as (i & Hi). exists i. eexists. split; [apply H2; by right|]. split; apply Hrow.
  - intros i lr Hc. unfold getrow. rewrite H2. split.
    + intros [Hi|Hi]; [by apply H1 in Hi as []|]. exfalso.
      assert (Hi' : ∃ i, CIns i lr ∈ number (fresh_key (tab d1 (mm_table mm))) ((λ v, <[mm_col mm := VInt k]> (<[mm_rev mm := VInt v]> ∅)) <$> new)) by by exists i.
      apply number_elem in Hi'. apply elem_of_list_fmap in Hi' as (v & -> & _). apply Hc, Hrow.
    + intros Hi. left. apply H1. split; [done|]. intros Hg. apply Hgone in Hg as (lr' & Hi' & Hc' & _). unfold getrow in Hi'. rewrite Hi in Hi'. by injection Hi' as <-.
Qed.
End links.

Section save.
Context (b : backend) (S : schema) (rand : nat → Z) (imm : bool) (depth : nat) (E : env).
Context (Hwf : wf_schema S) (HE : mk_env b S rand imm depth = Ok E).
Context (m : model) (Hm : m ∈ s_models S).

Lemma link_untouched mm c : mm ∈ m_m2m m → ¬ tw E (mm_table mm) c.
Proof.
  destruct (mk_env_gen _ _ _ _ _ _ HE) as [l Hl]. intros Hmm. eapply link_not_tw with (l := l); eauto.
  intros m' Hm'. by apply (wf_m2mtab _ _ (wf_models _ Hwf _ Hm)).
Qed.
Lemma m2m_set_other mm t k vals d d' : mm_table mm ≠ t → (∀ c, ¬ tw E t c) → m2m_set E mm k vals d = Ok d' → tab d' t = tab d t.
Proof.
  intros Hne Ht H. unfold m2m_set in H. inv_bind H.
  apply (exec_tab_other E _ t) in H0; [|done|done|]; [|apply Forall_fmap, Forall_forall; done].
  apply (exec_tab_other E _ t) in H; [|done|done|]; [|apply number_quiet]. congruence.
Qed.
Definition mstep (k : Z) (r : row) (d : db) (mm : m2m) : res db :=
  match mm_denorm mm with Some (fn, _) => let* vals := fn d (Some k) r in m2m_set E mm k vals d | None => Ok d end.
Lemma msteps_other k r t mms d d' : (∀ mm, mm ∈ mms → mm_table mm ≠ t) → (∀ c, ¬ tw E t c) → foldM (mstep k r) d mms = Ok d' → tab d' t = tab d t.
Proof.
  intros Hne Ht. apply (foldM_rel (λ d d', tab d' t = tab d t)); [done|congruence|]. intros a mm a' Hmm Ha. unfold mstep in Ha.
  destruct (mm_denorm mm) as [[fn ds]|]; [|by injection Ha as <-]. inv_bind Ha. eapply m2m_set_other; [by apply Hne|done|done].
Qed.
Lemma msteps_kept k r mms d d' : (∀ mm, mm ∈ mms → mm ∈ m_m2m m) → foldM (mstep k r) d mms = Ok d' → user_data_kept S d d'.
Proof.
  intros Hin. apply foldM_rel; [apply kept_refl|apply kept_trans|]. intros a mm a' Hmm Ha. unfold mstep in Ha.
  destruct (mm_denorm mm) as [[fn ds]|] eqn:Hd; [|injection Ha as <-; apply kept_refl]. inv_bind Ha. eapply m2m_set_kept; eauto. by rewrite Hd.
Qed.
Lemma msteps_none k r mms d d' : (∀ mm, mm ∈ mms → mm_denorm mm = None) → foldM (mstep k r) d mms = Ok d' → d' = d.
Proof.
  intros Hn. apply (foldM_rel (λ d d', d' = d)); [done|congruence|]. intros a mm a' Hmm Ha. unfold mstep in Ha. rewrite (Hn _ Hmm) in Ha. by injection Ha as <-.
Qed.

Lemma save_links l1 mm l2 fn ds k r d p : m_m2m m = l1 ++ mm :: l2 → NoDup (mm_table <$> m_m2m m) → mm_denorm mm = Some (fn, ds) → mm_col mm ≠ mm_rev mm →
  k ≠ 0 → save_existing E m k r d = Ok p →
  ∃ d1 keys, user_data_kept S d d1 ∧ tab d1 (mm_table mm) = tab d (mm_table mm) ∧ ((∀ mm', mm' ∈ l1 → mm_denorm mm' = None) → d1 = d) ∧
    fn d1 (Some k) r = Ok keys ∧
    (∀ x, linked_to p.1 mm k x ↔ ∃ v, v ∈ keys ∧ x = VInt v) ∧
    (∀ i lr, col lr (mm_col mm) ≠ VInt k → getrow p.1 (mm_table mm) i = Some lr ↔ getrow d (mm_table mm) i = Some lr).
Proof.
  intros Hl Hnd Hd Hne Hk H. unfold save_existing in H. inv_bind H. inv_bind H. inv_bind H. injection H as <-. simpl.
  assert (Hmm : mm ∈ m_m2m m) by (rewrite Hl; set_solver). assert (Ht : ∀ c, ¬ tw E (mm_table mm) c) by (intros; by apply link_untouched).
  assert (Hfin : tab a1 (mm_table mm) = tab a (mm_table mm)).
  { assert (tab a0.1 (mm_table mm) = tab a (mm_table mm)) as <- by (unfold tab; by rewrite (proj1 (presave_all_db _ _ _ _ _ _ _ H1))).
    eapply exec_tab_other; [|done| |exact H2].
    - by apply (wf_m2mtab _ _ (wf_models _ Hwf _ Hm)).
    - apply Forall_singleton. by intros ? ? ? [= <-]. }
  unfold m2m_pre_save in H0. rewrite decide_False in H0 by done. change (foldM (mstep k r) d (m_m2m m) = Ok a) in H0. rewrite Hl in H0.
  rewrite foldM_app in H0. inv_bind H0. simpl in H0. inv_bind H0. unfold mstep at 1 in H4. rewrite Hd in H4. inv_bind H4.
  rename a2 into d1, a3 into d2, a4 into keys. rewrite Hl, fmap_app, fmap_cons in Hnd. apply NoDup_app in Hnd as (_ & Hn1 & Hn2). apply NoDup_cons in Hn2 as [Hn2 _].
  assert (H1t : tab d1 (mm_table mm) = tab d (mm_table mm)).
  { eapply msteps_other; [|done|exact H3]. intros mm' Hm' Heq. apply (Hn1 (mm_table mm')); [by apply elem_of_list_fmap_1|]. rewrite Heq. by left. }
  assert (H2t : tab a (mm_table mm) = tab d2 (mm_table mm)).
  { eapply msteps_other; [|done|exact H0]. intros mm' Hm' Heq. apply Hn2. rewrite <- Heq. by apply elem_of_list_fmap_1. }
  destruct (m2m_set_exact _ _ _ _ _ _ Ht Hne H4) as [X1 X2].
  exists d1, keys. split; [eapply msteps_kept; [|exact H3]; rewrite Hl; set_solver|]. split; [done|].
  split; [intros Hn; by eapply msteps_none|]. split; [done|]. split.
  - intros x. rewrite <- X1. unfold linked_to, getrow. by rewrite Hfin, H2t.
  - intros i lr Hc. specialize (X2 i lr Hc). unfold getrow in *. by rewrite Hfin, H2t, <- H1t.
Qed.

(** A new row: it is inserted, then saved once more. *)
Lemma save_new_links r d d' k r' : has_m2m_denorm m = true → save E m None r d = Ok (d', k, r') →
  k ≠ 0 ∧ ∃ d0 d2 r2, exec E (m_table m) [CIns k r2] d0 = Ok d2 ∧ d_tabs d0 = d_tabs d ∧ getrow d (m_table m) k = None ∧ save_existing E m k r2 d2 = Ok (d', r').
Proof.
  intros Hh H. unfold save in H. inv_bind H. inv_bind H. inv_bind H. injection H as <- <- <-. unfold post_save_created in H2. rewrite Hh in H2.
  assert (Hpos : ∀ T : table, 0 < fresh_key T ∧ T !! fresh_key T = None).
  { clear. intros T. unfold fresh_key. assert (Hmax : 0 ≤ foldr Z.max 0 (map_to_list T).*1 ∧ ∀ i r, T !! i = Some r → i ≤ foldr Z.max 0 (map_to_list T).*1).
    { assert (Hl : ∀ l, 0 ≤ foldr Z.max 0 l ∧ ∀ i, i ∈ l → i ≤ foldr Z.max 0 l).
      { induction l as [|x l [IH1 IH2]]; simpl; [split; [lia|by intros ? ?%elem_of_nil]|]. split; [lia|]. intros i [->|Hi]%elem_of_cons; [lia|]. specialize (IH2 _ Hi). lia. }
      destruct (Hl (map_to_list T).*1) as [H1 H2]. split; [done|]. intros i r Hi. apply H2. apply elem_of_list_fmap. exists (i, r). split; [done|]. by apply elem_of_map_to_list. }
    destruct Hmax as [H1 H2]. split; [lia|]. destruct (T !! _) eqn:HT; [|done]. apply H2 in HT. lia. }
  pose proof (presave_all_db _ _ _ _ _ _ _ H0) as [Tq _].
  split; [destruct (Hpos (tab a.1 (m_table m))); lia|]. exists a.1, a0, a.2. split; [done|]. split; [done|].
  split; [|by destruct a1].
  unfold getrow. assert (tab d (m_table m) = tab a.1 (m_table m)) as -> by (unfold tab; by rewrite Tq). apply Hpos.
Qed.
Lemma new_row_links l1 mm l2 fn ds r d d' k r' : m_m2m m = l1 ++ mm :: l2 → NoDup (mm_table <$> m_m2m m) → mm_denorm mm = Some (fn, ds) → mm_col mm ≠ mm_rev mm →
  save E m None r d = Ok (d', k, r') →
  getrow d (m_table m) k = None ∧ is_Some (getrow d' (m_table m) k) ∧
  (∃ d0 d2 r2, d_tabs d0 = d_tabs d ∧ exec E (m_table m) [CIns k r2] d0 = Ok d2 ∧ save_existing E m k r2 d2 = Ok (d', r')) ∧
  ∃ d1 r1 keys, fn d1 (Some k) r1 = Ok keys ∧
    (∀ x, linked_to d' mm k x ↔ ∃ v, v ∈ keys ∧ x = VInt v) ∧
    (∀ i lr, col lr (mm_col mm) ≠ VInt k → getrow d' (mm_table mm) i = Some lr ↔ getrow d (mm_table mm) i = Some lr).
Proof.
  intros Hl Hnd Hd Hne H. assert (Hmm : mm ∈ m_m2m m) by (rewrite Hl; set_solver).
  assert (Hh : has_m2m_denorm m = true).
  { unfold has_m2m_denorm. apply existsb_exists. exists mm. split; [by apply elem_of_list_In|]. by rewrite Hd. }
  destruct (save_new_links _ _ _ _ _ Hh H) as (Hk & d0 & d2 & r2 & Hx & Ht & Hn & Hs). split; [done|].
  assert (Hrow : ∃ r0, getrow d2 (m_table m) k = Some r0 ∧ ∀ c, plain_col m c → col r2 c = col r0 c).
  { assert (Hn0 : getrow d0 (m_table m) k = None) by (unfold getrow, tab in *; by rewrite Ht).
    pose proof Hx as Hx'. unfold exec in Hx'. apply run_stmt_single in Hx'. unfold run_batch in Hx'. inv_bind Hx'. destruct a as [d3 evs]. simpl in Hx'.
    assert (Hsk : skel E d3 d2) by (eapply foldM_rel; [apply skel_refl|apply skel_trans| |exact Hx']; intros ? ? ? _; apply fire_skel).
    match goal with H : apply_all _ _ _ _ = _ |- _ => rename H into Ha end. rewrite apply_all_cons in Ha. inv_bind Ha. destruct a as [d4 evs1]. simpl in Ha. injection Ha as <- <-. match goal with H : apply_change _ _ _ _ = _ |- _ => rename H into Hc1 end. simpl in Hc1. rewrite Hn0 in Hc1.
    destruct (_ || _) in Hc1; [|done]. injection Hc1 as <- <-. specialize (Hsk (m_table m) k). rewrite getrow_put_eq in Hsk.
    destruct (getrow d2 (m_table m) k) as [r0|]; [|done]. exists r0. split; [done|]. intros c Hc. apply Hsk.
    destruct (mk_env_gen _ _ _ _ _ _ HE) as [l Hgl]. eapply column_not_tw with (l := l); eauto using plain_column. }
  destruct Hrow as (r0 & Hr0 & Hsame).
  assert (Hkept : user_data_kept S d2 (d', r').1) by (eapply save_existing_kept_old; eauto).
  split; [destruct Hkept as [Hkept _]; specialize (Hkept m Hm k); rewrite Hr0 in Hkept; simpl in Hkept; destruct (getrow d' (m_table m) k); done|].
  split; [by exists d0, d2, r2|].
  destruct (save_links _ _ _ _ _ _ _ _ _ Hl Hnd Hd Hne Hk Hs) as (d1 & keys & _ & _ & _ & Hf & Hx1 & Hx2). exists d1, r2, keys. split; [done|]. split; [done|].
  intros i lr Hc. simpl in Hx2. rewrite (Hx2 i lr Hc). unfold getrow.
  assert (tab d2 (mm_table mm) = tab d0 (mm_table mm)) as ->.
  { eapply exec_tab_other; [by apply (wf_m2mtab _ _ (wf_models _ Hwf _ Hm))|intros; by apply link_untouched| |exact Hx]. by apply Forall_singleton. }
  unfold tab. by rewrite Ht.
Qed.
End save.
