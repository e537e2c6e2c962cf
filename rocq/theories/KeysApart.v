(** * Drawn cache keys stay different (denorms.py:205-211, fields.py:239-285, dependencies.py:97-235). *)
From Verif Require Import Base BaseLemmas Schema TrigSet Gen Exec Orm Flush Spec Engine GenLemmas Marking Conditions Invariant Settle Sessions Hist KeyDraw KeyObs SaveKey.

(** Column [c] of table [t] holds cache keys. *)
Definition key_cell (S : schema) (t c : string) : Prop :=
  ∃ m f ds, m ∈ s_models S ∧ f ∈ m_fields m ∧ f_kind f = KCacheKey ds ∧ t = m_table m ∧ c = f_col f.
(** The key in column [c] of row [k] of table [t] is the random number [no t c k]; different
    cells hold different draws. *)
Definition numbered (S : schema) (rand : nat → Z) (no : string → string → Z → nat) (d : db) : Prop :=
  (∀ t c k r, key_cell S t c → getrow d t k = Some r → (no t c k < d_rnd d)%nat ∧ col r c = VInt (rand (no t c k))) ∧
  (∀ t c k r t' c' k' r', key_cell S t c → getrow d t k = Some r → key_cell S t' c' → getrow d t' k' = Some r' →
     no t c k = no t' c' k' → t = t' ∧ c = c' ∧ k = k').
(** From [d] to [d'] every key is kept or is a draw made since. *)
Definition carried (S : schema) (no no' : string → string → Z → nat) (d d' : db) : Prop :=
  (d_rnd d ≤ d_rnd d')%nat ∧
  ∀ t c k r, key_cell S t c → getrow d' t k = Some r → (is_Some (getrow d t k) ∧ no' t c k = no t c k) ∨ (d_rnd d ≤ no' t c k)%nat.
Definition keys_apart (S : schema) (rand : nat → Z) (d : db) : Prop := ∃ no, numbered S rand no d.
(** What the application does: it never assigns to keys itself, and creates rows of models
    with keys by save(). *)
Definition leaves_keys (S : schema) (h : hop) : Prop :=
  match h with
  | HOp (OInsert t _) => ∀ c, ¬ key_cell S t c
  | HOp (OUpdate t _ g) => ∀ r c, key_cell S t c → col (g r) c = col r c
  | _ => True
  end.

Section apart.
Context (b : backend) (S : schema) (rand : nat → Z) (imm : bool) (depth : nat) (E : env).
Context (Hwf : wf_schema S) (Hna : names_apart S) (HE : mk_env b S rand imm depth = Ok E).
Definition K (d d' : db) : Prop := ∀ no, numbered S rand no d → ∃ no', numbered S rand no' d' ∧ carried S no no' d d'.
Lemma K_refl d : K d d.
Proof. intros no H. exists no. split; [done|]. split; [done|]. intros t c k r _ ->. left. by split. Qed.
Lemma K_trans d1 d2 d3 : K d1 d2 → K d2 d3 → K d1 d3.
Proof.
  intros H1 H2 no H. destruct (H1 _ H) as (no1 & N1 & L1 & C1). destruct (H2 _ N1) as (no2 & N2 & L2 & C2). exists no2. split; [done|].
  split; [lia|]. intros t c k r Hc Hg. destruct (C2 _ _ _ _ Hc Hg) as [[[r1 Hr1] ->]|Hle]; [by eapply C1|right; lia].
Qed.
Lemma K_apart d d' : K d d' → keys_apart S rand d → keys_apart S rand d'.
Proof. intros H [no N]. destruct (H _ N) as (no' & N' & _). by exists no'. Qed.

Lemma K_rnd d d' : d_tabs d' = d_tabs d → (d_rnd d ≤ d_rnd d')%nat → K d d'.
Proof.
  intros Ht Hr no [N1 N2]. exists no.
  assert (Heq : ∀ t k, getrow d' t k = getrow d t k) by (intros; unfold getrow, tab; by rewrite Ht). split; [split|].
  - intros t c k r Hc Hg. rewrite Heq in Hg. destruct (N1 _ _ _ _ Hc Hg). split; [lia|done].
  - intros t c k r t' c' k' r' Hc Hg Hc' Hg'. rewrite Heq in Hg, Hg'. eauto.
  - split; [done|]. intros t c k r _ Hg. rewrite Heq in Hg. left. by split.
Qed.
(** One row is written: its keys are new draws or those it had. *)
Lemma K_put d0 d t k r (sel : string → option nat) : d_tabs d = d_tabs d0 → (d_rnd d0 ≤ d_rnd d)%nat →
  (∀ c, key_cell S t c → match sel c with
     | Some n => (d_rnd d0 ≤ n < d_rnd d)%nat ∧ col r c = VInt (rand n)
     | None => ∃ o, getrow d0 t k = Some o ∧ col r c = col o c
     end) →
  (∀ c c' n, key_cell S t c → key_cell S t c' → sel c = Some n → sel c' = Some n → c = c') →
  K d0 (put_row d t k r).
Proof.
  intros Ht Hr Hsel Hinj no [N1 N2].
  assert (Heq : ∀ t k, getrow d t k = getrow d0 t k) by (intros; unfold getrow, tab; by rewrite Ht).
  exists (λ t' c' k', if decide (t' = t ∧ k' = k) then default (no t' c' k') (sel c') else no t' c' k'). split; [split|].
  - intros t' c' k' r' Hc Hg. rewrite getrow_put in Hg. case_decide as Hd.
    + destruct Hd as [-> ->]. injection Hg as <-. specialize (Hsel _ Hc). destruct (sel c') as [n|]; simpl; [split; [lia|apply Hsel]|].
      destruct Hsel as (o & Ho & ->). destruct (N1 _ _ _ _ Hc Ho). split; [lia|done].
    + rewrite Heq in Hg. destruct (N1 _ _ _ _ Hc Hg). simpl. split; [lia|done].
  - assert (Hold : ∀ t' c' k' r', key_cell S t' c' → getrow (put_row d t k r) t' k' = Some r' →
      (t' = t ∧ k' = k ∧ ∃ n, sel c' = Some n) ∨
      ((if decide (t' = t ∧ k' = k) then default (no t' c' k') (sel c') else no t' c' k') = no t' c' k' ∧ ∃ o, getrow d0 t' k' = Some o)).
    { intros t' c' k' r' Hc Hg. rewrite getrow_put in Hg. case_decide as Hd.
      - destruct Hd as [-> ->]. specialize (Hsel _ Hc). destruct (sel c') as [n|]; simpl; [left; split; [done|]; split; [done|by eexists]|right].
        destruct Hsel as (o & Ho & _). split; [done|by eexists].
      - right. rewrite Heq in Hg. split; [done|by eexists]. }
    intros t1 c1 k1 r1 t2 c2 k2 r2 Hc1 Hg1 Hc2 Hg2 Hno.
    destruct (Hold _ _ _ _ Hc1 Hg1) as [(-> & -> & n1 & S1)|(Q1 & o1 & O1)], (Hold _ _ _ _ Hc2 Hg2) as [(-> & -> & n2 & S2)|(Q2 & o2 & O2)].
    + rewrite !decide_True, S1, S2 in Hno by done. simpl in Hno. subst n2. split; [done|]. split; [by eapply Hinj|done].
    + rewrite Q2, decide_True, S1 in Hno by done. simpl in Hno. specialize (Hsel _ Hc1). rewrite S1 in Hsel. destruct (N1 _ _ _ _ Hc2 O2). lia.
    + rewrite Q1, decide_True, S2 in Hno by done. simpl in Hno. specialize (Hsel _ Hc2). rewrite S2 in Hsel. destruct (N1 _ _ _ _ Hc1 O1). lia.
    + rewrite Q1, Q2 in Hno. eauto.
  - split; [done|]. intros t' c' k' r' Hc Hg. rewrite getrow_put in Hg. case_decide as Hd.
    + destruct Hd as [-> ->]. specialize (Hsel _ Hc). destruct (sel c') as [n|]; simpl; [right; lia|].
      destruct Hsel as (o & Ho & _). left. rewrite Ho. by split.
    + rewrite Heq in Hg. left. rewrite Hg. by split.
Qed.
Lemma K_del d t k : K d (del_row d t k).
Proof.
  intros no [N1 N2]. exists no. assert (Hg' : ∀ t' k' r, getrow (del_row d t k) t' k' = Some r → getrow d t' k' = Some r).
  { intros t' k' r. rewrite getrow_del. by case_decide. }
  split; [split|].
  - intros t' c' k' r' Hc Hg. apply (N1 _ _ _ _ Hc (Hg' _ _ _ Hg)).
  - intros t1 c1 k1 r1 t2 c2 k2 r2 Hc1 Hg1 Hc2 Hg2. eauto.
  - split; [done|]. intros t' c' k' r' _ Hg. left. rewrite (Hg' _ _ _ Hg). by split.
Qed.

Lemma key_rand tr t c x w : key_cell S t c → tr ∈ e_trigs E → AUpd t c x w ∈ i_acts tr → x = XRand.
Proof.
  intros (m & f & ds & Hm & Hf & Hk & -> & ->). by eapply (only_rand b S rand imm depth E Hwf Hna HE m f ds).
Qed.
Lemma fire_K n act d e d' : fire E n act d e = Ok d' → K d d'.
Proof.
  apply (fire_fine E K); [apply K_refl|apply K_trans|intros; by apply K_rnd|].
  intros tr t c x w e1 k d1 o p Htr Ha Hg Hx. destruct p as [v d2]. cbn [fst snd].
  assert (Ht : d_tabs d2 = d_tabs d1) by (by apply expr_val_db in Hx as [-> | ->]).
  assert (Hr : (d_rnd d1 ≤ d_rnd d2)%nat) by (apply expr_val_db in Hx as [-> | ->]; simpl; lia).
  destruct x; try (apply (K_put d1 d2 t k _ (λ _, None)); [done|done| |done];
    intros c' Hc'; exists o; split; [done|]; rewrite col_insert_ne; [done|]; intros ->; pose proof (key_rand _ _ _ _ _ Hc' Htr Ha); done).
  simpl in Hx. injection Hx as <- <-. rewrite (rand_eq b S rand imm depth E HE).
  apply (K_put d1 _ t k _ (λ c', if decide (c' = c) then Some (d_rnd d1) else None)); [done|done| |].
  - intros c' _. case_decide as Hd; [subst c'; simpl; split; [lia|by rewrite col_insert_eq]|]. exists o. split; [done|]. by rewrite col_insert_ne.
  - intros c1 c2 n1 _ _. repeat case_decide; congruence.
Qed.

(** Statements *)
Definition keeps_ch (t : string) (ch : change) : Prop :=
  match ch with
  | CIns _ _ => ∀ c, ¬ key_cell S t c
  | CUpd _ g => ∀ d o p, g d o = Ok p → p.2 = d ∧ ∀ c, key_cell S t c → col p.1 c = col o c
  | CDel _ => True
  end.
Lemma apply_K t d ch d' evs : keeps_ch t ch → apply_change E t d ch = Ok (d', evs) → K d d'.
Proof.
  intros Hc Hap. destruct ch as [k r|k g|k]; simpl in *.
  - destruct (getrow d t k); [done|]. case_match; [|done]. injection Hap as <- <-.
    apply (K_put d d t k r (λ _, None)); [done|done| |done]. intros c Hkc. by destruct (Hc c).
  - destruct (getrow d t k) as [o|] eqn:Ho; [|injection Hap as <- <-; apply K_refl]. inv_bind Hap. destruct (Hc _ _ _ Hap0) as [Hd Hcol].
    case_match; [|done]. injection Hap as <- <-. rewrite Hd.
    apply (K_put d d t k _ (λ _, None)); [done|done| |done]. intros c Hkc. exists o. auto.
  - destruct (getrow d t k); [|injection Hap as <- <-; apply K_refl]. case_match; [|done]. injection Hap as <- <-. apply K_del.
Qed.
Lemma exec_K t cs d d' : Forall (keeps_ch t) cs → exec E t cs d = Ok d' → K d d'.
Proof.
  intros Hq. apply (run_stmt_rel E K); [apply K_refl|apply K_trans|intros ???; apply fire_K|].
  intros d1 ch d2 evs Hch. apply apply_K. by eapply Forall_forall in Hq.
Qed.

(** Saving *)
Lemma link_no_key m mm c : m ∈ s_models S → mm ∈ m_m2m m → ¬ key_cell S (mm_table mm) c.
Proof. intros Hm Hmm (m' & f & ds & Hm' & _ & _ & Ht & _). by eapply (wf_m2mtab _ _ (wf_models _ Hwf _ Hm)). Qed.
Lemma m2m_pre_save_K m pk r d d' : m ∈ s_models S → m2m_pre_save E m pk r d = Ok d' → K d d'.
Proof.
  intros Hm. unfold m2m_pre_save. destruct pk as [k'|]; [|intros [= <-]; apply K_refl]. case_decide; [intros [= <-]; apply K_refl|].
  apply (foldM_rel K); [apply K_refl|apply K_trans|]. intros a mm a' Hmm Ha. destruct (mm_denorm mm) as [[fn ds']|]; [|injection Ha as <-; apply K_refl].
  inv_bind Ha. unfold m2m_set in Ha. inv_bind Ha. eapply K_trans; [eapply exec_K; [|eassumption]|eapply exec_K; [|exact Ha]].
  - apply Forall_forall. intros x Hx. by apply elem_of_list_fmap in Hx as (y & -> & _).
  - generalize (fresh_key (tab a1 (mm_table mm))). intros z. generalize ((λ v, <[mm_col mm:=VInt k']> (<[mm_rev mm:=VInt v]> ∅ : row)) <$> filter (λ v, VInt v ∉ (links a mm k').*2) (remove_dups a0)).
    intros rs. revert z. induction rs as [|r0 rs IH]; intros z; simpl; constructor; [intros c; by eapply link_no_key|apply IH].
Qed.
(** After pre_save of the fields [fs] the instance holds new, different draws in the keys among them. *)
Definition drawn_row (n0 : nat) (fs : list field) (p : db * row) (sel : string → option nat) : Prop :=
  (∀ g ds, g ∈ fs → f_kind g = KCacheKey ds → ∃ n, sel (f_col g) = Some n ∧ (n0 ≤ n < d_rnd p.1)%nat ∧ col p.2 (f_col g) = VInt (rand n)) ∧
  (∀ c n, sel c = Some n → (n < d_rnd p.1)%nat) ∧
  (∀ c c' n, sel c = Some n → sel c' = Some n → c = c').
Lemma presave_drawn m add pk fs d r q : NoDup (f_col <$> fs) → foldM (presave_field E m add pk) (d, r) fs = Ok q →
  (d_rnd d ≤ d_rnd q.1)%nat ∧ ∃ sel, drawn_row (d_rnd d) fs q sel.
Proof.
  revert q. induction fs as [|g fs IH] using rev_ind; intros q Hnd H.
  { injection H as <-. split; [done|]. exists (λ _, None). split; [by intros g ds ?%elem_of_nil|done]. }
  rewrite foldM_app in H. inv_bind H. rewrite foldM_cons in H. inv_bind H. injection H as <-.
  rewrite fmap_app in Hnd. apply NoDup_app in Hnd as (Hnd & Hne & _). destruct (IH _ Hnd H0) as [L (sel & D1 & D2 & D3)].
  assert (Hold : ∀ g', g' ∈ fs → f_col g' ≠ f_col g).
  { intros g' Hg' Heq. apply (Hne (f_col g')); [by apply elem_of_list_fmap_1|]. simpl. rewrite <- Heq. left. }
  assert (Hsame : d_rnd a0.1 = d_rnd a.1 → (∀ ds, f_kind g ≠ KCacheKey ds) → (∀ g', g' ∈ fs → col a0.2 (f_col g') = col a.2 (f_col g')) →
    (d_rnd d ≤ d_rnd a0.1)%nat ∧ ∃ sel, drawn_row (d_rnd d) (fs ++ [g]) a0 sel).
  { intros Hr Hk Hc. rewrite Hr. split; [done|]. exists sel. unfold drawn_row. rewrite Hr. split; [|done].
    intros g' ds [Hg'|Hg']%elem_of_app Hk'; [|apply elem_of_list_singleton in Hg' as ->; by apply Hk in Hk'].
    rewrite Hc by done. by eapply D1. }
  unfold presave_field in H1. destruct (f_kind g) as [| |fn ds sk|ag|ds] eqn:Hk.
  - injection H1 as <-. by apply Hsame.
  - injection H1 as <-. apply Hsame; [done|done|]. intros g' Hg'. simpl. rewrite col_insert_ne; [done|by apply Hold].
  - inv_bind H1. inv_bind H1. injection H1 as <-. apply Hsame; [done|done|]. intros g' Hg'. simpl. rewrite col_insert_ne; [done|by apply Hold].
  - assert (∃ v, a0 = (a.1, <[f_col g:=v]> a.2)) as [v ->].
    { destruct add; [injection H1 as <-; by eexists|]. destruct (pk ≫= getrow a.1 (m_table m)) as [r0|]; [|done]. destruct (m_visible m r0); [|done].
      injection H1 as <-. by eexists. }
    apply Hsame; [done|done|]. intros g' Hg'. simpl. rewrite col_insert_ne; [done|by apply Hold].
  - injection H1 as <-. cbn [fst snd]. split; [simpl; lia|]. rewrite (rand_eq b S rand imm depth E HE).
    exists (λ c, if decide (c = f_col g) then Some (d_rnd a.1) else sel c). split; [|split].
    + intros g' ds' [Hg'|Hg']%elem_of_app Hk'.
      * rewrite decide_False by (intros Heq; by apply (Hold g')). cbn [fst snd]. rewrite (col_insert_ne _ _ _ _ (Hold g' Hg')).
        destruct (D1 _ _ Hg' Hk') as (n & Hs & Hn & Hc). exists n. split; [done|]. split; [simpl; lia|done].
      * apply elem_of_list_singleton in Hg' as ->. rewrite decide_True by done. exists (d_rnd a.1). split; [done|]. cbn [fst snd]. rewrite col_insert_eq. split; [simpl; lia|done].
    + intros c n. cbn [fst snd]. case_decide; [intros [= <-]; simpl; lia|]. intros Hs. apply D2 in Hs. simpl. lia.
    + intros c c' n. repeat case_decide; [congruence|intros [= <-] Hs; apply D2 in Hs; lia|intros Hs [= <-]; apply D2 in Hs; lia|apply D3].
Qed.
Lemma exec_draw m k ch d d1 d' q sel : m ∈ s_models S → drawn_row (d_rnd d) (m_fields m) (d1, q) sel → d_tabs d1 = d_tabs d → (d_rnd d ≤ d_rnd d1)%nat →
  (ch = CIns k q ∨ ch = upd_all k q) → exec E (m_table m) [ch] d1 = Ok d' → K d d'.
Proof.
  intros Hm (D1 & D2 & D3) Ht Hr Hch H. apply run_stmt_single in H. unfold run_batch in H. inv_bind H. destruct a as [d2 evs]. cbn [fst snd] in H.
  rewrite apply_all_cons in H0. inv_bind H0. destruct a as [d3 e1]. cbn [fst snd] in H0. inv_bind H0. injection H0 as <- <-. injection H2 as <-. cbn [fst snd] in *.
  eapply K_trans; [|eapply (foldM_rel K); [apply K_refl|apply K_trans| |exact H]; intros x e y _ He; by eapply fire_K]. clear H.
  assert (Hput : K d (put_row d1 (m_table m) k q)).
  { eapply (K_put d d1 _ _ _ sel); [done|done| |eauto]. intros c (m' & f & ds & Hm' & Hf & Hk & Htab & ->).
    assert (m' = m) as -> by (by eapply table_inj). destruct (D1 _ _ Hf Hk) as (n & -> & Hn & Hc). done. }
  destruct Hch as [->| ->]; simpl in H1.
  - destruct (getrow d1 (m_table m) k); [done|]. case_match; [|done]. by injection H1 as <- <-.
  - destruct (getrow d1 (m_table m) k); [|injection H1 as <- <-; by eapply K_rnd]. simpl in H1. destruct (_ || _) in H1; [|done]. by injection H1 as <- <-.
Qed.
Lemma presave_all_drawn m add pk d r q : m ∈ s_models S → presave_all E m add pk d r = Ok q →
  d_tabs q.1 = d_tabs d ∧ (d_rnd d ≤ d_rnd q.1)%nat ∧ ∃ sel, drawn_row (d_rnd d) (m_fields m) (q.1, q.2) sel.
Proof.
  intros Hm H. split; [by apply presave_all_db in H as []|]. destruct q as [d1 r1]. eapply presave_drawn; [|exact H]. apply (wf_cols _ _ (wf_models _ Hwf _ Hm)).
Qed.
Lemma save_existing_K m k r d p : m ∈ s_models S → save_existing E m k r d = Ok p → K d p.1.
Proof.
  intros Hm H. unfold save_existing in H. inv_bind H. inv_bind H. inv_bind H. injection H as <-. cbn [fst snd].
  apply m2m_pre_save_K in H0; [|done]. destruct (presave_all_drawn _ _ _ _ _ _ Hm H1) as (T & L & sel & D).
  eapply K_trans; [exact H0|]. exact (exec_draw m k _ _ _ _ _ sel Hm D T L (or_intror eq_refl) H2).
Qed.
Lemma post_save_K m k r d p : m ∈ s_models S → post_save_created E m k r d = Ok p → K d p.1.
Proof. intros Hm. unfold post_save_created. destruct (has_m2m_denorm m); [by apply save_existing_K|intros [= <-]; apply K_refl]. Qed.
Lemma save_K m pk r d x : m ∈ s_models S → save E m pk r d = Ok x → K d x.1.1.
Proof.
  intros Hm. unfold save. destruct pk as [k|].
  - destruct (getrow d (m_table m) k) as [r0|] eqn:Hg.
    + intros H. inv_bind H. injection H as <-. by eapply save_existing_K.
    + intros H. inv_bind H. inv_bind H. inv_bind H. inv_bind H. inv_bind H. injection H as <-. cbn [fst snd].
      apply m2m_pre_save_K in H0; [|done]. destruct (presave_all_drawn _ _ _ _ _ _ Hm H1) as (T1 & L1 & _). destruct (presave_all_drawn _ _ _ _ _ _ Hm H2) as (T & L & sel & D).
      eapply K_trans; [exact H0|]. eapply K_trans; [eapply K_rnd; [exact T1|exact L1]|].
      eapply K_trans; [|by eapply post_save_K]. by eapply (exec_draw m k _ _ _ _ _ sel Hm D T L (or_introl eq_refl)).
  - intros H. inv_bind H. inv_bind H. inv_bind H. injection H as <-. cbn [fst snd].
    destruct (presave_all_drawn _ _ _ _ _ _ Hm H0) as (T & L & sel & D). eapply K_trans; [|by eapply post_save_K].
    by eapply (exec_draw m _ _ _ _ _ _ sel Hm D T L (or_introl eq_refl)).
Qed.
(** Operations, flush and rebuild *)
Lemma op_K o d d' : leaves_keys S (HOp o) → run_op E S o d = Ok d' → K d d'.
Proof.
  intros Hl H. destruct o as [mn pk r|t rows|t ks g|t ks]; simpl in H, Hl.
  - destruct (find_model S mn) as [m|] eqn:Hfm; [|done]. inv_bind H. injection H as <-. apply find_model_in in Hfm as [Hm _]. by eapply save_K.
  - eapply exec_K; [|exact H]. apply Forall_forall. intros x Hx. by apply elem_of_list_fmap in Hx as (y & -> & _).
  - eapply exec_K; [|exact H]. apply Forall_forall. intros x Hx. apply elem_of_list_fmap in Hx as (y & -> & _). simpl. intros d0 o p [= <-]. split; [done|].
    intros c Hc. by apply Hl.
  - eapply exec_K; [|exact H]. apply Forall_forall. intros x Hx. by apply elem_of_list_fmap in Hx as (y & -> & _).
Qed.
Lemma process_K mk d d' : process E S mk d = Ok d' → K d d'.
Proof.
  intros H. unfold process in H. inv_bind H. injection H as <-. eapply K_trans; [|apply (K_rnd a _ eq_refl (Nat.le_refl _))].
  unfold process_save in H0. inv_bind H0. destruct a0 as [[[m' k] r]|]; [|injection H0 as <-; apply K_refl].
  destruct (content_object_some _ _ _ _ _ _ H1) as (Hm & Hr & _). destruct (m_truthy m' r); [|injection H0 as <-; apply K_refl].
  inv_bind H0. injection H0 as <-. by eapply save_existing_K.
Qed.
Lemma flush_pass_K mks d : K d (flush_pass E S mks d).1.
Proof.
  revert d. induction mks as [|mk mks IH]; intros d; simpl; [apply K_refl|].
  destruct (process E S mk d) eqn:Hp; [|apply K_refl]. eapply K_trans; [by eapply process_K|apply IH].
Qed.
Lemma flush_K ord n d : K d (flush E S ord n d).1.
Proof.
  revert d. induction n as [|n IH]; intros d; simpl; [apply K_refl|]. case_decide; [apply K_refl|].
  pose proof (flush_pass_K (snapshot E ord d) d) as Hp. destruct (flush_pass E S (snapshot E ord d) d) as [d1 []]; simpl in *; [|done|done]. by eapply K_trans.
Qed.
Lemma hist_K h d : leaves_keys S h → K d (hstep E S d h).
Proof.
  intros Hl. destruct h as [o|ord n|ord n mn fn]; cbn [hstep].
  - unfold step. destruct (run_op E S o d) eqn:Ho; [|apply K_refl]. by eapply op_K.
  - apply flush_K.
  - unfold rebuildall. eapply K_trans; [|apply flush_K]. by apply K_rnd.
Qed.
Lemma hists_K hs d : Forall (leaves_keys S) hs → K d (foldl (hstep E S) d hs).
Proof.
  intros Hf. revert d. induction Hf as [|h hs Hh Hf IH]; intros d; simpl; [apply K_refl|]. eapply K_trans; [by apply hist_K|apply IH].
Qed.
End apart.
