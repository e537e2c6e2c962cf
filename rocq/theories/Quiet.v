(** * Flushing data that is already right changes nothing. *)
From Verif Require Import Base BaseLemmas Schema TrigSet Gen Exec Orm Flush Machine Spec SpecAgg SpecOrder SpecSave Engine GenLemmas Marking Conditions Invariant Settle Sessions Frame Silent KeyFrame Unique Terminate Update.

Lemma same_rows_refl t P d : same_rows t P d d.
Proof. intros k. by destruct (getrow d t k). Qed.
Lemma same_rows_trans t P d1 d2 d3 : same_rows t P d1 d2 → same_rows t P d2 d3 → same_rows t P d1 d3.
Proof.
  intros A B k. specialize (A k). specialize (B k). destruct (getrow d1 t k), (getrow d2 t k), (getrow d3 t k); try done.
  intros c Hc. rewrite A by done. by apply B.
Qed.
Lemma data_kept_refl S d : data_kept S d d.
Proof. split; intros; apply same_rows_refl. Qed.
Lemma data_kept_trans S d1 d2 d3 : data_kept S d1 d2 → data_kept S d2 d3 → data_kept S d1 d3.
Proof. intros [A B] [A' B']. split; intros; eapply same_rows_trans; eauto. Qed.

Section quiet.
Context (b : backend) (S : schema) (rand : nat → Z) (imm : bool) (depth : nat) (E : env) (l : list trigger).
Context (Hwf : wf_schema S) (HE : mk_env b S rand imm depth = Ok E) (Hl : gen_all S = Ok l).
Context (Hnames : names_ok b l) (Hnod : no_m2m_denorm S).
Context (Hreads : reads_no_clock S) (Hrest : ∀ m, m ∈ s_models S → ¬ restless b S m).

Lemma data_kept_user d d' : data_kept S d d' → user_data_kept S d d'.
Proof.
  intros [A B]. split; [|auto]. intros m Hm k. specialize (A m Hm k). destruct (getrow d (m_table m) k) as [x|], (getrow d' (m_table m) k) as [y|]; try done.
  intros c (f & Hf & <- & Hk). apply A. intros (g & Hg & Heq & Hgk).
  assert (g = f) as -> by (by eapply (NoDup_fmap_eq f_col); [apply (wf_cols _ _ (wf_models _ Hwf _ Hm))|..]). by rewrite Hk in Hgk.
Qed.
Lemma callback_not_clock m f fn ds sk : m ∈ s_models S → f ∈ m_fields m → f_kind f = KCallback fn ds sk → ¬ clock_col m (f_col f).
Proof.
  intros Hm Hf Hk (g & Hg & Heq & Hgk).
  assert (g = f) as -> by (by eapply (NoDup_fmap_eq f_col); [apply (wf_cols _ _ (wf_models _ Hwf _ Hm))|..]). by rewrite Hk in Hgk.
Qed.
(** A callback returns the same for rows equal up to clock columns. *)
Lemma fn_kept m f fn ds sk k d d' r r' : m ∈ s_models S → f ∈ m_fields m → f_kind f = KCallback fn ds sk →
  data_kept S d d' → (∀ c, ¬ clock_col m c → col r c = col r' c) → fn d (Some k) r = fn d' (Some k) r'.
Proof using Hwf Hnod Hreads.
  intros Hm Hf Hk K Hr. destruct (Hreads _ _ _ _ _ Hm Hf Hk) as (rd & Hro & Hds & Hnc).
  pose proof (data_kept_user _ _ (data_kept_refl S d)) as U. pose proof (data_kept_user _ _ K) as U'.
  apply (value_agree S Hwf Hnod d d d' U U' m f fn ds sk Hm Hf Hk k r r r' rd Hds).
  - done.
  - intros c Hc. apply Hr. eapply (Hnc d k r m k c Hm). by apply rc_own.
  - intros o j c Ho Hrc x y Hx Hy. pose proof (proj1 K o Ho j) as A. rewrite Hx, Hy in A. apply A. by eapply Hnc.
  - done.
Qed.
Lemma consistent_kept d d' : data_kept S d d' → consistent S d → consistent S d'.
Proof using Hwf Hnod Hreads.
  intros K C m k r' f Hm Hf Hr'. unfold row_consistent. destruct (f_kind f) as [| |fn ds sk|a|ds] eqn:Hk; try done.
  pose proof (proj1 K m Hm k) as A. rewrite Hr' in A. destruct (getrow d (m_table m) k) as [r|] eqn:Hr; [|done].
  pose proof (C _ _ _ _ Hm Hf Hr) as D. unfold row_consistent in D. rewrite Hk in D. destruct D as (pv & Hv & Hs).
  exists pv. rewrite <- (fn_kept m f fn ds sk k d d' r r'), <- A by (eauto using callback_not_clock). done.
Qed.

(** The values computed by a save are those stored. *)
Lemma presave_kept m k r d fs : ∀ p q, m ∈ s_models S → getrow d (m_table m) k = Some r → consistent S d →
  (∀ f, f ∈ fs → f ∈ m_fields m) → d_tabs p.1 = d_tabs d → (∀ c, ¬ clock_col m c → col r c = col p.2 c) →
  foldM (presave_field E m false (Some k)) p fs = Ok q → ∀ c, ¬ clock_col m c → col r c = col q.2 c.
Proof using Hwf Hnod Hreads.
  induction fs as [|f fs IH]; intros p q Hm Hr C Hfs Tp Hp H; simpl in H; [by injection H as <-|].
  inv_bind H. rename a into p1, H0 into Hstep.
  pose proof (presave_field_db _ _ _ _ _ _ _ Hstep) as [T1 _].
  eapply (IH p1 q); [done|done|done|intros; apply Hfs; by right|congruence| |done]. clear IH H. intros c Hc.
  unfold presave_field in Hstep. assert (Hf : f ∈ m_fields m) by (apply Hfs; left).
  destruct (f_kind f) as [| |fn ds sk|a|ds] eqn:Hk.
  - injection Hstep as <-. by apply Hp.
  - injection Hstep as <-. simpl. rewrite col_insert_ne; [by apply Hp|]. intros Heq. apply Hc. exists f. by rewrite Hk.
  - inv_bind Hstep. inv_bind Hstep. injection Hstep as <-. simpl.
    destruct (decide (f_col f = c)) as [<-|Hne]; [|rewrite col_insert_ne by done; by apply Hp].
    rewrite col_insert_eq. pose proof (C _ _ _ _ Hm Hf Hr) as D. unfold row_consistent in D. rewrite Hk in D. destruct D as (pv & Hv & Hs).
    rewrite (fn_kept m f fn ds sk k d p.1 r p.2) in Hv; [|done|done|done| |done].
    + rewrite Hv in Hstep0. injection Hstep0 as <-. apply store_value_spec in Hstep1. by eapply stores_det.
    + split; intros; unfold same_rows, getrow, tab; rewrite Tp; apply same_rows_refl.
  - simpl in Hstep. assert (Hr' : getrow p.1 (m_table m) k = Some r) by (unfold getrow, tab; by rewrite Tp).
    rewrite Hr' in Hstep. destruct (m_visible m r); [|done]. injection Hstep as <-. simpl.
    destruct (decide (f_col f = c)) as [<-|Hne]; [by rewrite col_insert_eq|rewrite col_insert_ne by done; by apply Hp].
  - injection Hstep as <-. simpl. rewrite col_insert_ne; [by apply Hp|]. intros Heq. apply Hc. exists f. by rewrite Hk.
Qed.

Lemma process_kept mk d d' : consistent S d → process E S mk d = Ok d' →
  data_kept S d d' ∧ d_dirty d' = filter (λ x, x ≠ mk) (d_dirty d).
Proof.
  intros C H. unfold process in H. inv_bind H. injection H as <-. rename a into d1, H0 into Hps. simpl.
  assert (Hid : d1 = d → data_kept S d (unmark d1 mk) ∧ filter (λ x, x ≠ mk) (d_dirty d1) = filter (λ x, x ≠ mk) (d_dirty d)).
  { intros ->. split; [|done]. pose proof (data_kept_refl S d) as K. split; [exact (proj1 K)|exact (proj2 K)]. }
  unfold process_save in Hps. inv_bind Hps. destruct a as [[[m k] r]|]; [|injection Hps as <-; by apply Hid].
  destruct (content_object_some _ _ _ _ _ _ Hps0) as (Hm & Hr & Hmk). destruct (m_truthy m r); [|injection Hps as <-; by apply Hid].
  clear Hid. inv_bind Hps. injection Hps as <-. rename a into p, Hps1 into Hsave.
  destruct (save_saved b S rand imm depth E l Hwf HE Hl Hnames Hnod m k r d p Hm Hr Hsave) as (q & Hq & Tq & Dq & Hx & _).
  assert (Hkept : ∀ c, ¬ clock_col m c → col r c = col q.2 c).
  { eapply (presave_kept m k r d (m_fields m) (d, r)); try done. }
  destruct (save_quiet_rows b S rand imm depth E l Hwf HE Hl m k r d q p.1 Hm Hr Tq Dq Hq Hx (Hrest _ Hm)) as (Hd & _ & Hrows).
  { intros c (f & fn & ds & sk & Hf & <- & Hk). symmetry. apply Hkept. by eapply callback_not_clock. }
  split; [|by rewrite Hd, Dq].
  assert (Hq1 : ∀ t j, getrow q.1 t j = getrow d t j) by (intros; unfold getrow, tab; by rewrite Tq).
  assert (Hg : ∀ t j, getrow (unmark p.1 mk) t j = if decide (t = m_table m ∧ j = k) then Some q.2 else getrow d t j).
  { intros t j. change (getrow (unmark p.1 mk) t j) with (getrow p.1 t j). rewrite Hrows, !Hq1.
    destruct (decide (t = m_table m ∧ j = k)) as [[-> ->]|Hn].
    - rewrite decide_True by (split; [done|set_solver]). by rewrite Hr.
    - rewrite decide_False; [done|]. intros [-> Hj%elem_of_list_singleton]. by apply Hn. }
  split.
  - intros o Ho j. rewrite Hg. destruct (decide (m_table o = m_table m ∧ j = k)) as [[Ht ->]|Hn].
    + assert (o = m) as -> by (by eapply table_inj). rewrite Hr. exact Hkept.
    + by destruct (getrow d (m_table o) j).
  - intros t Ht j. rewrite Hg. rewrite decide_False by (intros [-> _]; by apply (Ht _ Hm)). by destruct (getrow d t j).
Qed.

Lemma flush_pass_kept mks : ∀ d d' o, consistent S d → flush_pass E S mks d = (d', o) →
  data_kept S d d' ∧ (o = Done → ∀ x, x ∈ d_dirty d' → x ∈ d_dirty d ∧ x ∉ mks) ∧ (∀ x, x ∈ d_dirty d' → x ∈ d_dirty d).
Proof.
  induction mks as [|mk mks IH]; intros d d' o C H; simpl in H.
  { injection H as <- <-. split_and!; [apply data_kept_refl| |done]. intros _ x Hx. split; [done|]. by intros ?%elem_of_nil. }
  destruct (process E S mk d) as [d1|] eqn:Hp; [|injection H as <- <-; split_and!; [apply data_kept_refl|done|done]].
  destruct (process_kept _ _ _ C Hp) as [K D]. destruct (IH d1 d' o (consistent_kept _ _ K C) H) as (K' & D' & M').
  split_and!; [by eapply data_kept_trans| |].
  - intros Ho x Hx. destruct (D' Ho x Hx) as [Hin Hn]. rewrite D in Hin. apply elem_of_list_filter in Hin as [Hne Hin].
    split; [done|]. intros [?|?]%elem_of_cons; done.
  - intros x Hx. apply M' in Hx. rewrite D in Hx. by apply elem_of_list_filter in Hx as [_ ?].
Qed.
Context (ord : db → list marker → list marker) (Hord : ∀ x l mk, mk ∈ ord x l ↔ mk ∈ l).
Lemma flush_quiet n d d' o : consistent S d → flush E S ord n d = (d', o) →
  data_kept S d d' ∧ consistent S d' ∧ (o = Running → n ≤ 1)%nat ∧ (∀ x, x ∈ d_dirty d' → x ∈ d_dirty d).
Proof.
  intros C H. assert (A : data_kept S d d' ∧ (o = Running → n ≤ 1)%nat ∧ (∀ x, x ∈ d_dirty d' → x ∈ d_dirty d)).
  { destruct n as [|n]; simpl in H; [injection H as <- <-; split_and!; [apply data_kept_refl|lia|done]|].
    case_decide as Hd; [injection H as <- <-; split_and!; [apply data_kept_refl|done|done]|].
    destruct (flush_pass E S (snapshot E ord d) d) as [d1 o1] eqn:Hp.
    destruct (flush_pass_kept _ _ _ _ C Hp) as (K & D & M). destruct o1.
    - assert (He : d_dirty d1 = []).
      { destruct (d_dirty d1) as [|x xs] eqn:Hx; [done|]. destruct (D eq_refl x ltac:(left)) as [Hin Hn].
        destruct Hn. by apply (snapshot_elem E ord Hord). }
      destruct n as [|n]; simpl in H; [injection H as <- <-; split_and!; [done|lia|done]|].
      rewrite decide_True in H by done. injection H as <- <-. done.
    - injection H as <- <-. done.
    - by apply flush_pass_stops in Hp. }
  destruct A as (K & R & M). split_and!; [done|by eapply consistent_kept|done|done].
Qed.
End quiet.

Section fresh.
Context (b : backend) (S : schema) (rand : nat → Z) (imm : bool) (depth : nat) (E : env).
Context (HE : mk_env b S rand imm depth = Ok E) (Hwf : wf_schema S) (Hn : names_apart S) (Hnod : no_m2m_denorm S).
Context (Hreads : reads_no_clock S) (Hrest : ∀ m, m ∈ s_models S → ¬ restless b S m).
Context (ord : db → list marker → list marker) (Hord : ∀ x l mk, mk ∈ ord x l ↔ mk ∈ l).
Lemma fresh_flush n d d' o : consistent S d → flush E S ord n d = (d', o) →
  data_kept S d d' ∧ consistent S d' ∧ (o = Running → n ≤ 1)%nat ∧ (∀ x, x ∈ d_dirty d' → x ∈ d_dirty d).
Proof.
  destruct (mk_env_gen _ _ _ _ _ _ HE) as [l Hl]. assert (Hno : names_ok b l) by (by eapply names_apart_ok).
  by eapply (flush_quiet b S rand imm depth E l Hwf HE Hl Hno Hnod Hreads Hrest ord Hord).
Qed.
Lemma fresh_rebuild n mn fn d d' o : consistent S d → rebuildall E S ord n mn fn d = (d', o) →
  data_kept S d d' ∧ consistent S d' ∧ (o = Running → n ≤ 1)%nat.
Proof.
  intros C H. unfold rebuildall in H.
  assert (K : data_kept S d (mark d (rebuild_marks S mn fn d))).
  { pose proof (data_kept_refl S d) as K. split; [exact (proj1 K)|exact (proj2 K)]. }
  destruct (fresh_flush n _ _ _ (consistent_kept S Hwf Hnod Hreads _ _ K C) H) as (K' & C' & R & _).
  split_and!; [exact (data_kept_trans S _ _ _ K K')|done|done].
Qed.
End fresh.
