(** * Repeated rebuilding sets right what one rebuild does not. *)
From Verif Require Import Base BaseLemmas Schema TrigSet Gen Exec Orm Flush Engine GenLemmas Spec SpecAgg SpecOrder Invariant Unique Settle Conditions Sessions Frame Hist Update Terminate.

(** [n] times rebuildall() until it returns, every row being visible to the managers. *)
Inductive rebuilds (E : env) (S : schema) : nat → db → db → Prop :=
  | rebuilds_0 d : rebuilds E S 0 d d
  | rebuilds_S n d ord p d1 d2 :
      (∀ m k r, m ∈ s_models S → getrow d (m_table m) k = Some r → m_visible m r = true) →
      rebuildall E S ord p None None d = (d1, Done) → rebuilds E S n d1 d2 → rebuilds E S (Datatypes.S n) d d2.

Section repeat.
Context (b : backend) (S : schema) (rand : nat → Z) (imm : bool) (depth : nat) (E : env) (l : list trigger).
Context (Hwf : wf_schema S) (HE : mk_env b S rand imm depth = Ok E) (Hl : gen_all S = Ok l).
Context (Hnames : names_ok b l) (Hnod : no_m2m_denorm S) (Htr : all_truthy S).
Context (ρ : string → Z → string → nat) (d0 : db) (Hac : value_acyclic S ρ d0).
Notation inv := (inv S d0).
Notation valid := (valid S d0).
Notation rk := (rk ρ).
(** Cells of rank below [i] are right; those of rank [i] are right or their rows are marked. *)
Definition level (i : nat) (d : db) : Prop := inv d ∧ ∀ x, valid x →
  ((rk x < i)%nat → okb d x = true) ∧ (rk x = i → okb d x = true ∨ marker_of x.1.1 x.2 ∈ d_dirty d).

Lemma okb_tabs d d' x : inv d → valid x → d_tabs d' = d_tabs d → okb d' x = okb d x.
Proof using All.
  intros I Hv Ht. assert (Hg : ∀ o j c, agree_cell d d' o j c).
  { intros o j c u v Hu Hw. unfold getrow, tab in *. rewrite Ht in Hw. congruence. }
  apply (okb_same S Hwf Hnod ρ d0 Hac d d' x); [done|by eapply inv_tabs|done|done|done].
Qed.
Lemma level_process i mk d d' : level i d → process E S mk d = Ok d' → level i d'.
Proof using All.
  intros [I HL] H. pose proof (inv_process b S rand imm depth E l Hwf HE Hl Hnames d0 _ _ _ I H) as I'. split; [done|].
  unfold process in H. inv_bind H. injection H as <-. rename a into d1, H0 into Hps.
  assert (I1 : inv d1) by (by eapply inv_tabs; [|exact I']).
  assert (Hok : ∀ x, valid x → okb (unmark d1 mk) x = okb d1 x) by (intros; by apply okb_tabs).
  assert (Hne : ∀ x, x ∈ d_dirty d1 → x ≠ mk → x ∈ d_dirty (unmark d1 mk)) by (intros x Hx Hn; simpl; by apply elem_of_list_filter).
  unfold process_save in Hps. inv_bind Hps. destruct a as [[[m k] r]|].
  2:{ injection Hps as <-. intros x Hv. rewrite Hok by done. destruct (HL x Hv) as [H1 H2]. split; [done|]. intros Hi.
      destruct (H2 Hi) as [?|Hin]; [by left|right]. apply Hne; [done|]. intros <-.
      destruct (inv_row S d0 d x I Hv) as (r0 & r & _ & Hr & _). destruct Hv as (Hm & _).
      apply content_object_none in Hps0; [congruence|done..]. }
  destruct (content_object_some _ _ _ _ _ _ Hps0) as (Hm & Hr & Hmk). rewrite (Htr m r Hm) in Hps.
  inv_bind Hps. injection Hps as <-. rename a into p, Hps1 into Hsave.
  destruct (save_saved b S rand imm depth E l Hwf HE Hl Hnames Hnod m k r d p Hm Hr Hsave) as (q & Hq & Tq & Dq & Hx & Hsv).
  assert (Hval : ∀ f, f ∈ m_fields m → (∃ fn ds sk, f_kind f = KCallback fn ds sk) → valid (m, f, k)).
  { intros f Hf Hk. split_and!; [done|done|done|]. destruct (same_rows_get _ _ _ _ _ _ (proj1 (proj1 I) m Hm) Hr) as (r0 & Hr0 & _). by exists r0. }
  pose (ch := filter (changed r q) (m_fields m)).
  assert (Hfacts : (∀ x, valid x → (rk x ≤ i)%nat → okb d x = true → okb p.1 x = true) ∧
    (∀ f, f ∈ m_fields m → changed r q f → (i ≤ ρ (m_table m) k (f_col f))%nat)).
  { destruct (decide (ch = [])) as [Hch|Hch].
    - assert (Hno : ∀ f, f ∈ m_fields m → ¬ changed r q f).
      { intros f Hf Hc. assert (Hin : f ∈ ch) by (by apply elem_of_list_filter). rewrite Hch in Hin. by apply elem_of_nil in Hin. }
      split; [|intros f Hf Hc; by destruct (Hno f Hf)]. intros x Hv _ Hd. rewrite <- Hd.
      by apply (step_unchanged S Hwf Hnod ρ d0 Hac m k r d q p.1).
    - destruct (min_exists (λ f, ρ (m_table m) k (f_col f)) ch Hch) as (f0 & Hf0 & Hmin).
      apply elem_of_list_filter in Hf0 as [Hc0 Hf0].
      destruct (step_changed b S rand imm depth E l Hwf HE Hl Hnod ρ d0 Hac m k r d q p.1 Hm Hr I I1 Hq Hsv f0 Hf0 Hc0) as (A1 & A2 & A3).
      { intros f Hf Hc. apply Hmin. by apply elem_of_list_filter. }
      assert (Hi : (i ≤ ρ (m_table m) k (f_col f0))%nat).
      { destruct (decide (i ≤ ρ (m_table m) k (f_col f0))%nat) as [|Hn]; [done|exfalso].
        destruct (HL (m, f0, k) (Hval f0 Hf0 (proj1 Hc0))) as [Hlow _]. rewrite Hlow in A1; [done|]. unfold Terminate.rk. simpl. lia. }
      split.
      + intros x Hv Hle Hd. destruct (okb p.1 x) eqn:Ho; [done|]. rewrite A3 in Hd; [done|done| |done]. unfold Terminate.rk in *. lia.
      + intros f Hf Hc. assert (f ∈ ch) as Hin%Hmin by (by apply elem_of_list_filter). simpl in Hin. lia. }
  destruct Hfacts as [Hkeep Hch'].
  assert (Hright : ∀ f, f ∈ m_fields m → (∃ fn ds sk, f_kind f = KCallback fn ds sk) → (ρ (m_table m) k (f_col f) ≤ i)%nat → okb p.1 (m, f, k) = true).
  { apply (step_right b S rand imm depth E l Hwf HE Hl Hnod ρ d0 Hac m k r d q p.1 Hm Hr I I1 Hq Hsv).
    intros c (f & fn & ds & sk & Hf & <- & Hk) Hlt. destruct (decide (col q.2 (f_col f) = col r (f_col f))); [done|].
    assert (changed r q f) as Hc%Hch' by (split; eauto); [lia|done]. }
  intros x Hv. rewrite Hok by done. destruct (HL x Hv) as [H1 H2]. split; [intros Hlt; apply Hkeep; [done|lia|by apply H1]|].
  intros Hi. destruct (H2 Hi) as [?|Hin]; [left; apply Hkeep; [done|lia|done]|].
  destruct (decide (marker_of x.1.1 x.2 = mk)) as [Heq|Hn].
  - left. destruct x as [[m' f'] k']. simpl in Heq. destruct Hv as (Hm' & Hf' & Hk' & _). simpl in *. rewrite Hmk in Heq.
    apply (marker_of_inj S Hwf) in Heq as [-> ->]; [|done..]. apply Hright; [done|done|]. unfold Terminate.rk in Hi. simpl in Hi. lia.
  - right. apply Hne; [|done]. destruct (sv_marks _ _ _ _ _ _ _ Hsv) as (ms & Hms & _). rewrite Hms. apply elem_of_app. by left.
Qed.
Lemma level_pass i mks : ∀ d d', level i d → flush_pass E S mks d = (d', Done) → level i d'.
Proof using All.
  induction mks as [|mk mks IH]; intros d d' HL H; simpl in H; [by injection H as <-|].
  destruct (process E S mk d) as [d1|] eqn:Hp; [|done]. eapply IH; [|exact H]. by eapply level_process.
Qed.
Lemma level_flush i ord n : ∀ d d', level i d → flush E S ord n d = (d', Done) → level i d' ∧ d_dirty d' = [].
Proof using All.
  induction n as [|n IH]; intros d d' HL H; simpl in H; [done|]. destruct (decide (d_dirty d = [])); [by injection H as <-|].
  destruct (flush_pass E S (snapshot E ord d) d) as [d1 [| |]] eqn:Hp; try done. eapply IH; [|exact H]. by eapply level_pass.
Qed.
(** Every complete rebuild sets right the cells of one more rank. *)
Definition right_below (i : nat) (d : db) : Prop := inv d ∧ ∀ x, valid x → (rk x < i)%nat → okb d x = true.
Lemma rebuild_level i ord n d d' : (∀ m k r, m ∈ s_models S → getrow d (m_table m) k = Some r → m_visible m r = true) →
  right_below i d → rebuildall E S ord n None None d = (d', Done) → right_below (Datatypes.S i) d' ∧ d_dirty d' = [].
Proof using All.
  intros Hvis [I HL] H. unfold rebuildall in H. apply (level_flush i) in H.
  - destruct H as [[I' HL'] Hd]. split; [|done]. split; [done|]. intros x Hv Hlt. destruct (HL' x Hv) as [H1 H2].
    destruct (decide (rk x = i)) as [Hi|Hi]; [|apply H1; lia]. destruct (H2 Hi) as [?|Hin]; [done|]. rewrite Hd in Hin. by apply elem_of_nil in Hin.
  - split; [by eapply (inv_tabs S d0 d)|]. intros x Hv. rewrite (okb_tabs d) by done. split; [by apply HL|]. intros _. right.
    simpl. apply elem_of_app. right. destruct (inv_row S d0 d x I Hv) as (r0 & r & _ & Hr & _). destruct Hv as (Hm & Hf & (fn & ds & sk & Hk) & _).
    eapply rebuild_marks_all; eauto.
Qed.
Lemma rebuilds_level n d d' : rebuilds E S n d d' → ∀ i, right_below i d → right_below (i + n) d' ∧ (n ≠ 0%nat → d_dirty d' = []).
Proof using All.
  induction 1 as [d|n d ord p d1 d2 Hvis Hrb Hrs IH]; intros i HL; [by rewrite Nat.add_0_r|].
  destruct (rebuild_level i _ _ _ _ Hvis HL Hrb) as [HL1 Hd1]. destruct (IH _ HL1) as [HL2 Hd2].
  rewrite Nat.add_succ_r. split; [done|]. intros _. destruct (decide (n = 0%nat)) as [->|]; [|by apply Hd2]. by inversion Hrs; subst.
Qed.
End repeat.

Lemma rebuilds_settle_ok b S rand imm depth E ρ n d d' :
  mk_env b S rand imm depth = Ok E → wf_schema S → names_apart S → no_m2m_denorm S → all_truthy S →
  value_acyclic S ρ d → (∀ m k r c, m ∈ s_models S → getrow d (m_table m) k = Some r → callback_col m c → (ρ (m_table m) k c < n)%nat) →
  rebuilds E S n d d' → consistent S d' ∧ (n ≠ 0%nat → d_dirty d' = []).
Proof.
  intros HE Hwf Hna Hnod Htr Hac Hn Hrs. destruct (mk_env_gen _ _ _ _ _ _ HE) as [l Hl].
  assert (Hnames : names_ok b l) by (by eapply names_apart_ok).
  destruct (rebuilds_level b S rand imm depth E l Hwf HE Hl Hnames Hnod Htr ρ d Hac n d d' Hrs 0) as [[I HL] Hd].
  { split; [apply inv_start|]. intros; lia. }
  split; [|done]. intros m k r f Hm Hf Hr. unfold row_consistent. destruct (f_kind f) as [| |fn ds sk|a|ds] eqn:Hk; try done.
  destruct (same_rows_get _ _ _ _ _ _ (proj1 (proj1 I) m Hm) Hr) as (r0 & Hr0 & _).
  assert (Hv : valid S d (m, f, k)) by (split_and!; [done|done|eauto|by exists r0]).
  assert (Ho : okb d' (m, f, k) = true).
  { apply HL; [done|]. unfold rk. simpl. eapply Hn; [done..|]. by exists f, fn, ds, sk. }
  unfold okb in Ho. simpl in Ho. rewrite Hk, Hr in Ho. destruct (fn d' (Some k) r) as [pv|]; [|done]. exists pv. split; [done|].
  destruct (store_value f pv) eqn:Hs; [|done]. apply bool_decide_eq_true in Ho as <-. by apply store_value_spec.
Qed.
