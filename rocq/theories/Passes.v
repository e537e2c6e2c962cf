(** * How many passes flush() needs: one for every step of a chain of dependencies, one to see that nothing changed. *)
From Verif Require Import Base BaseLemmas Schema TrigSet Gen Exec Orm Flush Machine Spec SpecAgg SpecOrder Engine GenLemmas Marking Conditions Invariant Settle Sessions Frame Silent KeyFrame Unique Terminate Cursor.
From stdpp Require Import relations.
From Verif Require Update.

Lemma sum_pos {A} (L : list A) (F : A → nat) x : x ∈ L → (0 < F x)%nat → (0 < sum_list (F <$> L))%nat.
Proof. intros Hx. induction Hx as [x L|x y L Hx IH]; csimpl; [lia|]. intros Hp. specialize (IH Hp). lia. Qed.

Section passes.
Context (b : backend) (S : schema) (rand : nat → Z) (imm : bool) (depth : nat) (E : env) (rank : string → nat) (l : list trigger).
Context (HE : mk_env b S rand imm depth = Ok E) (Hfl : flushable S rank imm) (Hl : gen_all S = Ok l) (Hnames : names_ok b l).
Context (ρ : string → Z → string → nat) (d0 : db) (Hac : value_acyclic S ρ d0).
Notation cellid := (model * field * Z)%type.
Notation cells := (all_cells S d0).
Notation inv := (inv S d0).
Notation valid := (valid S d0).
Notation Hwf := (fl_wf _ _ _ Hfl).
Notation Hnod := (fl_nodm _ _ _ Hfl).
Lemma cells_valid x : x ∈ cells → valid x.
Proof using. destruct x as [[m f] k]. intros Hx. by apply all_cells_spec in Hx. Qed.
Lemma valid_cells x : valid x → x ∈ cells.
Proof using. destruct x as [[m f] k]. intros (? & ? & ? & ?). by apply all_cells_spec. Qed.

(** All cells below a rank are consistent. *)
Definition final (i : nat) (d : db) : Prop := ∀ x, valid x → (rk ρ x < i)%nat → okb d x = true.

Lemma consistent_okb d x r : valid x → getrow d (m_table x.1.1) x.2 = Some r →
  row_consistent x.1.1 d x.2 r x.1.2 → okb d x = true.
Proof using.
  intros (Hm & Hf & (fn & ds & sk & Hk) & _) Hr Hc. unfold row_consistent in Hc. rewrite Hk in Hc. destruct Hc as (pv & Hfn & Hs).
  unfold okb. rewrite Hk, Hr, Hfn. apply Update.store_value_spec in Hs. rewrite Hs. by apply bool_decide_eq_true.
Qed.
Lemma okb_tabs d d' x : inv d → d_tabs d' = d_tabs d → valid x → okb d' x = okb d x.
Proof using Hac Hfl.
  intros I Ht Hv. assert (Hg : ∀ o j c, agree_cell d d' o j c).
  { intros o j c u v Hu Hw. unfold getrow, tab in *. rewrite Ht in Hw. congruence. }
  apply (okb_same S Hwf Hnod ρ d0 Hac); [done|by eapply inv_tabs|done|done|done].
Qed.

(** Processing a marker keeps what is final, and settles the cells of its own row. *)
Lemma process_final i mk d d' : inv d → finv S d → final i d → process E S mk d = Ok d' →
  ∀ x, valid x → (rk ρ x ≤ i)%nat → okb d x = true ∨ mk = marker_of x.1.1 x.2 → okb d' x = true.
Proof using All.
  intros I Hi Hfin H x Hv Hle Hor. pose proof (inv_process b S rand imm depth E l Hwf HE Hl Hnames d0 _ _ _ I H) as I'.
  unfold process in H. inv_bind H. injection H as <-. rename a into d1, H0 into Hps.
  assert (I1 : inv d1) by (by eapply inv_tabs; [|exact I']).
  rewrite (okb_tabs d1 (unmark d1 mk) x) by done.
  destruct (inv_row S d0 d1 x I1 Hv) as (_ & r1 & _ & Hr1 & _).
  unfold process_save in Hps. inv_bind Hps. destruct a as [[[m k] r]|].
  2:{ injection Hps as <-. destruct Hor as [?| ->]; [done|]. exfalso.
      apply (content_object_none S Hwf) in Hps0; [congruence|apply Hv]. }
  destruct (content_object_some _ _ _ _ _ _ Hps0) as (Hm & Hr & Hmk). rewrite (fl_truthy _ _ _ Hfl _ r Hm) in Hps.
  inv_bind Hps. injection Hps as <-. rename a into p, Hps1 into Hsave.
  destruct Hor as [Hok|Heq].
  2:{ destruct (fsave_inv b S rand imm depth E rank HE Hfl mk m k r d p Hps0 Hsave Hi) as [_ Hst].
      eapply consistent_okb; [done|exact Hr1|]. eapply (Hst x.1.1 x.2); [apply Hv|done|done|apply Hv]. }
  destruct (save_saved b S rand imm depth E l Hwf HE Hl Hnames Hnod m k r d p Hm Hr Hsave) as (q & Hq & Tq & Dq & Hx & Hsv).
  pose (ch := filter (changed r q) (m_fields m)).
  destruct (decide (ch = [])) as [Hch|Hch].
  - rewrite <- Hok. apply (step_unchanged S Hwf Hnod ρ d0 Hac m k r d q p.1 Hm Hr I I1 Hsv x Hv).
    intros f Hf Hc. assert (Hin : f ∈ ch) by (by apply elem_of_list_filter). rewrite Hch in Hin. by apply elem_of_nil in Hin.
  - destruct (min_exists (λ f, ρ (m_table m) k (f_col f)) ch Hch) as (f0 & Hf0 & Hmin).
    apply elem_of_list_filter in Hf0 as [Hc0 Hf0].
    destruct (step_changed b S rand imm depth E l Hwf HE Hl Hnod ρ d0 Hac m k r d q p.1 Hm Hr I I1 Hq Hsv f0 Hf0 Hc0) as (A1 & A2 & A3).
    { intros f Hf Hc. apply Hmin. by apply elem_of_list_filter. }
    assert (V0 : valid (m, f0, k)).
    { destruct Hc0 as [(fn & ds & sk & Hk) _]. split_and!; [done|done|simpl; eauto|]. simpl.
      destruct (same_rows_get _ _ _ _ _ _ (proj1 (proj1 I) m Hm) Hr) as (r0 & Hr0 & _). by rewrite Hr0. }
    destruct (decide (ρ (m_table m) k (f_col f0) < i)%nat) as [Hlt|Hge].
    { rewrite (Hfin (m, f0, k) V0 Hlt) in A1. done. }
    destruct (okb p.1 x) eqn:Hb; [done|]. rewrite (A3 x Hv ltac:(lia) Hb) in Hok. done.
Qed.

Lemma fprocess_inv mk d d' : process E S mk d = Ok d' → finv S d → finv S d'.
Proof using HE Hfl.
  pose proof (λ mk m k r d p, fsave_inv b S rand imm depth E rank HE Hfl mk m k r d p) as Hs. clear HE. destruct Hfl.
  eapply process_inv; eauto.
Qed.
(** One pass makes the cells of the next rank final. *)
Lemma pass_final i mks d d' : inv d → finv S d → final i d → flush_pass E S mks d = (d', Done) →
  inv d' ∧ finv S d' ∧ ∀ x, valid x → (rk ρ x ≤ i)%nat → okb d x = true ∨ marker_of x.1.1 x.2 ∈ mks → okb d' x = true.
Proof using All.
  revert d. induction mks as [|mk mks IH]; intros d I Hi Hfin H; simpl in H.
  { injection H as <-. split_and!; [done|done|]. intros x _ _ [?|?%elem_of_nil]; done. }
  destruct (process E S mk d) as [d1|] eqn:Hp; [|done].
  pose proof (inv_process b S rand imm depth E l Hwf HE Hl Hnames d0 _ _ _ I Hp) as I1.
  pose proof (fprocess_inv _ _ _ Hp Hi) as Hi1.
  pose proof (process_final i mk d d1 I Hi Hfin Hp) as Hstep.
  destruct (IH d1 I1 Hi1) as (I' & Hi' & Hx); [|done|].
  { intros x Hv Hlt. apply Hstep; [done|lia|left]. by apply Hfin. }
  split_and!; [done|done|]. intros x Hv Hle Hor. apply Hx; [done|done|].
  destruct (decide (marker_of x.1.1 x.2 ∈ mks)); [by right|left]. apply Hstep; [done|done|].
  destruct Hor as [?|[?|?]%elem_of_cons]; [by left|by right|done].
Qed.

Context (R M : nat) (HR : ∀ x, valid x → (rk ρ x ≤ R)%nat).
Context (σ : Z → nat) (Hcalm : calm b S σ) (HM : ∀ ct, (σ ct ≤ M)%nat).
(** ** Any cursor *)
Lemma final_mu y : final (Datatypes.S R) y ↔ mu ρ cells R y = 0%nat.
Proof using HR.
  split.
  - intros Hy. unfold mu. rewrite (fmap_ext_in _ (λ _, 0%nat)). { generalize cells. intros L. by induction L. }
    intros x Hx. apply cells_valid in Hx. rewrite Hy; [done|done|]. specialize (HR x Hx). lia.
  - intros H0 x Hv _. destruct (okb y x) eqn:Hb; [done|exfalso]. apply valid_cells in Hv.
    assert (0 < mu ρ cells R y)%nat; [|lia]. unfold mu. eapply (sum_pos _ _ x Hv). simpl. rewrite Hb.
    unfold weight. apply Nat.neq_0_lt_0, Nat.pow_nonzero. lia.
Qed.
Lemma rounds_settled B n d d' : inv d → final (Datatypes.S R) d → (∀ x, x ∈ d_dirty d → (σ x.1 < B)%nat) →
  nsteps (round E S) n d d' → (n ≤ B)%nat.
Proof using All.
  assert (Ha : ∀ m f fn ds sk k, m ∈ s_models S → f ∈ m_fields m → f_kind f = KCallback fn ds sk → is_Some (getrow d0 (m_table m) k) →
    (m, f, k) ∈ cells) by (intros m f fn ds sk k Hm Hf Hk Hr; apply all_cells_spec; split_and!; [done|done|eauto|done]).
  assert (HR' : ∀ x, x ∈ cells → (rk ρ x ≤ R)%nat) by (intros x Hx; by apply HR, cells_valid).
  pose proof (process_step b S rand imm depth E l Hwf HE Hl Hnames Hnod ρ d0 Hac cells cells_valid Ha R HR' σ Hcalm) as PS.
  pose proof (pass_step b S rand imm depth E l Hwf HE Hl Hnames Hnod ρ d0 Hac cells cells_valid Ha R HR' σ Hcalm) as PP.
  pose proof (λ mk x y, inv_process b S rand imm depth E l Hwf HE Hl Hnames d0 mk x y) as IP.
  assert (CB : ∀ B seen x ms y, cursor_pass E S seen x ms y → inv x → mu ρ cells R x = 0%nat → (∀ mk, mk ∈ seen → σ mk.1 < B)%nat → (∀ mk, mk ∈ d_dirty x → σ mk.1 < B)%nat →
    ∀ mk, mk ∈ ms → (σ mk.1 < B)%nat).
  { intros B' seen x ms y Hc. induction Hc as [seen x|seen x mk x1 ms y Hmk Hp Hc IH]; intros Hi H0 Hs Hd0; [by intros mk ?%elem_of_nil|].
    pose proof (IP _ _ _ Hi Hp) as Hi1. destruct (PS _ _ _ Hi Hp) as [Hlt|[Heq Hx]]; [lia|].
    assert (Hd1 : ∀ mk', mk' ∈ d_dirty x1 → (σ mk'.1 < B')%nat).
    { intros mk' Hin. destruct (Hx _ Hin) as [_ [Hd|Hd]]; [by apply Hd0|]. specialize (Hs _ Hmk). lia. }
    intros mk' [->|Hin]%elem_of_cons; [by apply Hs|]. apply IH; [done|lia| |done|done]. intros mk'' [?|?]%elem_of_app; [by apply Hs|by apply Hd1]. }
  revert n d. induction B as [|B IH]; intros n d I Hfin HB Hn; (destruct n as [|n]; [lia|]); inversion Hn as [|? ? y ? Hr Hn']; subst; destruct Hr as [Hne (ms & Hc & Hall)].
  { exfalso. destruct (d_dirty d) as [|mk ?]; [done|]. specialize (HB mk ltac:(left)). lia. }
  pose proof (proj1 (final_mu d) Hfin) as H0. pose proof (CB _ _ _ _ _ Hc I H0 HB HB) as Hms.
  destruct (PP _ _ _ I (cursor_pass_flush _ _ _ _ _ _ Hc)) as [I1 Hs]. rewrite H0 in Hs. destruct Hs as [Hlt|[Heq Hx]]; [lia|].
  apply le_n_S, (IH n y); [done|by apply final_mu| |done]. intros mk Hin. destruct (Hx mk Hin) as [[Hd Hno]|(mk' & Hmk' & Hlt)]; [by destruct Hno; apply Hall|].
  specialize (Hms mk' Hmk'). lia.
Qed.
Lemma rounds_bound j i n d d' : inv d → finv S d → final i d → (R < i + j)%nat → nsteps (round E S) n d d' → (n ≤ j + (M + 1))%nat.
Proof using All.
  revert i n d. induction j as [|j IH]; intros i n d I Hi Hfin HRj Hn.
  { eapply (rounds_settled (M + 1) n d d'); [done| | |done].
    - intros x Hv Hlt. apply Hfin; [done|lia].
    - intros x _. specialize (HM x.1). lia. }
  destruct n as [|n]; [lia|]. inversion Hn as [|? ? y ? Hr Hn']; subst. destruct Hr as [Hne (ms & Hc & Hall)].
  destruct (pass_final i _ _ _ I Hi Hfin (cursor_pass_flush _ _ _ _ _ _ Hc)) as (I1 & Hi1 & Hx). cut (n ≤ j + (M + 1))%nat; [lia|].
  apply (IH (Datatypes.S i) n y); [done|done| |lia|done].
  intros x Hv Hlt. apply Hx; [done|lia|]. destruct (inv_row S d0 d x I Hv) as (_ & r & _ & Hr & _).
  destruct (proj1 (proj2 Hi) x.1.1 x.2 r) as [Hin|Hcn]; [apply Hv|done| |].
  - right. by apply Hall.
  - left. eapply consistent_okb; [done|exact Hr|]. apply Hcn, Hv.
Qed.
(** ** The passes of Flush.v *)
Context (ord : db → list marker → list marker) (Hord : ∀ x l mk, mk ∈ ord x l ↔ mk ∈ l).

Lemma flush_eq n d : flush E S ord (Datatypes.S n) d =
  if decide (d_dirty d = []) then (d, Done)
  else match flush_pass E S (snapshot E ord d) d with (d', Done) => flush E S ord n d' | p => p end.
Proof using. done. Qed.
(** Once every cell is final, only restless rows add markers. *)
Lemma flush_settled B d : inv d → final (Datatypes.S R) d → (∀ x, x ∈ d_dirty d → (σ x.1 < B)%nat) →
  (flush E S ord (Datatypes.S B) d).2 ≠ Running.
Proof using All.
  revert d. induction B as [|B IH]; intros d I Hfin HB.
  { simpl. rewrite decide_True; [done|]. destruct (d_dirty d) as [|x ?]; [done|]. specialize (HB x ltac:(left)). lia. }
  rewrite flush_eq. case_decide as He; [done|].
  destruct (flush_pass E S (snapshot E ord d) d) as [d1 o] eqn:Hp. destruct o as [|e|]; [|done|by apply flush_pass_stops in Hp].
  assert (Hmu0 : ∀ y, final (Datatypes.S R) y → mu ρ cells R y = 0%nat).
  { intros y Hy. unfold mu. rewrite (fmap_ext_in _ (λ _, 0%nat)). { generalize cells. intros L. by induction L. }
    intros x Hx. apply cells_valid in Hx. rewrite Hy; [done|done|]. specialize (HR x Hx). lia. }
  destruct (pass_step b S rand imm depth E l Hwf HE Hl Hnames Hnod ρ d0 Hac cells cells_valid) with (R := R) (σ := σ) (mks := snapshot E ord d) (d := d) (d' := d1)
    as [I1 Hs]; [|by intros x Hx; apply HR, cells_valid|done|done|done|].
  { intros m f fn ds sk k Hm Hf Hk Hr. apply all_cells_spec. split_and!; [done|done|eauto|done]. }
  rewrite (Hmu0 d Hfin) in Hs. destruct Hs as [Hlt|[Heq Hx]]; [lia|].
  apply IH; [done| |].
  - intros x Hv Hlt. destruct (okb d1 x) eqn:Hb; [done|exfalso]. apply valid_cells in Hv.
    assert (0 < mu ρ cells R d1)%nat; [|lia]. unfold mu. eapply (sum_pos _ _ x Hv). simpl. rewrite Hb.
    unfold weight. apply Nat.neq_0_lt_0, Nat.pow_nonzero. lia.
  - intros x Hin. destruct (Hx x Hin) as [[Hd Hn]|(mk & Hmk & Hlt)].
    + exfalso. apply Hn. by apply snapshot_elem.
    + apply (snapshot_elem E ord Hord), HB in Hmk. lia.
Qed.
Lemma flush_bound j i d : inv d → finv S d → final i d → (R < i + j)%nat → (flush E S ord (j + (M + 2)) d).2 ≠ Running.
Proof using All.
  revert i d. induction j as [|j IH]; intros i d I Hi Hfin HRj.
  { replace (0 + (M + 2))%nat with (Datatypes.S (Datatypes.S M)) by lia. apply flush_settled; [done| |].
    - intros x Hv Hlt. apply Hfin; [done|lia].
    - intros x _. specialize (HM x.1). lia. }
  change (Datatypes.S j + (M + 2))%nat with (Datatypes.S (j + (M + 2)))%nat. rewrite flush_eq. case_decide as He; [done|].
  destruct (flush_pass E S (snapshot E ord d) d) as [d1 o] eqn:Hp. destruct o as [|e|]; [|done|by apply flush_pass_stops in Hp].
  destruct (pass_final i _ _ _ I Hi Hfin Hp) as (I1 & Hi1 & Hx). apply (IH (Datatypes.S i)); [done|done| |lia].
  intros x Hv Hlt. apply Hx; [done|lia|]. destruct (inv_row S d0 d x I Hv) as (_ & r & _ & Hr & _).
  destruct (proj1 (proj2 Hi) x.1.1 x.2 r) as [Hin|Hc]; [apply Hv|done| |].
  - right. by apply (snapshot_elem E ord Hord).
  - left. eapply consistent_okb; [done|exact Hr|]. apply Hc, Hv.
Qed.
End passes.

Lemma flush_bounded b S rand imm depth E rank ρ σ R M ord d :
  mk_env b S rand imm depth = Ok E → flushable S rank imm → value_acyclic S ρ d → calm b S σ →
  (∀ m f fn ds sk k, m ∈ s_models S → f ∈ m_fields m → f_kind f = KCallback fn ds sk → is_Some (getrow d (m_table m) k) → (ρ (m_table m) k (f_col f) ≤ R)%nat) →
  (∀ ct, (σ ct ≤ M)%nat) → (∀ x l mk, mk ∈ ord x l ↔ mk ∈ l) →
  links_ok S d → consistent_or_marked S d → no_self_relation S d →
  (flush E S ord (R + M + 3) d).2 ≠ Running.
Proof.
  intros HE Hfl Hac Hcalm HR HM Hord L C N. destruct (mk_env_gen _ _ _ _ _ _ HE) as [l Hl].
  replace (R + M + 3)%nat with (Datatypes.S R + (M + 2))%nat by lia.
  eapply (flush_bound b S rand imm depth E rank l HE Hfl Hl ltac:(pose proof (fl_wf _ _ _ Hfl); pose proof (fl_names _ _ _ Hfl); by eapply names_apart_ok) ρ d Hac R M) with (i := 0%nat) (σ := σ);
    [|done|done|done|apply inv_start|done|by intros ? _ ?; lia|lia].
  intros [[m f] k] (Hm & Hf & (fn & ds & sk & Hk) & Hr). by eapply HR.
Qed.
Lemma rounds_bounded b S rand imm depth E rank ρ σ R M n d d' :
  mk_env b S rand imm depth = Ok E → flushable S rank imm → value_acyclic S ρ d → calm b S σ →
  (∀ m f fn ds sk k, m ∈ s_models S → f ∈ m_fields m → f_kind f = KCallback fn ds sk → is_Some (getrow d (m_table m) k) → (ρ (m_table m) k (f_col f) ≤ R)%nat) →
  (∀ ct, (σ ct ≤ M)%nat) → links_ok S d → consistent_or_marked S d → no_self_relation S d →
  nsteps (round E S) n d d' → (n ≤ R + M + 2)%nat.
Proof.
  intros HE Hfl Hac Hcalm HR HM L C N Hn. destruct (mk_env_gen _ _ _ _ _ _ HE) as [l Hl].
  replace (R + M + 2)%nat with (Datatypes.S R + (M + 1))%nat by lia.
  eapply (rounds_bound b S rand imm depth E rank l HE Hfl Hl ltac:(pose proof (fl_wf _ _ _ Hfl); pose proof (fl_names _ _ _ Hfl); by eapply names_apart_ok) ρ d Hac R M) with (i := 0%nat) (σ := σ);
    [..|exact Hn]; [|done|done|apply inv_start|done|by intros ? _ ?; lia|lia].
  intros [[m f] k] (Hm & Hf & (fn & ds & sk & Hk) & Hr). by eapply HR.
Qed.
(** A flush that is still running after n passes has made n complete ones. *)
Lemma flush_running_rounds E S ord n d : (∀ x l mk, mk ∈ ord x l ↔ mk ∈ l) → (flush E S ord n d).2 = Running → ∃ d', nsteps (round E S) n d d'.
Proof.
  intros Ho. revert d. induction n as [|n IH]; intros d H; [exists d; constructor|].
  change (flush E S ord (Datatypes.S n) d) with
    (if decide (d_dirty d = []) then (d, Done) else match flush_pass E S (snapshot E ord d) d with (d', Done) => flush E S ord n d' | p => p end) in H.
  case_decide as He; [done|]. destruct (flush_pass E S (snapshot E ord d) d) as [d1 o] eqn:Hp.
  destruct o as [|e|]; [|done|by apply flush_pass_stops in Hp]. destruct (IH d1 H) as [d' Hd']. exists d'. econstructor; [|exact Hd']. by eapply flush_pass_round.
Qed.

(** ** Markers of a content type without a model *)
Section stale.
Context (S : schema) (E : env).
Lemma process_keeps mk mk' d d' : process E S mk d = Ok d' → mk' ≠ mk → mk' ∈ d_dirty d → mk' ∈ d_dirty d'.
Proof.
  intros H Hne Hin. unfold process in H. inv_bind H. injection H as <-. rename a into d1, H0 into Hps.
  apply elem_of_list_filter. split; [done|]. unfold process_save in Hps. inv_bind Hps.
  destruct a as [[[m k] r]|]; [|by injection Hps as <-]. destruct (m_truthy m r); [|by injection Hps as <-].
  inv_bind Hps. injection Hps as <-. eapply dmono_in; [|exact Hin].
  eapply (save_existing_R E dmono); [apply dmono_trans|intros; by apply dmono_eq|intros; by eapply exec_dmono|exact Hps1].
Qed.
Lemma pass_stale mk mks d d' o : model_of_ct S mk.1 = None → mk ∈ mks → mk ∈ d_dirty d →
  flush_pass E S mks d = (d', o) → (∃ e, o = Raised e) ∧ mk ∈ d_dirty d'.
Proof.
  intros Hct. revert d. induction mks as [|mk1 mks IH]; intros d Hin Hd H; [by apply elem_of_nil in Hin|]. simpl in H.
  destruct (process E S mk1 d) as [d1|e] eqn:Hp; [|injection H as <- <-; eauto].
  destruct (decide (mk = mk1)) as [<-|Hne].
  { unfold process, process_save, content_object in Hp. by rewrite Hct in Hp. }
  apply elem_of_cons in Hin as [?|Hin]; [done|]. eapply IH; [done| |exact H]. by eapply process_keeps.
Qed.
Lemma flush_stale ord n mk d : (∀ x l mk, mk ∈ ord x l ↔ mk ∈ l) → model_of_ct S mk.1 = None → mk ∈ d_dirty d →
  (∃ e, (flush E S ord (Datatypes.S n) d).2 = Raised e) ∧ mk ∈ d_dirty (flush E S ord (Datatypes.S n) d).1.
Proof.
  intros Hord Hct Hin. rewrite flush_eq. rewrite decide_False by (intros He; rewrite He in Hin; by apply elem_of_nil in Hin).
  destruct (flush_pass E S (snapshot E ord d) d) as [d1 o] eqn:Hp.
  eapply pass_stale in Hp as [[e ->] Hd]; [|exact Hct|by apply snapshot_elem|done]. simpl. eauto.
Qed.
Lemma flush_stale_first ord n mk d : model_of_ct S mk.1 = None → d_dirty d ≠ [] → head (snapshot E ord d) = Some mk →
  flush E S ord (Datatypes.S n) d = (d, Raised EAttribute).
Proof.
  intros Hct He Hh. rewrite flush_eq, decide_False by done. destruct (snapshot E ord d) as [|x L]; [done|]. injection Hh as ->.
  simpl. unfold process, process_save, content_object. by rewrite Hct.
Qed.
End stale.
