(** * Aggregates over aggregates.

    When no trigger updates a table that leads back to itself, an aggregate whose filter,
    exclusion or summand is itself an aggregate column is exact too: the nested triggers
    settle what the outer ones change. *)
From Verif Require Import Base BaseLemmas Schema TrigSet Gen Exec Orm Flush Machine Spec SpecAgg Engine GenLemmas Marking Conditions Invariant Settle Sessions Frame Hist Merge Agg AggEngine AggOps.

Section chain.
Context (b : backend) (S : schema) (rand : nat → Z) (imm : bool) (depth : nat) (E : env) (l : list trigger).
Context (Hwf : wf_schema S) (HE : mk_env b S rand imm depth = Ok E) (Hl : gen_all S = Ok l) (Hnames : names_ok b l).
Context (rank : string → nat) (Hac : acyclic E rank).
Context (m : model) (f : field) (a : agg) (rel : model) (Haf : agg_link S m f a rel).
Notation T := (m_table m).
Notation R := (m_table rel).
Notation c := (f_col f).
Notation delta := (delta a rel).
Notation evsum := (evsum a rel).
Notation eff := (eff m f a).
Notation settles := (settles m f a rel).

Lemma settles_tabs d d' : d_tabs d' = d_tabs d → settles Z0 d d'.
Proof.
  intros H k r v Hr Hv. exists r. rewrite (recount_tabs _ _ d) by done. unfold getrow, tab, Z0 in *. rewrite H. split; [done|]. rewrite Hv. f_equal. lia.
Qed.
Lemma settles_refl d : settles Z0 d d. Proof. by apply settles_tabs. Qed.
Lemma settles_trans z1 z2 x y w : settles z1 x y → settles z2 y w → settles (λ k, z1 k + z2 k) x w.
Proof.
  intros H1 H2 k r v Hr Hv. destruct (H1 _ _ _ Hr Hv) as (r1 & Hr1 & Hv1). destruct (H2 _ _ _ Hr1 Hv1) as (r2 & Hr2 & Hv2).
  exists r2. split; [done|]. rewrite Hv2. f_equal. lia.
Qed.
Lemma settles_ext z1 z2 d d' : (∀ k r, getrow d T k = Some r → z1 k = z2 k) → settles z1 d d' → settles z2 d d'.
Proof. intros He H k r v Hr Hv. destruct (H _ _ _ Hr Hv) as (r' & ? & ?). exists r'. by rewrite <- (He _ _ Hr). Qed.
Lemma foldM_settles {B} (g : db → B → res db) (z : B → Z → Z) xs : (∀ x d d', x ∈ xs → g d x = Ok d' → settles (z x) d d') →
  ∀ d d', foldM g d xs = Ok d' → settles (λ k, zsum (λ x, z x k) xs) d d'.
Proof.
  induction xs as [|x xs IH]; intros Hg d d' H; [injection H as <-; apply settles_refl|].
  rewrite foldM_cons in H. inv_bind H. eapply settles_ext; [|eapply settles_trans; [apply (Hg x); [left|exact H0]|apply IH; [|exact H]]]; [done|].
  intros y d1 d2 Hy. apply Hg. by right.
Qed.

(** Changes of table [t], each adding [z] and owing what its event counts. *)
Definition owing (t : string) (z : change → Z → Z) (ch : change) : Prop := ∀ d d' evs, apply_change E t d ch = Ok (d', evs) →
  settles (λ k, z ch k - evsum evs k) d d' ∧ ∀ e, e ∈ evs → ev_tab e = t.
Lemma apply_all_settles t z cs : (∀ ch, ch ∈ cs → owing t z ch) → ∀ d d' evs, apply_all E t cs d = Ok (d', evs) →
  settles (λ k, zsum (λ ch, z ch k) cs - evsum evs k) d d' ∧ ∀ e, e ∈ evs → ev_tab e = t.
Proof.
  unfold AggOps.evsum. induction cs as [|ch cs IH]; intros Hc d d' evs H.
  { injection H as <- <-. split; [|by intros ? ?%elem_of_nil]. eapply settles_ext; [|apply settles_refl]. done. }
  rewrite apply_all_cons in H. inv_bind H. destruct a0 as [d1 e1]. simpl in H. inv_bind H. destruct a0 as [d2 e2]. simpl in H. injection H as <- <-.
  destruct (Hc ch ltac:(left) _ _ _ H0) as [R1 D1]. destruct (IH ltac:(intros; apply Hc; by right) _ _ _ H1) as [R2 D2]. split.
  - eapply settles_ext; [|eapply settles_trans; [exact R1|exact R2]]. intros k r _. cbv beta. unfold AggOps.evsum. rewrite zsum_app. simpl. lia.
  - intros e [He|He]%elem_of_app; auto.
Qed.
Lemma batch_settles fr t z cs d d' : (∀ ch, ch ∈ cs → owing t z ch) → (∀ d e d', ev_tab e = t → fr d e = Ok d' → settles (delta e) d d') →
  run_batch E fr t cs d = Ok d' → settles (λ k, zsum (λ ch, z ch k) cs) d d'.
Proof.
  intros Hc Hf H. unfold run_batch in H. inv_bind H. destruct a0 as [d1 evs]. simpl in H.
  apply (apply_all_settles t z cs Hc) in H0 as [R1 D1].
  assert (R2 : settles (evsum evs) d1 d').
  { eapply (foldM_settles _ delta); [|exact H]. intros e d2 d3 He. apply Hf. by apply D1. }
  eapply settles_ext; [|eapply settles_trans; [exact R1|exact R2]]. intros k r _. cbv beta. lia.
Qed.
Lemma stmt_settles fr t z cs d d' : (∀ ch, ch ∈ cs → owing t z ch) → (∀ d e d', ev_tab e = t → fr d e = Ok d' → settles (delta e) d d') →
  run_stmt E fr t cs d = Ok d' → settles (λ k, zsum (λ ch, z ch k) cs) d d'.
Proof.
  intros Hc Hf H.
  assert (Hs : foldM (λ d ch, run_batch E fr t [ch] d) d cs = Ok d' → settles (λ k, zsum (λ ch, z ch k) cs) d d').
  { clear H. intros H. eapply (foldM_settles _ z); [|exact H]. intros ch d1 d2 Hch Hr. eapply settles_ext; [|eapply (batch_settles fr t z [ch]); [|exact Hf|exact Hr]].
    - intros. simpl. lia.
    - by intros ? ->%elem_of_list_singleton; apply Hc. }
  unfold run_stmt in H. destruct (e_be E); [auto|by eapply batch_settles|auto].
Qed.

(** ** One row updated by a trigger *)
Lemma upd_other_owing e d0 t x ex w ch : (t, x) ≠ (T, c) → ch ∈ upd_changes E e d0 t x ex w → owing t (λ _, Z0) ch.
Proof.
  intros Hne Hin d d' evs H. apply elem_of_list_fmap in Hin as ([k r] & -> & _). simpl in H. unfold AggOps.evsum.
  destruct (getrow d t k) as [o|] eqn:Ho.
  2: { injection H as <- <-. split; [|by intros ? ?%elem_of_nil]. eapply settles_ext; [|apply settles_refl]. done. }
  inv_bind H. inv_bind H0. injection H0 as <-. destruct a1 as [v d1]. simpl in H. apply expr_val_db in H1.
  case_match; [|done]. injection H as <- <-. split; [|by intros e' ->%elem_of_list_singleton].
  assert (Hts : d_tabs d1 = d_tabs d) by (by destruct H1; subst).
  assert (Hg : ∀ t' k', getrow d1 t' k' = getrow d t' k') by (intros; unfold getrow, tab; by rewrite Hts).
  intros k' r' v' Hr' Hv'. cbn [zsum foldr fst snd]. rewrite recount_put, (recount_tabs _ _ d) by done.
  assert (Hz : VInt v' = VInt (v' + (Z0 k' - (delta (Ev t k (ChUpd o (<[x:=v]> o))) k' + 0)) +
    (recount a R d k' + (if decide (t = R) then contrib a k' (<[x:=v]> o) - oc a (getrow d1 R k) k' else 0) - recount a R d k'))).
  { f_equal. unfold AggEngine.delta, Z0. cbn [ev_tab]. destruct (decide (t = R)) as [->|]; [|lia]. rewrite Hg, Ho. simpl. lia. }
  rewrite getrow_put. destruct (decide (T = t ∧ k' = k)) as [[Hd1 Hd2]|Hd].
  - exists (<[x:=v]> o). split; [done|]. rewrite <- Hd1, <- Hd2 in Ho. rewrite Ho in Hr'. injection Hr' as ->.
    rewrite col_insert_ne by congruence. rewrite Hv'. exact Hz.
  - exists r'. rewrite Hg. split; [done|]. rewrite Hv'. exact Hz.
Qed.
Lemma upd_agg_owing e d0 ex w ch : T ≠ R → ev_tab e = R →
  (AUpd T c ex w = inc m f a ∧ is_Some (ev_new e) ∨ AUpd T c ex w = dec m f a ∧ is_Some (ev_old e)) →
  ch ∈ upd_changes E e d0 T c ex w → owing T (λ ch k, if decide (k = ch_key ch) then amount m f a (AUpd T c ex w) e else 0) ch.
Proof.
  intros HTR Het Hx Hin d d' evs H. apply elem_of_list_fmap in Hin as ([k r] & -> & _). simpl in H. unfold AggOps.evsum.
  destruct (getrow d T k) as [o|] eqn:Ho.
  - inv_bind H. inv_bind H0. injection H0 as <-. destruct a1 as [v d1]. simpl in H. pose proof H1 as Hdb. apply expr_val_db in Hdb.
    case_match; [|done]. injection H as <- <-. split; [|by intros e' ->%elem_of_list_singleton].
    assert (Hts : d_tabs d1 = d_tabs d) by (by destruct Hdb; subst).
    intros k' r' v' Hr' Hv'. cbn [zsum foldr fst snd ch_key]. rewrite recount_put, (recount_tabs _ _ d) by done. rewrite (decide_False (P := T = R)) by done.
    assert (Hd0 : delta (Ev T k (ChUpd o (<[c:=v]> o))) k' = 0) by (unfold AggEngine.delta; cbn [ev_tab]; by rewrite decide_False).
    rewrite Hd0, getrow_put. destruct (decide (k' = k)) as [->|Hn].
    + rewrite decide_True by done. rewrite Ho in Hr'. injection Hr' as ->. eexists. split; [done|]. rewrite col_insert_eq.
      unfold cell in H1. rewrite (pk_T b S rand imm depth E l Hwf HE Hl m f a rel Haf), decide_False, Hv' in H1 by (eapply c_not_pk; [exact Hwf|exact Haf]).
      apply (expr_amount b S rand imm depth E l Hwf HE Hl m f a rel Haf e ex w) in H1; [|done..]. simpl in H1. rewrite H1. f_equal. lia.
    + rewrite decide_False by naive_solver. exists r'. unfold getrow, tab in *. rewrite Hts. split; [done|]. rewrite Hv'. f_equal. lia.
  - injection H as <- <-. split; [|by intros ? ?%elem_of_nil]. intros k' r' v' Hr' Hv'. cbn [zsum foldr ch_key]. case_decide as Hq; [simpl in Hq; congruence|].
    exists r'. split; [done|]. rewrite Hv'. f_equal. lia.
Qed.

Lemma action_settles fr act it e x d d' : it ∈ e_trigs E → x ∈ i_acts it → ev_tab e = i_tab it → ev_kind e = i_ev it →
  (∀ t y ex w, x = AUpd t y ex w → ∀ d e d', ev_tab e = t → fr d e = Ok d' → settles (delta e) d d') →
  run_action E fr act e d x = Ok d' → settles (eff e x) d d'.
Proof.
  intros Hit Hx Het Hek Hfr H. destruct x as [ct rf y|ct t sc wc rf rc|t y ex w]; simpl in H.
  - injection H as <-. eapply settles_ext; [|by apply settles_tabs]. intros. unfold AggEngine.eff. by rewrite !decide_False.
  - injection H as <-. eapply settles_ext; [|by apply settles_tabs]. intros. unfold AggEngine.eff. by rewrite !decide_False.
  - case_decide; [done|]. specialize (Hfr _ _ _ _ eq_refl). destruct (decide ((t, y) = (T, c))) as [[= -> ->]|Hne].
    + destruct (upd_case b S rand imm depth E l Hwf HE Hl Hnames m f a rel Haf it e ex w Hit Hx Het Hek) as [HeR Hcase].
      assert (HTR : T ≠ R).
      { intros HTR. pose proof (Hac _ _ _ _ _ Hit Hx) as Hlt. rewrite <- Het, HeR, HTR in Hlt. lia. }
      eapply settles_ext; [|eapply (stmt_settles fr T (λ ch k, if decide (k = ch_key ch) then amount m f a (AUpd T c ex w) e else 0)); [|exact Hfr|exact H]].
      * intros k r Hr. cbv beta. by apply (upd_amounts b S rand imm depth E l Hwf HE Hl m f a rel Haf e ex w d k r).
      * intros ch Hch. by eapply upd_agg_owing.
    + eapply settles_ext; [|eapply (stmt_settles fr t (λ _, Z0)); [|exact Hfr|exact H]].
      * intros k r _. cbv beta. rewrite zsum_zero by done. unfold AggEngine.eff. rewrite !decide_False; [done|..]; intros Hq; injection Hq; congruence.
      * intros ch Hch. by eapply upd_other_owing.
Qed.
Lemma fire_settles n : ∀ act d e d', act_above E rank act (ev_tab e) → fire E n act d e = Ok d' → settles (delta e) d d'.
Proof.
  induction n as [|n IH]; intros act d e d' Hact H; [done|]. simpl in H.
  eapply settles_ext; [intros k r _; apply (total_delta b S rand imm depth E l Hwf HE Hl Hnames m f a rel Haf act e k)|].
  { destruct (decide (ev_tab e = R)) as [HeR|HeR].
    - left. rewrite <- HeR. eapply act_above_unblocked; [by eapply unique_names|exact Hact].
    - right. intros k'. unfold AggEngine.delta. by rewrite decide_False. }
  eapply (foldM_settles _ (λ it k, if trig_applies E act e it then zsum (λ x, eff e x k) (i_acts it) else 0)); [|exact H].
  intros it d1 d2 Hit Hx. simpl in Hx. destruct (trig_applies E act e it) eqn:Hap; [|injection Hx as <-; apply settles_refl].
  unfold trig_applies in Hap. rewrite !andb_true_iff, !bool_decide_eq_true in Hap. destruct Hap as (((H1 & H2) & _) & _).
  eapply (foldM_settles _ (eff e)); [|exact Hx]. intros x d3 d4 Hxa Hr. eapply action_settles; [exact Hit|done|done|done| |exact Hr].
  intros t y ex w -> d5 e5 d6 Ht5 Hf. eapply IH; [|exact Hf]. rewrite Ht5. intros nm Hnm. simpl in Hnm.
  pose proof (Hac _ _ _ _ _ Hit Hxa) as Hlt. apply elem_of_cons in Hnm as [->|Hnm]; [by exists it|].
  destruct (Hact _ Hnm) as (tr' & ? & ? & ?). exists tr'. split_and!; [done..|]. rewrite H1 in Hlt. lia.
Qed.
Lemma chain_settling : settling E m f a rel.
Proof.
  intros n evs d d' H. eapply (foldM_settles _ delta); [|exact H]. intros e d1 d2 _ Hf. eapply fire_settles; [|exact Hf]. by intros nm ?%elem_of_nil.
Qed.
End chain.

Section props.
Context (b : backend) (S : schema) (rank : string → nat) (rand : nat → Z) (depth : nat) (E : env).
Context (Hwf : wf_schema S) (Hna : names_apart S) (Hua : upd_acyclic S rank) (HE : mk_env b S rand true depth = Ok E).
Lemma hist_chain m f a rel hs d : agg_link S m f a rel → Forall (clean_hop m f) hs →
  fk_valid m a rel d ∧ agg_exact m f a rel d →
  fk_valid m a rel (foldl (hstep E S) d hs) ∧ agg_exact m f a rel (foldl (hstep E S) d hs).
Proof.
  intros Haf Hcl Hd. destruct (mk_env_gen _ _ _ _ _ _ HE) as [l Hl].
  assert (Hn : names_ok b l) by (by eapply names_apart_ok).
  apply (exact_spec m f a rel). apply (exact_spec m f a rel) in Hd.
  eapply (hist_exact b S rand depth E l); eauto. eapply (chain_settling b S rand true depth E l); eauto.
  by eapply upd_acyclic_ok.
Qed.
Lemma hist_sum_counts m f a rel f' a' rel' hs d k r : agg_link S m f a rel → agg_link S rel f' a' rel' →
  ag_sum a = Some (f_col f') → ag_sum a' = None → Forall (clean_hop m f) hs → Forall (clean_hop rel f') hs →
  fk_valid m a rel d → agg_exact m f a rel d → fk_valid rel a' rel' d → agg_exact rel f' a' rel' d →
  getrow (foldl (hstep E S) d hs) (m_table m) k = Some r →
  col r (f_col f) = VInt (map_fold (λ j _ s, Z.of_nat (size (related (foldl (hstep E S) d hs) rel' a' j)) + s) 0
    (related (foldl (hstep E S) d hs) rel a k)).
Proof.
  intros H1 H2 Hs Hc C1 C2 V1 X1 V2 X2 Hr. destruct (hist_chain m f a rel hs d H1 C1 (conj V1 X1)) as [_ Y1].
  destruct (hist_chain rel f' a' rel' hs d H2 C2 (conj V2 X2)) as [_ Y2]. rewrite (Y1 _ _ Hr). unfold agg_value. rewrite Hs. f_equal.
  assert (Hsub : ∀ j x, related (foldl (hstep E S) d hs) rel a k !! j = Some x →
    summand (col x (f_col f')) = Z.of_nat (size (related (foldl (hstep E S) d hs) rel' a' j))).
  { intros j x Hj. unfold related in Hj. apply map_filter_lookup_Some in Hj as [Hj _]. rewrite (Y2 j x Hj). unfold agg_value. by rewrite Hc. }
  generalize dependent (related (foldl (hstep E S) d hs) rel a k). clear Y1. intros M Hsub.
  induction M as [|j x M Hj IH] using map_ind; [done|]. rewrite !map_fold_insert_L; [|intros; lia|done|intros; lia|done].
  rewrite (Hsub j x) by (by rewrite lookup_insert). f_equal. apply IH. intros i y Hi. apply Hsub. rewrite lookup_insert_ne; [done|]. intros ->. congruence.
Qed.
End props.
