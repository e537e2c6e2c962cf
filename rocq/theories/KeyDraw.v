(** * Cache keys are redrawn by the triggers of their dependencies. *)
From Verif Require Import Base BaseLemmas Schema TrigSet Gen Exec Orm Flush Spec Engine GenLemmas Marking Conditions Invariant.

(** The key in column [c] of row [k] of table [t] is the [n]-th random number for
    some [n] from [n0] on. *)
Definition redrawn (rand : nat → Z) (n0 : nat) (t c : string) (k : Z) (d : db) : Prop :=
  ∃ r n, getrow d t k = Some r ∧ (n0 ≤ n < d_rnd d)%nat ∧ col r c = VInt (rand n).

Section draw.
Context (E : env).

(** ** A preorder respected by marking and by every single update a trigger makes. *)
Section rel_fine.
  Context (R : db → db → Prop).
  Context (Rrefl : ∀ d, R d d) (Rtrans : ∀ a b c, R a b → R b c → R a c).
  Context (Rmark : ∀ d l, R d (mark d l)).
  Context (Rupd : ∀ tr t c x w e k d o p, tr ∈ e_trigs E → AUpd t c x w ∈ i_acts tr → getrow d t k = Some o →
     expr_val E e x d (cell (e_pk E t) k o c) = Ok p → R d (put_row p.2 t k (<[c := p.1]> o))).
  Lemma run_action_fine fr act e tr a : tr ∈ e_trigs E → a ∈ i_acts tr →
    (∀ d e d', fr d e = Ok d' → R d d') → ∀ d d', run_action E fr act e d a = Ok d' → R d d'.
  Proof.
    intros Htr Ha Hf d d' H. destruct a; simpl in H.
    - injection H as <-. apply Rmark.
    - injection H as <-. apply Rmark.
    - case_decide as Hmy; [done|]. eapply (run_stmt_rel E); [done|done|done| |exact H].
      intros d1 ch d2 evs Hch Hap. apply elem_of_list_fmap in Hch as ([k r] & -> & _). simpl in Hap.
      destruct (getrow d1 t k) as [o|] eqn:Ho; [|injection Hap as <- <-; apply Rrefl].
      inv_bind Hap. inv_bind Hap0. injection Hap0 as <-. simpl in Hap. case_match; [|done]. injection Hap as <- <-.
      by eapply Rupd.
  Qed.
  Lemma fire_fine n : ∀ act d e d', fire E n act d e = Ok d' → R d d'.
  Proof.
    induction n as [|n IH]; intros act d e d' H; [done|]. simpl in H.
    eapply foldM_rel; [..|exact H]; eauto.
    intros d1 tr d2 Htr H2. simpl in H2. case_match; [|by injection H2 as <-].
    eapply foldM_rel; [..|exact H2]; eauto. intros d3 a d4 Ha H4.
    eapply run_action_fine; eauto.
  Qed.
End rel_fine.

Section row.
  Context (tm fc : string) (k : Z) (n0 : nat).
  (** The column is written by triggers only with fresh random numbers. *)
  Context (Honly : ∀ tr x w, tr ∈ e_trigs E → AUpd tm fc x w ∈ i_acts tr → x = XRand).
  Notation N := (redrawn (e_rand E) n0 tm fc k).
  Definition kJ (d : db) : Prop := (n0 ≤ d_rnd d)%nat ∧ is_Some (getrow d tm k).
  Definition kR (d d' : db) : Prop := kJ d → kJ d' ∧ (N d → N d').
  Lemma kR_refl d : kR d d. Proof. done. Qed.
  Lemma kR_trans a b c : kR a b → kR b c → kR a c.
  Proof. intros H1 H2 J. destruct (H1 J) as [J1 N1]. destruct (H2 J1) as [J2 N2]. split; auto. Qed.
  Lemma kR_mark d l : kR d (mark d l).
  Proof. intros J. split; [exact J|]. intros (r & n & H). exists r, n. exact H. Qed.

  (** What a change of the statement may do to the row: neither delete it nor
      write the key otherwise than with a fresh random number. *)
  Definition key_ch (t : string) (ch : change) : Prop :=
    ch_quiet ch ∧
    match ch with
    | CUpd k' g => ∀ d o p, g d o = Ok p → (d_rnd d ≤ d_rnd p.2)%nat ∧
        (t = tm → k' = k → col p.1 fc = col o fc ∨ (col p.1 fc = VInt (e_rand E (d_rnd d)) ∧ (d_rnd d < d_rnd p.2)%nat))
    | CDel k' => t ≠ tm ∨ k' ≠ k
    | CIns _ _ => True
    end.

  Lemma key_apply t d ch d' evs : key_ch t ch → apply_change E t d ch = Ok (d', evs) → kR d d'.
  Proof.
    intros [Hq Hk] H [J1 [r0 Hr0]]. destruct ch as [k' r|k' g|k']; simpl in *.
    - destruct (getrow d t k') eqn:Hg; [done|]. case_match; [|done]. injection H as <- <-.
      assert (Hne : ¬ (tm = t ∧ k = k')) by (intros [-> ->]; congruence).
      split; [split; [done|exists r0; by rewrite getrow_put_ne]|].
      intros (r1 & n & H1 & H2 & H3). exists r1, n. split_and!; [by rewrite getrow_put_ne|apply H2..|done].
    - destruct (getrow d t k') as [o|] eqn:Hg; [|injection H as <- <-; split; [split; [done|by eexists]|done]].
      inv_bind H. case_match; [|done]. injection H as <- <-.
      destruct (Hq _ _ _ H0) as [_ Hts]. destruct (Hk _ _ _ H0) as [Hrn Hkc].
      assert (Heq : ∀ t' k', getrow a.2 t' k' = getrow d t' k') by (intros; unfold getrow, tab; by rewrite Hts).
      destruct (decide (tm = t ∧ k = k')) as [[<- <-]|Hne].
      + split; [split; [simpl; lia|rewrite getrow_put_eq; by eexists]|].
        intros (r1 & n & H2 & H3 & H4). destruct (Hkc eq_refl eq_refl) as [Hc|[Hc Hlt]].
        * exists a.1, n. rewrite getrow_put_eq. split_and!; [done|lia|simpl; lia|]. congruence.
        * exists a.1, (d_rnd d). rewrite getrow_put_eq. split_and!; [done|lia|simpl; lia|done].
      + split; [split; [simpl; lia|rewrite getrow_put_ne by done; rewrite Heq; by eexists]|].
        intros (r1 & n & H2 & H3 & H4). exists r1, n. rewrite getrow_put_ne by done. rewrite Heq.
        split_and!; [done|lia|simpl; lia|done].
    - destruct (getrow d t k') as [o|] eqn:Hg; [|injection H as <- <-; split; [split; [done|by eexists]|done]].
      case_match; [|done]. injection H as <- <-.
      assert (Hne : ¬ (tm = t ∧ k = k')) by naive_solver.
      assert (Hgg : getrow (del_row d t k') tm k = getrow d tm k) by (by rewrite getrow_del, decide_False).
      split; [split; [done|rewrite Hgg; by eexists]|].
      intros (r1 & n & H2 & H3 & H4). exists r1, n. rewrite Hgg. split_and!; [done|apply H3..|done].
  Qed.

  Lemma upd_changes_key tr e d t c x w ch : tr ∈ e_trigs E → AUpd t c x w ∈ i_acts tr →
    ch ∈ upd_changes E e d t c x w → key_ch t ch.
  Proof.
    intros Htr Ha Hin. split; [by eapply upd_changes_quiet|].
    apply elem_of_list_fmap in Hin as ([k' r] & -> & _). simpl. intros d1 o p H.
    inv_bind H. injection H as <-. destruct a as [v d2]; simpl in *.
    split; [apply expr_val_db in H0 as [-> | ->]; simpl; lia|].
    intros -> ->. destruct (decide (c = fc)) as [->|Hc].
    - right. pose proof (Honly _ _ _ Htr Ha) as ->. simpl in H0. injection H0 as <- <-. rewrite col_insert_eq. simpl. split; [done|lia].
    - left. by rewrite col_insert_ne.
  Qed.

  Lemma fire_kR n act d e d' : fire E n act d e = Ok d' → kR d d'.
  Proof.
    apply fire_fine; [apply kR_refl|apply kR_trans|apply kR_mark|].
    intros tr t c x w e1 k1 d1 o p Htr Ha Hg Hx [J1 [r0 Hr0]]. destruct p as [v d2]; simpl in *.
    assert (Hrn : (d_rnd d1 ≤ d_rnd d2)%nat) by (apply expr_val_db in Hx as [-> | ->]; simpl; lia).
    assert (Heq : ∀ t' k', getrow d2 t' k' = getrow d1 t' k') by (by apply expr_val_db in Hx as [-> | ->]).
    destruct (decide (tm = t ∧ k = k1)) as [[<- <-]|Hne].
    - split; [split; [simpl; lia|rewrite getrow_put_eq; by eexists]|].
      intros (r1 & n1 & H2 & H3 & H4). destruct (decide (c = fc)) as [->|Hc].
      + pose proof (Honly _ _ _ Htr Ha) as ->. simpl in Hx. injection Hx as <- <-.
        eexists _, (d_rnd d1). rewrite getrow_put_eq, col_insert_eq. split_and!; [done|lia|simpl; lia|done].
      + eexists _, n1. rewrite getrow_put_eq, col_insert_ne by done. split_and!; [done|lia|simpl; lia|]. congruence.
    - split; [split; [simpl; lia|rewrite getrow_put_ne by done; rewrite Heq; by eexists]|].
      intros (r1 & n1 & H2 & H3 & H4). exists r1, n1. rewrite getrow_put_ne by done. rewrite Heq.
      split_and!; [done|lia|simpl; lia|done].
  Qed.

  (** ** Redrawing the key is due. *)
  Definition key_due (d : db) (e : event) : Prop := ∃ tr w r, tr ∈ e_trigs E ∧ i_tab tr = ev_tab e ∧
    i_ev tr = ev_kind e ∧ cond_holds E e (i_cond tr) = true ∧ AUpd tm fc XRand w ∈ i_acts tr ∧
    getrow d tm k = Some r ∧ where_holds E d e tm k r w = true.
  (** The columns in the conditions are never written by triggers. *)
  Definition stable_where : Prop := ∀ tr w, tr ∈ e_trigs E → AUpd tm fc XRand w ∈ i_acts tr →
    match w with
    | WEq c _ _ _ _ => c = e_pk E tm ∨ ¬ tw E tm c
    | WIn c t sc wc _ _ => (c = e_pk E tm ∨ ¬ tw E tm c) ∧ (sc = e_pk E t ∨ ¬ tw E t sc) ∧ (wc = e_pk E t ∨ ¬ tw E t wc)
    end.
  Context (Hst : stable_where).

  Lemma where_skel d d' e tr w r : skel E d d' → tr ∈ e_trigs E → AUpd tm fc XRand w ∈ i_acts tr →
    getrow d tm k = Some r → where_holds E d e tm k r w = true →
    ∃ r', getrow d' tm k = Some r' ∧ where_holds E d' e tm k r' w = true.
  Proof.
    intros Hs Htr Ha Hr Hw. pose proof (Hst _ _ Htr Ha) as Hst'. destruct w; simpl in *.
    - destruct (skel_cell E _ _ _ _ _ _ Hs Hr Hst') as (r' & Hr' & Hc). exists r'. by rewrite Hc.
    - destruct Hst' as (H1 & H2 & H3). destruct (skel_cell E _ _ _ _ _ _ Hs Hr H1) as (r' & Hr' & Hc). exists r'.
      split; [done|]. apply existsb_exists in Hw as (v & Hv & He). apply existsb_exists. exists v. rewrite Hc.
      split; [|done]. apply elem_of_list_In. apply elem_of_list_In in Hv. by eapply select_col_skel.
  Qed.
  Lemma key_due_skel d d' e : skel E d d' → key_due d e → key_due d' e.
  Proof.
    intros Hs (tr & w & r & H1 & H2 & H3 & H4 & H5 & H6 & H7).
    destruct (where_skel _ _ _ _ _ _ Hs H1 H5 H6 H7) as (r' & Hr' & Hw'). by exists tr, w, r'.
  Qed.

  (** A change drawing the key. *)
  Definition draws (ch : change) : Prop := ∃ g, ch = CUpd k g ∧
    ∀ d o p, g d o = Ok p → col p.1 fc = VInt (e_rand E (d_rnd d)) ∧ (d_rnd d < d_rnd p.2)%nat.
  Lemma draws_apply ch d d' evs : draws ch → apply_change E tm d ch = Ok (d', evs) → kJ d → kJ d' ∧ N d'.
  Proof.
    intros (g & -> & Hg) H [J1 [o Ho]]. simpl in H. rewrite Ho in H. inv_bind H. case_match; [|done]. injection H as <- <-.
    destruct (Hg _ _ _ H0) as [Hc Hlt]. split; [split; [simpl; lia|rewrite getrow_put_eq; by eexists]|].
    exists a.1, (d_rnd d). rewrite getrow_put_eq. split_and!; [done|lia|simpl; lia|done].
  Qed.
  Lemma draws_apply_all cs : Forall (key_ch tm) cs → ∀ d d' evs, (∃ ch, ch ∈ cs ∧ draws ch) →
    apply_all E tm cs d = Ok (d', evs) → kJ d → kJ d' ∧ N d'.
  Proof.
    intros Hk. induction cs as [|c cs IH]; intros d d' evs (ch & Hch & Hd) H J; [by apply elem_of_nil in Hch|].
    apply Forall_cons in Hk as [Hk1 Hk2].
    rewrite apply_all_cons in H. inv_bind H. destruct a as [d1 e1]. simpl in H. inv_bind H. destruct a as [d2 e2].
    simpl in H. injection H as <- <-. apply elem_of_cons in Hch as [->|Hch].
    - destruct (draws_apply _ _ _ _ Hd H0 J) as [J1 N1].
      assert (HR : kR d1 d2).
      { eapply (apply_all_rel E kR); [apply kR_refl|apply kR_trans| |exact H1]. intros. eapply key_apply; [|done].
        by eapply Forall_forall in Hk2. }
      destruct (HR J1); auto.
    - eapply IH; [done|by exists ch|exact H1|]. by apply (key_apply _ _ _ _ _ Hk1 H0).
  Qed.
  Lemma draws_stmt fr cs d d' : Forall (key_ch tm) cs → (∃ ch, ch ∈ cs ∧ draws ch) →
    (∀ d e d', fr d e = Ok d' → kR d d') → run_stmt E fr tm cs d = Ok d' → kJ d → kJ d' ∧ N d'.
  Proof.
    intros Hk Hd Hfr H J.
    assert (Hb : ∀ cs d d', Forall (key_ch tm) cs → (∃ ch, ch ∈ cs ∧ draws ch) → run_batch E fr tm cs d = Ok d' → kJ d → kJ d' ∧ N d').
    { clear -Hfr Honly. intros cs d d' Hk Hd H J. unfold run_batch in H. inv_bind H. destruct a as [d1 evs]. simpl in H.
      destruct (draws_apply_all _ Hk _ _ _ Hd H0 J) as [J1 N1].
      assert (HR : kR d1 d') by (eapply (foldM_rel kR); [apply kR_refl|apply kR_trans| |exact H]; eauto).
      destruct (HR J1); auto. }
    unfold run_stmt in H.
    assert (Hsing : foldM (λ d c, run_batch E fr tm [c] d) d cs = Ok d' → kJ d' ∧ N d').
    { clear H. intros H. destruct Hd as (ch & Hch & Hd).
      destruct (λ Hs, foldM_elem kR _ cs ch kR_refl kR_trans Hs Hch _ _ H) as (x & y & R1 & Hx & R2).
      - intros a c a' Hc Ha. eapply (run_batch_rel E kR); [apply kR_refl|apply kR_trans|done| |exact Ha].
        intros ???? ->%elem_of_list_singleton. apply key_apply. by eapply Forall_forall in Hk.
      - destruct (R1 J) as [J1 _]. destruct (λ K, Hb [ch] _ _ K (ex_intro _ ch (conj (elem_of_list_here ch []) Hd)) Hx J1) as [J2 N2].
        + apply Forall_singleton. by eapply Forall_forall in Hk.
        + destruct (R2 J2). auto. }
    destruct (e_be E); eauto.
  Qed.

  Lemma fire_key_due n act d e d' : unblocked E act (ev_tab e) →
    fire E n act d e = Ok d' → key_due d e → kJ d → N d'.
  Proof.
    intros Hub H Hdue J. destruct n as [|n]; [done|]. simpl in H.
    destruct Hdue as (tr & w & r & Htr & Ht & Hev & Hc & Ha & Hr & Hw).
    set (R := λ d d', skel E d d' ∧ kR d d').
    assert (Rr : ∀ d, R d d) by (split; auto using skel_refl, kR_refl).
    assert (Rt : ∀ a b c, R a b → R b c → R a c).
    { intros ??? [] []. split; eauto using skel_trans, kR_trans. }
    assert (Hact : ∀ fr act a tr d d' e, (∀ d e d', fr d e = Ok d' → R d d') → tr ∈ e_trigs E → a ∈ i_acts tr →
       run_action E fr act e d a = Ok d' → R d d').
    { clear -Honly. intros fr act a tr d d' e Hfr Htr Ha H. destruct a; simpl in H.
      - injection H as <-. split; [apply skel_mark|apply kR_mark].
      - injection H as <-. split; [apply skel_mark|apply kR_mark].
      - case_decide; [done|]. split.
        + eapply (run_stmt_rel E (skel E)); [apply skel_refl|apply skel_trans| | |exact H].
          * intros ??? Hf. by apply Hfr in Hf as [].
          * intros d1 ch d2 evs Hch Hap. eapply (upd_change_rel E (skel E)); [apply skel_refl| | |exact Hch|exact Hap].
            -- intros. by eapply skel_upd.
            -- by exists tr, e0, w.
        + eapply (run_stmt_rel E kR); [apply kR_refl|apply kR_trans| | |exact H].
          * intros ??? Hf. by apply Hfr in Hf as [].
          * intros d1 ch d2 evs Hch Hap. eapply key_apply; [|exact Hap]. by eapply upd_changes_key. }
    assert (Hfire : ∀ n act d e d', fire E n act d e = Ok d' → R d d').
    { intros. split; [by eapply fire_skel|by eapply fire_kR]. }
    destruct (λ Hs, foldM_elem R _ _ tr Rr Rt Hs Htr _ _ H) as (b & b' & Rb & Hb & Rb').
    { intros d1 tr' d2 Htr' H2. simpl in H2. case_match; [|by injection H2 as <-].
      eapply foldM_rel; [exact Rr|exact Rt| |exact H2]. intros d3 a' d4 Ha' H4.
      eapply Hact; [|exact Htr'|exact Ha'|exact H4]. intros. by eapply Hfire. }
    simpl in Hb.
    assert (trig_applies E act e tr = true) as Happ.
    { unfold trig_applies. rewrite !bool_decide_true by done. rewrite Hc. simpl. rewrite andb_true_r.
      apply negb_true_iff, andb_false_iff. destruct (decide (e_be E = SQLite)) as [Hb'|Hb'].
      - right. apply bool_decide_false. by apply Hub.
      - left. by apply bool_decide_false. }
    rewrite Happ in Hb.
    destruct (λ Hs, foldM_elem R _ _ (AUpd tm fc XRand w) Rr Rt Hs Ha _ _ Hb) as (g & g' & Rg & Hg & Rg').
    { intros d1 a' d2 Ha' H2. eapply Hact; [|exact Htr|exact Ha'|exact H2]. intros. by eapply Hfire. }
    assert (Jg : kJ g) by (apply Rg, Rb, J).
    simpl in Hg. case_decide; [done|].
    destruct (where_skel d g e tr w r) as (r' & Hr' & Hw'); [|done..|].
    { eapply skel_trans; [apply Rb|apply Rg]. }
    destruct (draws_stmt (fire E n ((i_name tr, i_tab tr) :: act)) (upd_changes E e g tm fc XRand w) g g') as [Jg' Ng'].
    - apply Forall_forall. intros. by eapply upd_changes_key.
    - eexists. split.
      + apply elem_of_list_fmap. exists (k, r'). split; [reflexivity|]. apply elem_of_list_filter.
        split; [done|]. by apply elem_of_map_to_list.
      + eexists. split; [reflexivity|]. simpl. intros ??? [= <-]. simpl. rewrite col_insert_eq. split; [done|lia].
    - intros. by eapply Hfire.
    - done.
    - done.
    - apply Rb'; [apply Rg'; done|]. by apply Rg'.
  Qed.

  (** ** Views whose changes make redrawing due. *)
  Section views.
    Context {V : Type} `{EqDecision V} (view : db → V) (I : db → Prop) (okc : string → change → Prop).
    Context (Hobs : ∀ t d d1 evs, I d → I d1 → applied t d d1 evs → view d1 ≠ view d → ∃ e, e ∈ evs ∧ key_due d1 e).
    Context (IJ : ∀ d, I d → kJ d).
    Context (Oq : ∀ t ch, okc t ch → key_ch t ch).
    Context (Iapply : ∀ t d ch d' evs, okc t ch → I d → apply_change E t d ch = Ok (d', evs) → I d').
    Context (Oupd : ∀ tr e d t c x w ch, tr ∈ e_trigs E → AUpd t c x w ∈ i_acts tr → ch ∈ upd_changes E e d t c x w → okc t ch).
    Context (Idirty : ∀ d l, I d → I (set_dirty d l)).
    Context (Vdirty : ∀ d l, view (set_dirty d l) = view d).

    Definition kgood (a b : db) : Prop := I a → I b ∧ (N a → N b) ∧ (view b ≠ view a → N b).
    Lemma kgood_refl d : kgood d d. Proof. done. Qed.
    Lemma kgood_trans a b c : kgood a b → kgood b c → kgood a c.
    Proof.
      intros H1 H2 Ha. destruct (H1 Ha) as (Hb & N1 & V1). destruct (H2 Hb) as (Hc & N2 & V2).
      split_and!; [done|auto|]. intros Hne. destruct (decide (view c = view b)) as [Heq|]; [|auto].
      apply N2, V1. congruence.
    Qed.
    Lemma okc_quiet t cs : Forall (okc t) cs → Forall ch_quiet cs.
    Proof. intros H. eapply Forall_impl; [exact H|]. intros x Hx. by apply Oq in Hx as []. Qed.
    Lemma apply_all_kI t cs : Forall (okc t) cs → ∀ d d' evs, I d → apply_all E t cs d = Ok (d', evs) → I d'.
    Proof.
      intros Hq. induction cs as [|c cs IH]; intros d d' evs Hi H.
      { by injection H as <- <-. }
      apply Forall_cons in Hq as [Hq1 Hq2].
      rewrite apply_all_cons in H. inv_bind H. destruct a. simpl in H. inv_bind H. destruct a. simpl in H.
      injection H as <- <-. eapply IH; [done| |done]. by eapply Iapply.
    Qed.
    Lemma run_batch_kgood fr t cs d d' :
      Forall (okc t) cs → NoDup (ch_key <$> cs) →
      (∀ d e d', ev_tab e = t → fr d e = Ok d' → skel E d d' ∧ kgood d d') →
      (∀ d e d', ev_tab e = t → fr d e = Ok d' → key_due d e → kJ d → N d') →
      run_batch E fr t cs d = Ok d' → kgood d d'.
    Proof.
      intros Hq Hnd Hfr Hdue H Hi. unfold run_batch in H. inv_bind H. destruct a as [d1 evs]. simpl in H.
      destruct (apply_all_applied E _ _ _ _ _ (okc_quiet _ _ Hq) Hnd H0) as (Ap & _ & _).
      pose proof (apply_all_kI _ _ Hq _ _ _ Hi H0) as Hi1.
      assert (Hg : ∀ evs', (∀ e, e ∈ evs' → e ∈ evs) → ∀ x y, foldM fr x evs' = Ok y → skel E x y ∧ kgood x y).
      { intros evs' Hin x y Hxy. eapply (foldM_rel (λ x y, skel E x y ∧ kgood x y)); [..|exact Hxy].
        - intros; split; [apply skel_refl|apply kgood_refl].
        - intros ??? [] []; split; eauto using skel_trans, kgood_trans.
        - intros a e a' He. apply Hfr. by apply (ap_tab _ _ _ _ Ap), Hin. }
      destruct (Hg evs (λ _ h, h) _ _ H) as [_ Hg']. destruct (Hg' Hi1) as (Hi' & Hn & Hv).
      assert (HR : kR d d1).
      { eapply (apply_all_rel E kR); [apply kR_refl|apply kR_trans| |exact H0]. intros. eapply key_apply; [|done].
        apply Oq. by eapply Forall_forall in Hq. }
      split_and!; [done|intros; apply Hn, HR; auto|].
      intros Hne. destruct (decide (view d' = view d1)) as [Heq|]; [|by apply Hv].
      edestruct Hobs as (e & He & Hde); [exact Hi|exact Hi1|exact Ap|congruence|].
      apply elem_of_list_split in He as (l1 & l2 & ->).
      rewrite foldM_app in H. inv_bind H. simpl in H. inv_bind H.
      destruct (Hg l1) with (x := d1) (y := a) as [S1 G1]; [set_solver|done|].
      destruct (Hg l2) with (x := a0) (y := d') as [S2 G2]; [set_solver|done|].
      destruct (G1 Hi1) as (Ia & _).
      assert (Hte : ev_tab e = t) by (apply (ap_tab _ _ _ _ Ap); set_solver).
      destruct (Hfr _ _ _ Hte H2) as [_ Gm]. destruct (Gm Ia) as (Ia0 & _).
      destruct (G2 Ia0) as (_ & Gn & _). apply Gn. eapply Hdue; [done|exact H2| |by apply IJ]. by eapply key_due_skel.
    Qed.
    Lemma run_stmt_kgood fr t cs d d' :
      Forall (okc t) cs → (e_be E = Postgres → NoDup (ch_key <$> cs)) →
      (∀ d e d', ev_tab e = t → fr d e = Ok d' → skel E d d' ∧ kgood d d') →
      (∀ d e d', ev_tab e = t → fr d e = Ok d' → key_due d e → kJ d → N d') →
      run_stmt E fr t cs d = Ok d' → kgood d d'.
    Proof.
      intros Hq Hnd Hfr Hdue H. unfold run_stmt in H.
      assert (Hsing : foldM (λ d c, run_batch E fr t [c] d) d cs = Ok d' → kgood d d').
      { clear H. apply (foldM_rel kgood); [apply kgood_refl|apply kgood_trans|].
        intros a x a' Hx Ha. eapply run_batch_kgood; [| |done|done|exact Ha].
        - apply Forall_singleton. by eapply Forall_forall in Hq.
        - apply NoDup_singleton. }
      destruct (e_be E); eauto. eapply run_batch_kgood; eauto.
    Qed.
    Context (rank : string → nat) (Hnu : names_unique E) (Hac : e_be E = SQLite → acyclic E rank).
    Lemma fire_kgood n : ∀ act d e d',
      (e_be E = SQLite → act_above E rank act (ev_tab e)) → fire E n act d e = Ok d' → kgood d d'.
    Proof.
      induction n as [|n IH]; intros act d e d' Hact H; [done|]. simpl in H.
      revert H. apply (foldM_rel kgood); [apply kgood_refl|apply kgood_trans|].
      intros a tr a' Htr H. destruct (trig_applies E act e tr) eqn:Happ; [|injection H as <-; apply kgood_refl].
      assert (i_tab tr = ev_tab e) as Htab.
      { unfold trig_applies in Happ. apply andb_true_iff in Happ as [Happ _].
        apply andb_true_iff in Happ as [Happ _]. apply andb_true_iff in Happ as [Happ _].
        by apply bool_decide_eq_true in Happ. }
      clear Happ. revert H. apply (foldM_rel kgood); [apply kgood_refl|apply kgood_trans|].
      assert (Hmk : ∀ b l, kgood b (mark b l)).
      { intros b l Hi. split_and!; [by apply Idirty|apply kR_mark; by apply IJ|]. intros Hne. exfalso. apply Hne. apply Vdirty. }
      intros b ac b' Hac' H. destruct ac; simpl in H; [injection H as <-; apply Hmk|injection H as <-; apply Hmk|].
      case_decide; [done|].
      assert (Hact' : e_be E = SQLite → act_above E rank ((i_name tr, i_tab tr) :: act) t).
      { intros Hsq nm Hnm. simpl in Hnm. pose proof (Hac Hsq _ _ _ _ _ Htr Hac') as Hlt.
        apply elem_of_cons in Hnm as [->|Hnm]; [by exists tr|].
        destruct (Hact Hsq _ Hnm) as (tr' & ? & ? & ?). exists tr'. split_and!; [done..|].
        rewrite Htab in Hlt. lia. }
      eapply run_stmt_kgood; [..|exact H].
      - apply Forall_forall. intros. by eapply Oupd.
      - intros _. apply upd_changes_nodup.
      - intros d1 e1 d2 Ht1 Hf1. split; [by eapply fire_skel|]. eapply IH; [|exact Hf1]. by rewrite Ht1.
      - intros d1 e1 d2 Ht1 Hf1 Hd1. eapply fire_key_due; [|exact Hf1|done].
        intros Hsq. rewrite Ht1. eapply act_above_unblocked; eauto.
    Qed.
    Lemma exec_kgood t cs d d' :
      Forall (okc t) cs → (e_be E = Postgres → NoDup (ch_key <$> cs)) → exec E t cs d = Ok d' → kgood d d'.
    Proof.
      intros Hq Hnd H. eapply run_stmt_kgood; [done|done| | |exact H].
      - intros ??? Ht1 Hf1. split; [by eapply fire_skel|]. eapply fire_kgood; [|exact Hf1]. auto using act_above_nil.
      - intros d1 e1 d2 Ht1 Hf1 Hd1. eapply fire_key_due; [|exact Hf1|done].
        intros Hsq. eapply (act_above_unblocked E rank); eauto using act_above_nil.
    Qed.
  End views.
End row.
End draw.
