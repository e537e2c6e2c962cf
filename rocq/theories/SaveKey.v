(** * Saving an instance draws its cache keys anew (fields.py:282-285 with denorms.py:205-211). *)
From Verif Require Import Base BaseLemmas Schema TrigSet Gen Exec Orm Flush Spec Engine GenLemmas Marking Conditions Invariant Settle Sessions KeyDraw KeyObs SaveModes.

Section save_key.
Context (b : backend) (S : schema) (rand : nat → Z) (imm : bool) (depth : nat) (E : env).
Context (Hwf : wf_schema S) (Hna : names_apart S) (HE : mk_env b S rand imm depth = Ok E).
Context (m : model) (f : field) (ds : list dep).
Context (Hm : m ∈ s_models S) (Hf : f ∈ m_fields m) (Hk : f_kind f = KCacheKey ds).
Notation tm := (m_table m).
Notation fc := (f_col f).

Lemma only_rand tr x w : tr ∈ e_trigs E → AUpd tm fc x w ∈ i_acts tr → x = XRand.
Proof.
  destruct (mk_env_gen _ _ _ _ _ _ HE) as [l Hl]. rewrite (key_col S Hwf m f ds Hm Hf Hk).
  eapply (key_only b S rand imm depth E l Hwf HE Hl); [by eapply names_apart_ok|done..].
Qed.
Lemma rand_eq : e_rand E = rand.
Proof. destruct (mk_env_gen _ _ _ _ _ _ HE) as [l Hl]. by destruct (E_fields b S rand imm depth E l HE Hl) as (_ & _ & _ & _ & _ & ->). Qed.

(** The random source only moves forward. *)
Definition plain_ch (ch : change) : Prop := match ch with CUpd _ g => ∀ d o p, g d o = Ok p → p.2 = d | _ => True end.
Notation le := (λ d d' : db, (d_rnd d ≤ d_rnd d')%nat).
Lemma fire_rnd n act d e d' : fire E n act d e = Ok d' → le d d'.
Proof.
  apply (fire_fine E le); [intros; simpl; lia|intros ???; simpl; lia|intros; simpl; lia|].
  intros tr t c x w e1 k1 d1 o p _ _ _ Hx. destruct p as [v d2]. apply expr_val_db in Hx as [-> | ->]; simpl; lia.
Qed.
Lemma exec_rnd t cs d d' : Forall plain_ch cs → exec E t cs d = Ok d' → le d d'.
Proof.
  intros Hp. apply (run_stmt_rel E le); [intros; simpl; lia|intros ???; simpl; lia|intros ???; apply fire_rnd|].
  intros d1 ch d2 evs Hch Hap. eapply Forall_forall in Hp; [|exact Hch]. destruct ch as [k' r|k' g|k']; simpl in *.
  - destruct (getrow d1 t k'); [done|]. case_match; [|done]. by injection Hap as <- <-.
  - destruct (getrow d1 t k') as [o|]; [|by injection Hap as <- <-]. inv_bind Hap. apply Hp in Hap0 as Heq. case_match; [|done]. injection Hap as <- <-.
    simpl. by rewrite Heq.
  - destruct (getrow d1 t k'); [|by injection Hap as <- <-]. case_match; [|done]. by injection Hap as <- <-.
Qed.

(** A statement on another table keeps the row. *)
Lemma exec_row t cs d d' k : Forall ch_quiet cs → t ≠ tm → exec E t cs d = Ok d' → is_Some (getrow d tm k) → is_Some (getrow d' tm k).
Proof.
  intros Hq Ht. apply (run_stmt_rel E (λ x y, is_Some (getrow x tm k) → is_Some (getrow y tm k))); [auto|auto| |].
  - intros d1 e d2 Hfi [r1 H1]. apply fire_skel in Hfi. specialize (Hfi tm k). rewrite H1 in Hfi. destruct (getrow d2 tm k); [by eexists|done].
  - intros d1 ch d2 evs Hch Hap. eapply Forall_forall in Hq; [|exact Hch].
    destruct (apply_change_applied _ _ _ _ _ _ Hq Hap) as [Ap _]. rewrite (ap_other _ _ _ _ Ap); [done|congruence].
Qed.
Lemma number_plain n rs : Forall plain_ch (number n rs).
Proof. revert n. induction rs as [|r rs IH]; intros n; simpl; constructor; [done|apply IH]. Qed.
Lemma m2m_pre_save_key pk r d d' : m2m_pre_save E m pk r d = Ok d' → le d d' ∧ ∀ k, is_Some (getrow d tm k) → is_Some (getrow d' tm k).
Proof.
  unfold m2m_pre_save. destruct pk as [k'|]; [|by intros [= <-]]. case_decide; [by intros [= <-]|].
  apply (foldM_rel (λ d d', le d d' ∧ ∀ k, is_Some (getrow d tm k) → is_Some (getrow d' tm k))).
  - done.
  - intros x y z [A1 A2] [B1 B2]. split; [simpl in *; lia|auto].
  - intros a mm a' Hmm Ha. destruct (mm_denorm mm) as [[fn ds']|]; [|by injection Ha as <-]. inv_bind Ha. unfold m2m_set in Ha. inv_bind Ha.
    assert (Ht : mm_table mm ≠ tm) by (by apply (wf_m2mtab _ _ (wf_models _ Hwf _ Hm))).
    split.
    + etransitivity; [eapply exec_rnd; [|eassumption]|eapply exec_rnd; [apply number_plain|exact Ha]].
      apply Forall_forall. intros x Hx. by apply elem_of_list_fmap in Hx as (y & -> & _).
    + intros k Hr. eapply exec_row; [apply number_quiet|done|exact Ha|]. eapply exec_row; [|done|eassumption|done].
      apply Forall_forall. intros x Hx. by apply elem_of_list_fmap in Hx as (y & -> & _).
Qed.

(** ** Field pre_save *)
Definition fresh (n0 : nat) (p : db * row) : Prop := ∃ n, (n0 ≤ n < d_rnd p.1)%nat ∧ col p.2 fc = VInt (rand n).
Lemma presave_step_rnd add pk p g q : presave_field E m add pk p g = Ok q → le p.1 q.1 ∧ (f_col g ≠ fc → col q.2 fc = col p.2 fc).
Proof.
  unfold presave_field. destruct (f_kind g); intros H.
  - by injection H as <-.
  - injection H as <-. simpl. split; [done|]. intros Hn. by rewrite col_insert_ne.
  - inv_bind H. inv_bind H. injection H as <-. simpl. split; [done|]. intros Hn. by rewrite col_insert_ne.
  - destruct add; [injection H as <-; simpl; split; [done|]; intros Hn; by rewrite col_insert_ne|].
    destruct (pk ≫= getrow p.1 tm) as [r0|]; [|done]. destruct (m_visible m r0); [|done]. injection H as <-. simpl. split; [done|].
    intros Hn. by rewrite col_insert_ne.
  - injection H as <-. simpl. split; [lia|]. intros Hn. by rewrite col_insert_ne.
Qed.
Lemma presave_fold_rnd add pk fs p q : foldM (presave_field E m add pk) p fs = Ok q →
  le p.1 q.1 ∧ ((∀ g, g ∈ fs → f_col g ≠ fc) → col q.2 fc = col p.2 fc).
Proof.
  revert p. induction fs as [|g fs IH]; intros p H; [by injection H as <-|].
  rewrite foldM_cons in H. inv_bind H. apply presave_step_rnd in H0 as [L1 C1]. apply IH in H as [L2 C2].
  split; [simpl in *; lia|]. intros Hne. rewrite C2 by (intros; apply Hne; by right). apply C1, Hne. left.
Qed.
Lemma presave_draws add pk fs p q : f ∈ fs → NoDup (f_col <$> fs) → foldM (presave_field E m add pk) p fs = Ok q → fresh (d_rnd p.1) q.
Proof.
  intros Hin Hnd H. apply elem_of_list_split in Hin as (l1 & l2 & ->).
  rewrite fmap_app, fmap_cons in Hnd. apply NoDup_app in Hnd as (_ & _ & Hnd). apply NoDup_cons in Hnd as [Hn2 _].
  rewrite foldM_app in H. inv_bind H. rewrite foldM_cons in H. inv_bind H.
  apply presave_fold_rnd in H0 as [L1 _]. apply presave_fold_rnd in H as [L2 C2].
  unfold presave_field in H1. rewrite Hk in H1. injection H1 as <-. cbn [fst snd] in *. exists (d_rnd a.1).
  rewrite rand_eq in C2. simpl in L1, L2. split; [lia|]. rewrite C2; [by rewrite col_insert_eq|].
  intros g Hg Hc. apply Hn2. rewrite <- Hc. by apply elem_of_list_fmap_1.
Qed.
Lemma presave_all_draws add pk d r q : presave_all E m add pk d r = Ok q → fresh (d_rnd d) q.
Proof. intros H. eapply (presave_draws add pk (m_fields m) (d, r)); [exact Hf|apply (wf_cols _ _ (wf_models _ Hwf _ Hm))|exact H]. Qed.

(** ** The statement *)
Lemma exec_draws k ch d d' n0 n q : (n0 ≤ n < d_rnd d)%nat → col q fc = VInt (rand n) →
  (ch = CIns k q ∨ is_Some (getrow d tm k) ∧ ∃ g, ch = CUpd k g ∧ ∀ o p, g d o = Ok p → p.2 = d ∧ col p.1 fc = col q fc) →
  exec E tm [ch] d = Ok d' → redrawn rand n0 tm fc k d'.
Proof.
  intros Hn Hq Hch H. apply run_stmt_single in H. unfold run_batch in H. inv_bind H. destruct a as [d1 evs]. cbn [fst snd] in H.
  rewrite apply_all_cons in H0. inv_bind H0. destruct a as [d2 e1]. cbn [fst snd] in H0. inv_bind H0. injection H0 as <- <-. injection H2 as <-. cbn [fst snd] in *.
  assert (HN : kJ tm k n0 d2 ∧ redrawn (e_rand E) n0 tm fc k d2).
  { rewrite rand_eq. destruct Hch as [->|([o Ho] & g & -> & Hg)]; simpl in H1.
    - destruct (getrow d tm k); [done|]. case_match; [|done]. injection H1 as <- <-. split.
      + split; [simpl; lia|]. rewrite getrow_put_eq. by eexists.
      + exists q, n. rewrite getrow_put_eq. split; [done|]. split; [simpl; lia|done].
    - rewrite Ho in H1. inv_bind H1. apply Hg in H0 as [Hd Hc]. case_match; [|done]. injection H1 as <- <-. split.
      + split; [simpl; rewrite Hd; lia|]. rewrite getrow_put_eq. by eexists.
      + exists a.1, n. rewrite getrow_put_eq. split; [done|]. split; [simpl; rewrite Hd; lia|congruence]. }
  assert (HR : kR E tm fc k n0 d2 d').
  { eapply (foldM_rel (kR E tm fc k n0)); [apply kR_refl|apply kR_trans| |exact H]. intros x e y _ He. eapply (fire_kR E tm fc k n0 only_rand). exact He. }
  destruct HN as [J N]. destruct (HR J) as [_ HR']. rewrite <- rand_eq. auto.
Qed.
Lemma redrawn_weaken n0 n1 k d : (n0 ≤ n1)%nat → redrawn rand n1 tm fc k d → redrawn rand n0 tm fc k d.
Proof. intros Hle (r & n & H1 & H2 & H3). exists r, n. split; [done|]. split; [lia|done]. Qed.

Lemma save_existing_draws k r d p : is_Some (getrow d tm k) → save_existing E m k r d = Ok p → redrawn rand (d_rnd d) tm fc k p.1.
Proof.
  intros Hr H. unfold save_existing in H. inv_bind H. inv_bind H. inv_bind H. injection H as <-. cbn [fst snd].
  apply m2m_pre_save_key in H0 as [L HR]. apply presave_all_draws in H1 as F. destruct F as (n & Hn & Hc).
  eapply (redrawn_weaken (d_rnd d) (d_rnd a)); [done|].
  eapply (exec_draws k _ _ _ _ n a0.2); [exact Hn|exact Hc| |exact H2]. right. split.
  - apply presave_all_db in H1 as [T _]. unfold getrow, tab. rewrite T. by apply HR.
  - eexists. split; [done|]. intros o p [= <-]. done.
Qed.
Lemma post_save_draws n0 k r d p : redrawn rand n0 tm fc k d → post_save_created E m k r d = Ok p → redrawn rand n0 tm fc k p.1.
Proof.
  intros HN H. unfold post_save_created in H. destruct (has_m2m_denorm m); [|by injection H as <-].
  destruct HN as (r0 & n & Hg & Hn & _). eapply (redrawn_weaken _ (d_rnd d)); [lia|]. eapply save_existing_draws; [by eexists|exact H].
Qed.
Lemma save_draws pk r d x : save E m pk r d = Ok x → redrawn rand (d_rnd d) tm fc x.1.2 x.1.1.
Proof.
  unfold save. destruct pk as [k|].
  - destruct (getrow d tm k) as [r0|] eqn:Hg.
    + intros H. inv_bind H. injection H as <-. eapply save_existing_draws; [by eexists|done].
    + intros H. inv_bind H. inv_bind H. inv_bind H. inv_bind H. inv_bind H. injection H as <-. cbn [fst snd].
      apply m2m_pre_save_key in H0 as [L _]. apply presave_fold_rnd in H1 as [L1 _]. apply presave_all_draws in H2 as (n & Hn & Hc).
      cbn [fst snd] in L1. eapply post_save_draws; [|eassumption]. eapply (redrawn_weaken _ (d_rnd a0.1)); [simpl in *; lia|].
      eapply (exec_draws k _ _ _ _ n); [exact Hn|exact Hc|by left|eassumption].
  - intros H. inv_bind H. inv_bind H. inv_bind H. injection H as <-. cbn [fst snd].
    apply presave_all_draws in H0 as (n & Hn & Hc). eapply post_save_draws; [|eassumption].
    eapply (exec_draws _ _ _ _ _ n); [exact Hn|exact Hc|by left|eassumption].
Qed.
Lemma save_fields_draws k names r d p : named names f = true → names ≠ [] → save_fields E m k names r d = Ok p → redrawn rand (d_rnd d) tm fc k p.1.
Proof.
  intros Hnm Hne. unfold save_fields. rewrite decide_False by done. destruct (negb _); [done|]. intros H. inv_bind H. inv_bind H.
  destruct (getrow a0.1 tm k) as [o0|] eqn:Hg; [|done]. inv_bind H. injection H as <-. cbn [fst snd].
  apply m2m_pre_save_key in H0 as [L _]. set (fs := filter _ _) in *.
  assert (Hin : f ∈ fs) by (apply elem_of_list_filter; done).
  assert (Hnd : NoDup (f_col <$> fs)).
  { pose proof (wf_cols _ _ (wf_models _ Hwf _ Hm)) as Hw. apply (NoDup_fmap_2_strong _ _); [|apply NoDup_filter; by eapply NoDup_fmap_1].
    intros x y Hx Hy Heq. apply elem_of_list_filter in Hx as [_ Hx]. apply elem_of_list_filter in Hy as [_ Hy]. by eapply NoDup_fmap_eq. }
  pose proof (presave_draws _ _ _ _ _ Hin Hnd H1) as (n & Hn & Hc). cbn [fst snd] in Hn.
  eapply (redrawn_weaken _ (d_rnd a)); [done|]. eapply (exec_draws k _ _ _ _ n a0.2); [exact Hn|exact Hc| |exact H2]. right. split; [by eexists|].
  eexists. split; [done|]. intros o p [= <-]. split; [done|]. cbn [fst snd].
  unfold col at 1. by rewrite write_cols_at.
Qed.
End save_key.
