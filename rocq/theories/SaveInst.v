(** * What the saved instance shows.

    pre_save sets every computed value as an attribute of the instance (fields.py:60-80, 177,
    284); the triggers of the statement that stores the row run afterwards, in the database. *)
From Verif Require Import Base BaseLemmas Schema TrigSet Gen Exec Orm Flush Machine Spec SpecAgg Engine GenLemmas Marking Conditions Invariant Settle Sessions Frame Hist Agg AggEngine AggOps AggDefer AggDrift Reach.
Open Scope list_scope.

(** A statement that writes the row [r], as an insert or an update, stores it and then fires. *)
Lemma written E t k r ch d d' : ch = CIns k r ∨ (ch = upd_all k r ∧ is_Some (getrow d t k)) → exec E t [ch] d = Ok d' →
  ∃ d1 e, getrow d1 t k = Some r ∧ ev_tab e = t ∧ fire E (e_depth E) [] d1 e = Ok d'.
Proof.
  intros Hch H. unfold exec in H. apply run_stmt_single in H. unfold run_batch in H. inv_bind H. destruct a as [d1 evs]. simpl in H.
  rewrite apply_all_cons in H0. inv_bind H0. destruct a as [d2 e2]. simpl in H0. injection H0 as <- <-. rewrite app_nil_r in H.
  exists d2. destruct Hch as [->|[-> [r0 Hr0]]].
  - simpl in H1. destruct (getrow d t k); [done|]. destruct (_ || _); [|done]. injection H1 as <- <-. simpl in H. inv_bind H. injection H as <-.
    exists (Ev t k (ChIns r)). split; [apply getrow_put_eq|]. done.
  - unfold upd_all in H1. simpl in H1. rewrite Hr0 in H1. simpl in H1. destruct (_ || _); [|done]. injection H1 as <- <-. simpl in H. inv_bind H. injection H as <-.
    exists (Ev t k (ChUpd r0 r)). split; [apply getrow_put_eq|]. done.
Qed.

Section inst.
Context (b : backend) (S : schema) (rand : nat → Z) (imm : bool) (depth : nat) (E : env).
Context (Hwf : wf_schema S) (HE : mk_env b S rand imm depth = Ok E).
(** How the stored row relates to the instance. *)
Context (P : row → row → Prop).
Lemma save_stores m pk r d x : m ∈ s_models S →
  (∀ k r1 ch y y', ch = CIns k r1 ∨ (ch = upd_all k r1 ∧ is_Some (getrow y (m_table m) k)) → exec E (m_table m) [ch] y = Ok y' →
    ∃ s, getrow y' (m_table m) k = Some s ∧ P s r1) →
  save E m pk r d = Ok x → ∃ s, getrow x.1.1 (m_table m) x.1.2 = Some s ∧ P s x.2.
Proof.
  intros Hm Hw. assert (Hex : ∀ k r1 y p, is_Some (getrow y (m_table m) k) → save_existing E m k r1 y = Ok p → ∃ s, getrow p.1 (m_table m) k = Some s ∧ P s p.2).
  { intros k r1 y p Hr H. unfold save_existing in H. inv_bind H. inv_bind H. inv_bind H. injection H as <-. cbn [fst snd].
    eapply Hw; [|eassumption]. right. split; [done|].
    apply (m2m_pre_save_kept b S rand imm depth E Hwf HE) in H0 as [K _]; [|done]. specialize (K m Hm k). destruct Hr as [r0 Hr0]. rewrite Hr0 in K.
    apply presave_all_db in H1 as [T _]. unfold getrow, tab in *. rewrite T. destruct (_ !! k) in K |- *; [by eexists|done]. }
  assert (Hpost : ∀ k r1 y y' s, exec E (m_table m) [CIns k r1] y = Ok y' → post_save_created E m k r1 y' = Ok s → ∃ s', getrow s.1 (m_table m) k = Some s' ∧ P s' s.2).
  { intros k r1 y y' s Hx Hs. unfold post_save_created in Hs. destruct (has_m2m_denorm m).
    - eapply Hex; [|exact Hs]. by eapply ins_there.
    - injection Hs as <-. eapply Hw; [by left|exact Hx]. }
  intros H. unfold save in H. destruct pk as [k|].
  - destruct (getrow d (m_table m) k) as [r0|] eqn:Hr.
    + inv_bind H. injection H as <-. cbn [fst snd]. eapply Hex; [by eexists|eassumption].
    + do 5 inv_bind H. injection H as <-. cbn [fst snd]. eapply Hpost; eassumption.
  - do 3 inv_bind H. injection H as <-. cbn [fst snd]. eapply Hpost; eassumption.
Qed.
End inst.

(** Columns that no trigger writes. *)
Lemma save_shows b S rand imm depth E m pk r d x : wf_schema S → mk_env b S rand imm depth = Ok E → m ∈ s_models S →
  save E m pk r d = Ok x → ∃ s, getrow x.1.1 (m_table m) x.1.2 = Some s ∧ ∀ c, column_of m c → col s c = col x.2 c.
Proof.
  intros Hwf HE Hm. destruct (mk_env_gen _ _ _ _ _ _ HE) as [l Hl].
  apply (save_stores b S rand imm depth E Hwf HE (λ s r, ∀ c, column_of m c → col s c = col r c)); [done|].
  intros k r1 ch y y' Hch H. destruct (written E _ _ _ _ _ _ Hch H) as (d1 & e & Hr & _ & Hf). apply fire_skel in Hf. specialize (Hf (m_table m) k).
  rewrite Hr in Hf. destruct (getrow y' (m_table m) k) as [s|]; [|done]. exists s. split; [done|]. intros c Hc. symmetry. apply Hf.
  by eapply column_not_tw with (l := l).
Qed.
(** Everything, if trigger updates never lead back to the table. *)
Lemma save_shows_all b S rand imm depth E rank m pk r d x : wf_schema S → names_apart S → upd_acyclic S rank → mk_env b S rand imm depth = Ok E → m ∈ s_models S →
  save E m pk r d = Ok x → getrow x.1.1 (m_table m) x.1.2 = Some x.2.
Proof.
  intros Hwf Hna Hua HE Hm H. destruct (mk_env_gen _ _ _ _ _ _ HE) as [l Hl].
  assert (Hac : acyclic E rank) by (eapply upd_acyclic_ok; [exact Hwf|exact HE|exact Hl| |done]; by eapply names_apart_ok).
  destruct (save_stores b S rand imm depth E Hwf HE (λ s r, s = r) m pk r d x Hm) as (s & Hs & <-); [|done|done].
  intros k r1 ch y y' Hch Hx. destruct (written E _ _ _ _ _ _ Hch Hx) as (d1 & e & Hr & He & Hf). exists r1. split; [|done].
  rewrite (fire_frame _ _ Hac _ _ _ _ _ Hf); [done|]. by rewrite He.
Qed.
(** Aggregates over other tables. *)
Lemma save_shows_agg b S rand imm depth E m f a rel pk r d x v : wf_schema S → names_apart S → mk_env b S rand imm depth = Ok E → agg_field S m f a rel →
  m_table rel ≠ m_table m → save E m pk r d = Ok x → col x.2 (f_col f) = VInt v →
  ∃ s, getrow x.1.1 (m_table m) x.1.2 = Some s ∧ col s (f_col f) = VInt v.
Proof.
  intros Hwf Hna HE Haf Hne H Hv. destruct (mk_env_gen _ _ _ _ _ _ HE) as [l Hl]. assert (Hn : names_ok b l) by by eapply names_apart_ok.
  destruct (save_stores b S rand imm depth E Hwf HE (λ s r, ∀ v, col r (f_col f) = VInt v → col s (f_col f) = VInt v) m pk r d x (af_model _ _ _ _ _ Haf)) as (s & Hs & HP); [|done|eauto].
  intros k r1 ch y y' Hch Hx. destruct (written E _ _ _ _ _ _ Hch Hx) as (d1 & e & Hr & He & Hf).
  assert (Hfs : foldM (fire E (e_depth E) []) d1 [e] = Ok y') by (simpl; by rewrite Hf).
  destruct (fires_Rzd b S rand imm depth E l Hwf HE Hl Hn m f a rel Haf _ _ _ _ Hfs) as [Hz Hs].
  specialize (Hs (m_table m) k). rewrite Hr in Hs. destruct (getrow y' (m_table m) k) as [s|] eqn:Hs'; [|done]. exists s. split; [done|]. intros v' Hv'.
  destruct (Hz k r1 v' Hr Hv') as (r2 & Hr2 & Hv2). rewrite Hs' in Hr2. injection Hr2 as <-. rewrite Hv2. f_equal.
  unfold AggOps.evsum, AggEngine.delta. simpl. rewrite decide_False by congruence. lia.
Qed.
