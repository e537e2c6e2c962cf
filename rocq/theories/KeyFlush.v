(** * flush() and rebuildall() draw the cache keys of the rows they save (denorms.py:593-635). *)
From Verif Require Import Base BaseLemmas Schema TrigSet Gen Exec Orm Flush Spec Engine GenLemmas Marking Conditions Invariant Settle Sessions Hist KeyDraw KeyObs Passes Select SaveKey.

Section flush.
Context (b : backend) (S : schema) (rand : nat → Z) (imm : bool) (depth : nat) (E : env).
Context (Hwf : wf_schema S) (Hna : names_apart S) (HE : mk_env b S rand imm depth = Ok E).
Context (m : model) (f : field) (ds : list dep).
Context (Hm : m ∈ s_models S) (Hf : f ∈ m_fields m) (Hk : f_kind f = KCacheKey ds).
Context (Htr : ∀ r, m_truthy m r = true).
Context (k : Z) (n0 : nat).
Notation tm := (m_table m).
Notation fc := (f_col f).
Notation R := (kR E tm fc k n0).
Notation J := (kJ tm k n0).
Notation N := (redrawn rand n0 tm fc k).
Notation only_rand := (only_rand b S rand imm depth E Hwf Hna HE m f ds Hm Hf Hk).

Lemma exec_R t cs d d' : Forall (key_ch E tm fc k t) cs → exec E t cs d = Ok d' → R d d'.
Proof.
  intros Hc. apply (run_stmt_rel E R); [apply kR_refl|apply kR_trans|intros ???; eapply (fire_kR E tm fc k n0 only_rand)|].
  intros d1 ch d2 evs Hch. apply (key_apply E tm fc k n0 only_rand). by eapply Forall_forall in Hc.
Qed.
Lemma tabs_R d d' : d_tabs d' = d_tabs d → (d_rnd d ≤ d_rnd d')%nat → R d d'.
Proof.
  intros Ht Hr [J1 [r0 J2]]. assert (Heq : ∀ t k, getrow d' t k = getrow d t k) by (intros; unfold getrow, tab; by rewrite Ht).
  split; [split; [lia|rewrite Heq; by eexists]|]. intros (r & n & H1 & H2 & H3). exists r, n. rewrite Heq. split; [done|]. split; [lia|done].
Qed.
Lemma m2m_pre_save_R m' pk r d d' : m' ∈ s_models S → m2m_pre_save E m' pk r d = Ok d' → R d d'.
Proof.
  intros Hm'. unfold m2m_pre_save. destruct pk as [k'|]; [|intros [= <-]; apply kR_refl]. case_decide; [intros [= <-]; apply kR_refl|].
  apply (foldM_rel R); [apply kR_refl|apply kR_trans|]. intros a mm a' Hmm Ha. destruct (mm_denorm mm) as [[fn ds']|]; [|injection Ha as <-; apply kR_refl].
  inv_bind Ha. unfold m2m_set in Ha. inv_bind Ha.
  assert (Ht : mm_table mm ≠ tm) by (by apply (wf_m2mtab _ _ (wf_models _ Hwf _ Hm'))).
  eapply kR_trans; [eapply exec_R; [|eassumption]|eapply exec_R; [|exact Ha]].
  - apply Forall_forall. intros x Hx. apply elem_of_list_fmap in Hx as (y & -> & _). split; [done|]. by left.
  - generalize (fresh_key (tab a1 (mm_table mm))). intros z. generalize ((λ v, <[mm_col mm:=VInt k']> (<[mm_rev mm:=VInt v]> ∅ : row)) <$> filter (λ v, VInt v ∉ (links a mm k').*2) (remove_dups a0)).
    intros rs. revert z. induction rs as [|r0 rs IH]; intros z; simpl; constructor; [split; done|apply IH].
Qed.
Lemma presave_le m' add pk d r q : presave_all E m' add pk d r = Ok q → (d_rnd d ≤ d_rnd q.1)%nat.
Proof.
  intros H. change d with ((d, r).1). eapply (foldM_rel (λ p q : db * row, (d_rnd p.1 ≤ d_rnd q.1)%nat)); [done|intros ???; lia| |exact H].
  intros x g y _. unfold presave_field. destruct (f_kind g); intros Hx.
  - by injection Hx as <-.
  - by injection Hx as <-.
  - inv_bind Hx. inv_bind Hx. by injection Hx as <-.
  - destruct add; [by injection Hx as <-|]. destruct (pk ≫= _) as [r0|]; [|done]. destruct (m_visible m' r0); [|done]. by injection Hx as <-.
  - injection Hx as <-. simpl. lia.
Qed.
(** Saving another row keeps a drawn key, saving the row draws it. *)
Lemma save_existing_R m' k' r d p : m' ∈ s_models S → save_existing E m' k' r d = Ok p → R d p.1.
Proof.
  intros Hm' H. destruct (decide (m_table m' = tm ∧ k' = k)) as [[Ht ->]|Hne].
  - assert (m' = m) as -> by (by eapply table_inj). intros [J1 J2]. pose proof (save_existing_draws b S rand imm depth E Hwf Hna HE m f ds Hm Hf Hk k r d p J2 H) as HN.
    assert (N p.1) as HN' by (eapply (redrawn_weaken rand m f n0 (d_rnd d)); [exact J1|exact HN]). split.
    + destruct HN as (r1 & n & H1 & H2 & _). split; [lia|by eexists].
    + intros _. by rewrite (rand_eq b S rand imm depth E HE).
  - unfold save_existing in H. inv_bind H. inv_bind H. inv_bind H. injection H as <-. cbn [fst snd].
    eapply kR_trans; [by eapply m2m_pre_save_R|]. pose proof (presave_all_db _ _ _ _ _ _ _ H1) as [T _]. apply presave_le in H1.
    eapply kR_trans; [by eapply tabs_R|]. eapply exec_R; [|exact H2]. apply Forall_singleton. split; [simpl; by intros ??? [= <-]|].
    simpl. intros d1 o p [= <-]. split; [done|]. intros Ht ->. exfalso. by apply Hne.
Qed.

(** Marked, or drawn. *)
Definition due (d : db) : Prop := J d ∧ (marker_of m k ∈ d_dirty d ∨ N d).
Lemma process_due mk d d' : process E S mk d = Ok d' → due d → due d'.
Proof.
  intros H [HJ HD]. pose proof H as Hp. unfold process in H. inv_bind H. injection H as <-.
  assert (Hrel : R d a).
  { unfold process_save in H0. inv_bind H0. destruct a0 as [[[m' k'] r]|]; [|injection H0 as <-; apply kR_refl].
    destruct (content_object_some _ _ _ _ _ _ H1) as (Hm' & _ & _). destruct (m_truthy m' r); [|injection H0 as <-; apply kR_refl].
    inv_bind H0. injection H0 as <-. by eapply save_existing_R. }
  destruct (Hrel HJ) as [HJ' HN']. rewrite (rand_eq b S rand imm depth E HE) in HN'.
  assert (HU : J (unmark a mk)) by exact HJ'.
  split; [exact HU|]. destruct HD as [HD|HN]; [|right; exact (HN' HN)].
  destruct (decide (marker_of m k = mk)) as [<-|Hne]; [right|left; by eapply process_keeps].
  unfold process_save in H0. inv_bind H0. destruct a0 as [[[m' k'] r]|].
  - destruct (content_object_some _ _ _ _ _ _ H1) as (Hm' & Hr & Hmk). apply (marker_of_inj S Hwf) in Hmk as [<- <-]; [|done|done].
    rewrite Htr in H0. inv_bind H0. injection H0 as <-.
    assert (N a0.1) as HN; [|exact HN].
    destruct HJ as [J1 J2]. eapply (redrawn_weaken rand m f n0 (d_rnd d)); [exact J1|].
    by eapply (save_existing_draws b S rand imm depth E Hwf Hna HE m f ds Hm Hf Hk).
  - apply (content_object_none S Hwf) in H1; [|done]. destruct HJ as [_ [r0 Hr0]]. congruence.
Qed.
Lemma flush_pass_due mks d : due d → due (flush_pass E S mks d).1.
Proof.
  revert d. induction mks as [|mk mks IH]; intros d; simpl; [done|].
  destruct (process E S mk d) eqn:Hp; [|done]. intros HD. apply IH. by eapply process_due.
Qed.
Lemma flush_due ord n d d' : flush E S ord n d = (d', Done) → due d → N d'.
Proof.
  revert d. induction n as [|n IH]; intros d; simpl; [done|]. case_decide as Hd.
  - intros [= <-] [_ [Hin|HN]]; [|done]. rewrite Hd in Hin. by apply elem_of_nil in Hin.
  - pose proof (flush_pass_due (snapshot E ord d) d) as Hp. destruct (flush_pass E S (snapshot E ord d) d) as [d1 []]; simpl in *; [|done|done]. eauto.
Qed.
End flush.

Lemma flush_draws b S rand imm depth E m f ds k ord n d d' :
  mk_env b S rand imm depth = Ok E → wf_schema S → names_apart S →
  m ∈ s_models S → f ∈ m_fields m → f_kind f = KCacheKey ds → (∀ r, m_truthy m r = true) →
  flush E S ord n d = (d', Done) → is_Some (getrow d (m_table m) k) → marker_of m k ∈ d_dirty d →
  redrawn rand (d_rnd d) (m_table m) (f_col f) k d'.
Proof.
  intros HE Hwf Hna Hm Hf Hk Htr H Hr Hin. eapply (flush_due b S rand imm depth E Hwf Hna HE m f ds Hm Hf Hk Htr k (d_rnd d)); [exact H|].
  split; [by split|by left].
Qed.
Lemma rebuild_draws b S rand imm depth E m f ds k r ord n mn fn d d' :
  mk_env b S rand imm depth = Ok E → wf_schema S → names_apart S →
  m ∈ s_models S → f ∈ m_fields m → f_kind f = KCacheKey ds → (∀ r, m_truthy m r = true) →
  names_model m mn → (∃ g, declares S m g ∧ names_field g fn) →
  rebuildall E S ord n mn fn d = (d', Done) → getrow d (m_table m) k = Some r → m_visible m r = true →
  redrawn rand (d_rnd d) (m_table m) (f_col f) k d'.
Proof.
  intros HE Hwf Hna Hm Hf Hk Htr Hn (g & Hg & Hgn) H Hr Hv. unfold rebuildall in H.
  eapply (flush_due b S rand imm depth E Hwf Hna HE m f ds Hm Hf Hk Htr k (d_rnd d)); [exact H|].
  split; [split; [done|by eexists]|left]. unfold mark. simpl. apply elem_of_app. right. apply rebuild_marks_spec. by exists m, g, k, r.
Qed.
