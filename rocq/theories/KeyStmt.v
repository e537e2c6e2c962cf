(** * Which statements redraw a cache key, and which leave it alone. *)
From Verif Require Import Base BaseLemmas Schema TrigSet Gen Exec Orm Flush Spec Engine GenLemmas Marking Conditions Invariant Settle Sessions KeyDraw KeyObs.

Section keys.
Context (b : backend) (S : schema) (rand : nat → Z) (imm : bool) (depth : nat) (E : env) (rank : string → nat).
Context (HE : mk_env b S rand imm depth = Ok E) (Htk : trackable S rank imm b).
Context (m : model) (f : field) (ds : list dep).
Context (Hm : m ∈ s_models S) (Hf : f ∈ m_fields m) (Hk : f_kind f = KCacheKey ds).
Context (op : op) (d d' : db) (Ho : run_op E S op d = Ok d') (HL : links_ok S d).
Context (k : Z) (r : row) (Hr : getrow d (m_table m) k = Some r).
Notation tm := (m_table m).
Notation drawn := (redrawn rand (d_rnd d) tm (f_col f) k d').

Context (dp : dep) (om : model) (Hdp : dp ∈ ds) (Hfo : find_model S (dep_other dp) = Some om).

Lemma key_via cs : (∀ c, c ∈ cs → tracked S om c) →
  match dep_rel dp with
  | RelBackward fk => tracked S om fk
  | RelGenForward ctc oidc => tracked S om ctc ∧ tracked S om oidc
  | RelGenBackward _ _ => False
  | _ => True
  end →
  spares op tm k (f_col f :: own_cols dp) →
  (∀ r', getrow d' tm k = Some r' → (∀ c, c ∈ own_cols dp → col r' c = col r c) →
     key_view S m d' k r' dp cs ≠ key_view S m d k r dp cs) →
  drawn.
Proof.
  intros Hcs Hrel Hsp Hne. destruct (mk_env_gen _ _ _ _ _ _ HE) as [l Hl]. destruct Htk.
  assert (Hn : names_ok b l) by by eapply names_apart_ok.
  pose proof (key_col S tk_wf m f ds Hm Hf Hk) as Hc. rewrite Hc in Hsp |- *.
  destruct (key_stmt b S rand imm depth E l tk_wf HE Hl Hn tk_links tk_m2m rank) with (m := m) (f := f) (ds := ds) (k := k) (dp := dp) (o := om) (cs := cs) (op := op) (d := d) (d' := d') (r := r)
    as [(r' & Hr' & Hown) HV]; try done.
  - intros Hb. eapply upd_acyclic_ok; eauto.
  - apply HV. unfold kv. rewrite Hr, Hr'. simpl. intros [= Heq]. by apply (Hne r').
Qed.

Lemma ktouched_cols j : touched S om d d' j → ∃ cs, (∀ c, c ∈ cs → tracked S om c) ∧
  cols_of cs <$> getrow d' (m_table om) j ≠ cols_of cs <$> getrow d (m_table om) j.
Proof.
  unfold touched. destruct (getrow d (m_table om) j) as [r0|], (getrow d' (m_table om) j) as [r1|]; intros Ht.
  - destruct Ht as (c & Htc & Hne). exists [c]. split; [by intros c' ->%elem_of_list_singleton|]. simpl. congruence.
  - exists []. split; [by intros ? ?%elem_of_nil|done].
  - exists []. split; [by intros ? ?%elem_of_nil|done].
  - done.
Qed.

Lemma key_forward fk j : dep_rel dp = RelForward fk → spares op tm k [f_col f; fk] → col r fk = VInt j →
  touched S om d d' j → drawn.
Proof.
  intros Hrl Hsp Hj Ht. destruct (ktouched_cols j Ht) as (cs & Hcs & Hne).
  apply (key_via cs); [done|by rewrite Hrl|by unfold own_cols; rewrite Hrl|].
  intros r' Hr' Hown Heq. unfold own_cols in Hown. rewrite Hrl in Hown. specialize (Hown fk ltac:(by left)).
  unfold key_view, dep_view in Heq. rewrite Hrl, Hfo, Hown, Hj in Heq. injection Heq as Heq. done.
Qed.

Lemma key_backward fk j : dep_rel dp = RelBackward fk → tracked S om fk → spares op tm k [f_col f] →
  before_or_after (m_table om) d d' j (λ r, col r fk = VInt k) →
  touched S om d d' j → drawn.
Proof.
  intros Hrl Htf Hsp Hba Ht. destruct (ktouched_cols j Ht) as (cs & Hcs & Hne).
  apply (key_via cs); [done|by rewrite Hrl|by unfold own_cols; rewrite Hrl|].
  intros r' Hr' _ Heq. unfold key_view, dep_view in Heq. rewrite Hrl, Hfo in Heq. injection Heq as Heq.
  apply (f_equal (λ g : gmap Z (list val), g !! j)) in Heq. rewrite !lookup_omap in Heq.
  fold (getrow d' (m_table om) j) (getrow d (m_table om) j) in Heq.
  destruct Hba as [(rr & Hg & Hf1)|(rr & Hg & Hf1)]; rewrite Hg in *; simpl in *; rewrite (decide_True (P := col rr fk = VInt k)) in Heq by done.
  - destruct (getrow d' (m_table om) j) as [r1|]; simpl in *; [|done]. case_decide; [|done]. congruence.
  - destruct (getrow d (m_table om) j) as [r1|]; simpl in *; [|done]. case_decide; [|done]. congruence.
Qed.

Lemma key_generic ctc oidc j : dep_rel dp = RelGenForward ctc oidc → tracked S om ctc → tracked S om oidc →
  spares op tm k [f_col f] →
  before_or_after (m_table om) d d' j (λ r, col r ctc = VInt (m_ct m) ∧ col r oidc = VInt k) →
  touched S om d d' j → drawn.
Proof.
  intros Hrl Htc Hto Hsp Hba Ht. destruct (ktouched_cols j Ht) as (cs & Hcs & Hne).
  apply (key_via cs); [done|by rewrite Hrl|by unfold own_cols; rewrite Hrl|].
  intros r' Hr' _ Heq. unfold key_view, dep_view in Heq. rewrite Hrl, Hfo in Heq. injection Heq as Heq.
  apply (f_equal (λ g : gmap Z (list val), g !! j)) in Heq. rewrite !lookup_omap in Heq.
  fold (getrow d' (m_table om) j) (getrow d (m_table om) j) in Heq.
  destruct Hba as [(rr & Hg & Hf1)|(rr & Hg & Hf1)]; rewrite Hg in *; simpl in *;
    rewrite (decide_True (P := col rr ctc = VInt (m_ct m) ∧ col rr oidc = VInt k)) in Heq by done.
  - destruct (getrow d' (m_table om) j) as [r1|]; simpl in *; [|done]. case_decide; [|done]. congruence.
  - destruct (getrow d (m_table om) j) as [r1|]; simpl in *; [|done]. case_decide; [|done]. congruence.
Qed.

Lemma key_link t c rc i : dep_rel dp = RelM2M t c rc → spares op tm k [f_col f] →
  before_or_after t d d' i (λ r, col r c = VInt k) → link_touched t c rc d d' i → drawn.
Proof.
  intros Hrl Hsp Hba Ht.
  apply (key_via []); [by intros ? ?%elem_of_nil|by rewrite Hrl|by unfold own_cols; rewrite Hrl|].
  intros r' Hr' _ Heq. unfold key_view, dep_view in Heq. rewrite Hrl, Hfo in Heq. injection Heq as Heq.
  apply (f_equal (λ g : gmap Z (val * option (list val)), g !! i)) in Heq. rewrite !lookup_omap in Heq.
  fold (getrow d' t i) (getrow d t i) in Heq. unfold link_touched in Ht.
  destruct Hba as [(rr & Hg & Hf1)|(rr & Hg & Hf1)]; rewrite Hg in *; simpl in *; rewrite (decide_True (P := col rr c = VInt k)) in Heq by done.
  - destruct (getrow d' t i) as [r1|]; simpl in *; [|done]. case_decide; [|done]. naive_solver congruence.
  - destruct (getrow d t i) as [r1|]; simpl in *; [|done]. case_decide; [|done]. naive_solver congruence.
Qed.

Lemma key_far t c rc i lr j : dep_rel dp = RelM2M t c rc → spares op tm k [f_col f] →
  getrow d' t i = Some lr → col lr c = VInt k → col lr rc = VInt j →
  touched S om d d' j → drawn.
Proof.
  intros Hrl Hsp Hl Hc Hrc Ht. destruct (ktouched_cols j Ht) as (cs & Hcs & Hne).
  apply (key_via cs); [done|by rewrite Hrl|by unfold own_cols; rewrite Hrl|].
  intros r' Hr' _ Heq. unfold key_view, dep_view in Heq. rewrite Hrl, Hfo in Heq. injection Heq as Heq.
  apply (f_equal (λ g : gmap Z (val * option (list val)), g !! i)) in Heq. rewrite !lookup_omap in Heq.
  fold (getrow d' t i) (getrow d t i) in Heq. rewrite Hl in Heq. simpl in Heq. rewrite decide_True, Hrc in Heq by done.
  destruct (getrow d t i) as [r1|]; simpl in *; [|done]. case_decide; [|done]. injection Heq as Hv He.
  rewrite <- Hv in He. done.
Qed.
End keys.
