(** * Which rows are marked after an operation. *)
From Verif Require Import Base BaseLemmas Schema TrigSet Gen Exec Orm Flush Spec Engine GenLemmas Marking Conditions Invariant Settle Sessions.

Section marks.
Context (b : backend) (S : schema) (rand : nat → Z) (imm : bool) (depth : nat) (E : env) (rank : string → nat).
Context (HE : mk_env b S rand imm depth = Ok E) (Htk : trackable S rank imm b).

Lemma op_noticed m f fn ds sk rd k o d d' :
  m ∈ s_models S → f ∈ m_fields m → f_kind f = KCallback fn ds sk → declared_reads S m ds rd →
  run_op E S o d = Ok d' → links_ok S d →
  row_view S m rd k d' ≠ row_view S m rd k d → row_view S m rd k d' ≠ None → newly d d' (marker_of m k).
Proof.
  intros Hm Hf Hk Hdr Ho HL. destruct (mk_env_gen _ _ _ _ _ _ HE) as [l Hl]. destruct Htk.
  assert (Hn : names_ok b l) by by eapply names_apart_ok.
  eapply (run_op_vgood b S rand imm depth E l) with (rank := rank); eauto.
  intros Hb. eapply upd_acyclic_ok; eauto.
Qed.

Section field.
Context (m : model) (f : field) (fn : callback) (ds : list dep) (sk : list string).
Context (Hm : m ∈ s_models S) (Hf : f ∈ m_fields m) (Hk : f_kind f = KCallback fn ds sk).
Context (o : op) (d d' : db) (Ho : run_op E S o d = Ok d') (HL : links_ok S d).
Context (k : Z) (r' : row) (Hr' : getrow d' (m_table m) k = Some r').

Lemma mark_own : touched S m d d' k → newly d d' (marker_of m k).
Proof.
  unfold touched. rewrite Hr'. intros Ht.
  destruct (getrow d (m_table m) k) as [r|] eqn:Hr.
  - destruct Ht as (c & Htc & Hne). apply (op_noticed m f fn ds sk (Reads [c] []) k o d d'); try done.
    + split; simpl; [|by intros ?? ?%elem_of_nil|by intros ???? ?%elem_of_nil|by intros ??? ?%elem_of_nil].
      by intros c' ->%elem_of_list_singleton.
    + unfold row_view. rewrite Hr, Hr'. simpl. congruence.
    + unfold row_view. by rewrite Hr'.
  - apply (op_noticed m f fn ds sk (Reads [] []) k o d d'); try done.
    + split; simpl; [by intros ? ?%elem_of_nil|by intros ?? ?%elem_of_nil|by intros ???? ?%elem_of_nil|by intros ??? ?%elem_of_nil].
    + unfold row_view. by rewrite Hr, Hr'.
    + unfold row_view. by rewrite Hr'.
Qed.

Context (dp : dep) (om : model) (Hdp : dp ∈ ds) (Hfo : find_model S (dep_other dp) = Some om).
Lemma om_in : om ∈ s_models S. Proof. by apply find_model_in in Hfo as []. Qed.

(** A reader of columns [cs] through [dp] with own columns [own]. *)
Lemma via_noticed own cs :
  (∀ c, c ∈ own → tracked S m c) → (∀ c, c ∈ cs → tracked S om c) →
  match dep_rel dp with
  | RelForward fk => fk ∈ own
  | RelBackward fk => tracked S om fk
  | RelM2M _ _ _ => True
  | RelGenForward ctc oidc => tracked S om ctc ∧ tracked S om oidc
  | RelGenBackward _ _ => False
  end →
  (∀ r, getrow d (m_table m) k = Some r → cols_of own r = cols_of own r' →
     dep_view S m d' k r' dp cs ≠ dep_view S m d k r dp cs) →
  newly d d' (marker_of m k).
Proof.
  intros Hown Hcs Hrel Hne. apply (op_noticed m f fn ds sk (Reads own [(dp, cs)]) k o d d'); try done.
  - split; simpl.
    + done.
    + by intros dp' cs' [= -> ->]%elem_of_list_singleton.
    + intros dp' cs' o' c [= -> ->]%elem_of_list_singleton Hfo'. assert (o' = om) as -> by congruence. auto.
    + intros dp' cs' o' [= -> ->]%elem_of_list_singleton Hfo'. by assert (o' = om) as -> by congruence.
  - unfold row_view. rewrite Hr'. destruct (getrow d (m_table m) k) as [r|] eqn:Hr; [|done]. simpl.
    intros Heq. injection Heq as H1 H2. apply (Hne r); congruence.
  - unfold row_view. by rewrite Hr'.
Qed.

(** The columns distinguishing a touched row. *)
Lemma touched_cols j : touched S om d d' j → ∃ cs, (∀ c, c ∈ cs → tracked S om c) ∧
  cols_of cs <$> getrow d' (m_table om) j ≠ cols_of cs <$> getrow d (m_table om) j.
Proof.
  unfold touched. destruct (getrow d (m_table om) j) as [r|], (getrow d' (m_table om) j) as [r1|]; intros Ht.
  - destruct Ht as (c & Htc & Hne). exists [c]. split; [by intros c' ->%elem_of_list_singleton|]. simpl. congruence.
  - exists []. split; [by intros ? ?%elem_of_nil|done].
  - exists []. split; [by intros ? ?%elem_of_nil|done].
  - done.
Qed.

Lemma mark_forward fk j : dep_rel dp = RelForward fk → tracked S m fk → col r' fk = VInt j →
  touched S om d d' j → newly d d' (marker_of m k).
Proof.
  intros Hr Htf Hj Ht. destruct (touched_cols j Ht) as (cs & Hcs & Hne).
  apply (via_noticed [fk] cs); [by intros c ->%elem_of_list_singleton|done|rewrite Hr; by left|].
  intros r Hrr Hfk Heq. simpl in Hfk. injection Hfk as Hfk. unfold dep_view in Heq. rewrite Hfo, Hr, Hfk, Hj in Heq. injection Heq as Heq. done.
Qed.

Lemma mark_backward fk j : dep_rel dp = RelBackward fk → tracked S om fk →
  before_or_after (m_table om) d d' j (λ r, col r fk = VInt k) →
  touched S om d d' j → newly d d' (marker_of m k).
Proof.
  intros Hr Htf Hba Ht. destruct (touched_cols j Ht) as (cs & Hcs & Hne).
  apply (via_noticed [] cs); [by intros c ?%elem_of_nil|done|by rewrite Hr|].
  intros r Hrr _ Heq. unfold dep_view in Heq. rewrite Hfo, Hr in Heq. injection Heq as Heq.
  apply (f_equal (λ g : gmap Z (list val), g !! j)) in Heq. rewrite !lookup_omap in Heq.
  fold (getrow d' (m_table om) j) (getrow d (m_table om) j) in Heq.
  destruct Hba as [(rr & Hg & Hf1)|(rr & Hg & Hf1)]; rewrite Hg in *; simpl in *; rewrite (decide_True (P := col rr fk = VInt k)) in Heq by done.
  - destruct (getrow d' (m_table om) j) as [r1|]; simpl in *; [|done]. case_decide; [|done]. congruence.
  - destruct (getrow d (m_table om) j) as [r1|]; simpl in *; [|done]. case_decide; [|done]. congruence.
Qed.

Lemma mark_generic ctc oidc j : dep_rel dp = RelGenForward ctc oidc → tracked S om ctc → tracked S om oidc →
  before_or_after (m_table om) d d' j (λ r, col r ctc = VInt (m_ct m) ∧ to_text (col r oidc) = Some (pretty k)) →
  touched S om d d' j → newly d d' (marker_of m k).
Proof.
  intros Hr Htc Hto Hba Ht. destruct (touched_cols j Ht) as (cs & Hcs & Hne).
  apply (via_noticed [] cs); [by intros c ?%elem_of_nil|done|by rewrite Hr|].
  intros r Hrr _ Heq. unfold dep_view in Heq. rewrite Hfo, Hr in Heq. injection Heq as Heq.
  apply (f_equal (λ g : gmap Z (list val), g !! j)) in Heq. rewrite !lookup_omap in Heq.
  fold (getrow d' (m_table om) j) (getrow d (m_table om) j) in Heq.
  destruct Hba as [(rr & Hg & Hf1)|(rr & Hg & Hf1)]; rewrite Hg in *; simpl in *;
    rewrite (decide_True (P := col rr ctc = VInt (m_ct m) ∧ to_text (col rr oidc) = Some (pretty k))) in Heq by done.
  - destruct (getrow d' (m_table om) j) as [r1|]; simpl in *; [|done]. case_decide; [|done]. congruence.
  - destruct (getrow d (m_table om) j) as [r1|]; simpl in *; [|done]. case_decide; [|done]. congruence.
Qed.

Lemma mark_link t c rc i : dep_rel dp = RelM2M t c rc →
  before_or_after t d d' i (λ r, col r c = VInt k) → link_touched t c rc d d' i → newly d d' (marker_of m k).
Proof.
  intros Hr Hba Ht.
  apply (via_noticed [] []); [by intros ? ?%elem_of_nil|by intros ? ?%elem_of_nil|by rewrite Hr|].
  intros r Hrr _ Heq. unfold dep_view in Heq. rewrite Hfo, Hr in Heq. injection Heq as Heq.
  apply (f_equal (λ g : gmap Z (val * option (list val)), g !! i)) in Heq. rewrite !lookup_omap in Heq.
  fold (getrow d' t i) (getrow d t i) in Heq. unfold link_touched in Ht.
  destruct Hba as [(rr & Hg & Hf1)|(rr & Hg & Hf1)]; rewrite Hg in *; simpl in *; rewrite (decide_True (P := col rr c = VInt k)) in Heq by done.
  - destruct (getrow d' t i) as [r1|]; simpl in *; [|done]. case_decide; [|done]. naive_solver congruence.
  - destruct (getrow d t i) as [r1|]; simpl in *; [|done]. case_decide; [|done]. naive_solver congruence.
Qed.

Lemma mark_far t c rc i lr j : dep_rel dp = RelM2M t c rc →
  getrow d' t i = Some lr → col lr c = VInt k → col lr rc = VInt j →
  touched S om d d' j → newly d d' (marker_of m k).
Proof.
  intros Hr Hl Hc Hrc Ht. destruct (touched_cols j Ht) as (cs & Hcs & Hne).
  apply (via_noticed [] cs); [by intros ? ?%elem_of_nil|done|by rewrite Hr|].
  intros r Hrr _ Heq. unfold dep_view in Heq. rewrite Hfo, Hr in Heq. injection Heq as Heq.
  apply (f_equal (λ g : gmap Z (val * option (list val)), g !! i)) in Heq. rewrite !lookup_omap in Heq.
  fold (getrow d' t i) (getrow d t i) in Heq. rewrite Hl in Heq. simpl in Heq. rewrite decide_True, Hrc in Heq by done.
  destruct (getrow d t i) as [r1|]; simpl in *; [|done]. case_decide; [|done]. injection Heq as Hv He.
  rewrite <- Hv in He. done.
Qed.
End field.
End marks.
