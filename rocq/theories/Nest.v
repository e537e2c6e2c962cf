(** * Triggers do not nest without end.

    If the immediate updates of aggregates and cache keys flow between the tables without
    a cycle, no statement, save or flush fails for the nesting of triggers: neither for the
    depth nor because a trigger writes a table in use. *)
From Verif Require Import Base BaseLemmas Schema TrigSet Gen Exec Orm Flush Machine Spec Engine GenLemmas Marking Conditions Invariant Settle Sessions Hist.

Definition nest_error (e : exn) : Prop := e = EDepth ∨ e = ETableInUse.
(** The functions of the application raise no such exception themselves. *)
Definition calm_nest (S : schema) : Prop := ∀ m e, m ∈ s_models S → nest_error e →
  (∀ f fn ds sk, f ∈ m_fields m → f_kind f = KCallback fn ds sk → ∀ d pk r, fn d pk r ≠ Err e) ∧
  (∀ mm fn ds, mm ∈ m_m2m m → mm_denorm mm = Some (fn, ds) → ∀ d pk r, fn d pk r ≠ Err e).
(** The exception a step of a history raises. *)
Definition step_error (E : env) (S : schema) (h : hop) (d : db) : option exn :=
  let of_flush (o : outcome) := match o with Raised e => Some e | _ => None end in
  match h with
  | HOp o => match run_op E S o d with Err e => Some e | Ok _ => None end
  | HFlush ord n => of_flush (flush E S ord n d).2
  | HRebuild ord n mn fn => of_flush (rebuildall E S ord n mn fn d).2
  end.

(** ** Results that are no such exception *)
Definition nb {A} (x : res A) : Prop := ∀ e, x = Err e → ¬ nest_error e.
Lemma nb_ok {A} (x : A) : nb (Ok x). Proof. done. Qed.
Lemma nb_err {A} e : ¬ nest_error e → nb (Err (A := A) e). Proof. by intros H e' [= <-]. Qed.
Lemma nb_bind {A B} (x : res A) (g : A → res B) : nb x → (∀ a, x = Ok a → nb (g a)) → nb (rbind x g).
Proof. intros H1 H2. destruct x as [a|e]; simpl; [by apply H2|]. intros e' [= <-]. by apply H1. Qed.
Lemma nb_foldM {A B} (g : A → B → res A) xs : (∀ d x, x ∈ xs → nb (g d x)) → ∀ d, nb (foldM g d xs).
Proof.
  induction xs as [|x xs IH]; intros H d; [apply nb_ok|]. rewrite foldM_cons. apply nb_bind; [apply H; left|]. intros a _. apply IH. intros. apply H. by right.
Qed.
Lemma nb_if {A} (c : bool) (x y : res A) : nb x → nb y → nb (if c then x else y). Proof. by destruct c. Qed.
Ltac nbe := first [apply nb_ok|apply nb_err; by intros [?|?]].

Section nest.
Context (E : env) (rank : string → nat) (Hac : acyclic E rank).

Lemma expr_nb e x d v : nb (expr_val E e x d v).
Proof.
  assert (Ha : ∀ v w s, nb (arith v w s)) by (intros v' w s; unfold arith; repeat case_match; nbe).
  destruct x; simpl; try nbe; (apply nb_bind; [apply Ha|intros; nbe]).
Qed.
Definition ch_nb (ch : change) : Prop := match ch with CUpd _ g => ∀ d o, nb (g d o) | _ => True end.
Lemma change_nb t d ch : ch_nb ch → nb (apply_change E t d ch).
Proof.
  intros Hc. destruct ch; simpl; (destruct (getrow d t k); [|try nbe]); try nbe.
  - apply nb_if; nbe.
  - apply nb_bind; [apply Hc|]. intros p _. apply nb_if; nbe.
  - apply nb_if; nbe.
Qed.
Lemma change_tab t d ch d' evs : apply_change E t d ch = Ok (d', evs) → ∀ e, e ∈ evs → ev_tab e = t.
Proof.
  destruct ch; simpl; intros H e He; destruct (getrow d t k); try done.
  - destruct (_ || _); [|done]. injection H as <- <-. by apply elem_of_list_singleton in He as ->.
  - inv_bind H. destruct (_ || _); [|done]. injection H as <- <-. by apply elem_of_list_singleton in He as ->.
  - injection H as <- <-. by apply elem_of_nil in He.
  - destruct (_ || _); [|done]. injection H as <- <-. by apply elem_of_list_singleton in He as ->.
  - injection H as <- <-. by apply elem_of_nil in He.
Qed.
Lemma all_nb t cs : Forall ch_nb cs → ∀ d, nb (apply_all E t cs d) ∧ ∀ d' evs, apply_all E t cs d = Ok (d', evs) → ∀ e, e ∈ evs → ev_tab e = t.
Proof.
  induction cs as [|ch cs IH]; intros Hcs d.
  - split; [nbe|]. intros d' evs [= <- <-] e He. by apply elem_of_nil in He.
  - apply Forall_cons in Hcs as [H1 H2]. rewrite apply_all_cons. split.
    + apply nb_bind; [by apply change_nb|]. intros [d1 e1] _. simpl. apply nb_bind; [by apply IH|]. intros [d2 e2] _. nbe.
    + intros d' evs H e He. inv_bind H. destruct a as [d1 e1]. simpl in H. inv_bind H. destruct a as [d2 e2]. simpl in H. injection H as <- <-.
      apply elem_of_app in He as [He|He]; [by eapply change_tab|]. by eapply (IH H2).
Qed.
Lemma batch_nb fr t cs d : Forall ch_nb cs → (∀ d e, ev_tab e = t → nb (fr d e)) → nb (run_batch E fr t cs d).
Proof.
  intros Hcs Hfr. unfold run_batch. destruct (all_nb t cs Hcs d) as [H1 H2]. apply nb_bind; [done|]. intros [d1 evs] Ha. simpl.
  apply nb_foldM. intros d2 e He. apply Hfr. by eapply H2.
Qed.
Lemma stmt_nb fr t cs d : Forall ch_nb cs → (∀ d e, ev_tab e = t → nb (fr d e)) → nb (run_stmt E fr t cs d).
Proof.
  intros Hcs Hfr. unfold run_stmt. assert (H : nb (foldM (λ d c, run_batch E fr t [c] d) d cs)).
  { apply nb_foldM. intros d1 ch Hch. apply batch_nb; [|done]. apply Forall_singleton. by eapply Forall_forall in Hcs. }
  destruct (e_be E); [done| |done]. by apply batch_nb.
Qed.
Lemma fire_nb n : ∀ act d e, (rank (ev_tab e) < n)%nat → (∀ t, t ∈ act.*2 → (rank (ev_tab e) < rank t)%nat) → nb (fire E n act d e).
Proof.
  induction n as [|n IH]; intros act d e Hn Hact; [lia|]. simpl. apply nb_foldM. intros d1 tr Htr.
  destruct (trig_applies E act e tr) eqn:Hap; [|nbe]. apply nb_foldM. intros d2 x Hx.
  assert (Htab : i_tab tr = ev_tab e).
  { unfold trig_applies in Hap. rewrite !andb_true_iff, !bool_decide_eq_true in Hap. by destruct Hap as (((? & _) & _) & _). }
  destruct x as [| |t c ex w]; simpl; [nbe|nbe|]. pose proof (Hac _ _ _ _ _ Htr Hx) as Hr. rewrite Htab in Hr.
  assert (Hlt : ∀ t', t' ∈ ((i_name tr, i_tab tr) :: act).*2 → (rank t < rank t')%nat).
  { intros t' Ht'. apply elem_of_cons in Ht' as [->|Ht']; [simpl; by rewrite Htab|]. specialize (Hact _ Ht'). lia. }
  rewrite decide_False by (intros [_ Ht]; specialize (Hlt _ Ht); lia). apply stmt_nb.
  - apply Forall_forall. intros ch Hch. apply elem_of_list_fmap in Hch as ([k r] & -> & _). simpl. intros d3 o. apply nb_bind; [apply expr_nb|intros; nbe].
  - intros d3 e3 He3. apply IH; rewrite He3; [lia|done].
Qed.
Context (Hdepth : ∀ t, (rank t < e_depth E)%nat).
Lemma exec_nb t cs d : Forall ch_nb cs → nb (exec E t cs d).
Proof. intros Hcs. apply stmt_nb; [done|]. intros d1 e _. apply fire_nb; [apply Hdepth|]. by intros t' ?%elem_of_nil. Qed.

(** ** Saving *)
Context (S : schema) (Hcalm : calm_nest S).
Lemma presave_nb m add pk d r : m ∈ s_models S → nb (presave_all E m add pk d r).
Proof.
  intros Hm. apply nb_foldM. intros p f Hf. unfold presave_field. destruct (f_kind f) as [| |fn ds sk| |] eqn:Hk; [nbe|nbe| | |nbe].
  - apply nb_bind; [intros e He Hn; destruct (Hcalm m e Hm Hn) as [Hc _]; by eapply Hc|]. intros pv _.
    apply nb_bind; [unfold store_value; repeat case_match; nbe|intros; nbe].
  - repeat case_match; nbe.
Qed.
Lemma ins_nb n rs : Forall ch_nb (number n rs).
Proof. revert n. induction rs; intros n; simpl; constructor; [done|auto]. Qed.
Lemma m2m_nb m pk r d : m ∈ s_models S → nb (m2m_pre_save E m pk r d).
Proof.
  intros Hm. unfold m2m_pre_save. destruct pk as [k|]; [|nbe]. case_decide; [nbe|]. apply nb_foldM. intros d1 mm Hmm.
  destruct (mm_denorm mm) as [[fn ds]|] eqn:Hd; [|nbe]. apply nb_bind; [intros e He Hn; destruct (Hcalm m e Hm Hn) as [_ Hc]; by eapply Hc|].
  intros vals _. unfold m2m_set. apply nb_bind; [apply exec_nb|].
  - apply Forall_forall. intros ch Hch. by apply elem_of_list_fmap in Hch as (y & -> & _).
  - intros d2 _. apply exec_nb, ins_nb.
Qed.
Lemma save_existing_nb m k r d : m ∈ s_models S → nb (save_existing E m k r d).
Proof.
  intros Hm. unfold save_existing. apply nb_bind; [by apply m2m_nb|]. intros d1 _. apply nb_bind; [by apply presave_nb|]. intros p _.
  apply nb_bind; [apply exec_nb, Forall_singleton; simpl; intros; nbe|intros; nbe].
Qed.
Lemma post_nb m k r d : m ∈ s_models S → nb (post_save_created E m k r d).
Proof. intros Hm. unfold post_save_created. case_match; [by apply save_existing_nb|nbe]. Qed.
Lemma save_nb m pk r d : m ∈ s_models S → nb (save E m pk r d).
Proof.
  intros Hm. unfold save. destruct pk as [k|]; [destruct (getrow d (m_table m) k)|].
  - apply nb_bind; [by apply save_existing_nb|intros; nbe].
  - apply nb_bind; [by apply m2m_nb|]. intros d1 _. apply nb_bind; [by apply presave_nb|]. intros p _. apply nb_bind; [by apply presave_nb|]. intros q _.
    apply nb_bind; [by apply exec_nb, Forall_singleton|]. intros d2 _. apply nb_bind; [by apply post_nb|intros; nbe].
  - apply nb_bind; [by apply presave_nb|]. intros q _. apply nb_bind; [by apply exec_nb, Forall_singleton|]. intros d2 _. apply nb_bind; [by apply post_nb|intros; nbe].
Qed.
Lemma op_nb o d : nb (run_op E S o d).
Proof.
  destruct o as [mn pk r|t rows|t ks g|t ks]; simpl.
  - destruct (find_model S mn) as [m|] eqn:Hm; [|nbe]. apply nb_bind; [apply save_nb; by eapply find_model_in|intros; nbe].
  - apply exec_nb, Forall_forall. intros ch Hch. by apply elem_of_list_fmap in Hch as (y & -> & _).
  - apply exec_nb, Forall_forall. intros ch Hch. apply elem_of_list_fmap in Hch as (y & -> & _). simpl. intros; nbe.
  - apply exec_nb, Forall_forall. intros ch Hch. by apply elem_of_list_fmap in Hch as (y & -> & _).
Qed.
Lemma process_nb mk d : nb (process E S mk d).
Proof.
  unfold process, process_save. apply nb_bind; [|intros; nbe]. apply nb_bind.
  - unfold content_object. repeat case_match; nbe.
  - intros [[[m k] r]|] Hco; [|nbe]. case_match; [|nbe]. destruct (content_object_some _ _ _ _ _ _ Hco) as (Hm & _).
    apply nb_bind; [by apply save_existing_nb|intros; nbe].
Qed.
Lemma flush_nb ord n d e : (flush E S ord n d).2 = Raised e → ¬ nest_error e.
Proof.
  assert (Hpass : ∀ ml d e, (flush_pass E S ml d).2 = Raised e → ¬ nest_error e).
  { induction ml as [|mk ml IH]; intros d1 e1 H; simpl in H; [done|]. pose proof (process_nb mk d1) as Hp. destruct (process E S mk d1) as [d2|e2]; [by eapply IH|].
    simpl in H. injection H as <-. by apply Hp. }
  revert d. induction n as [|n IH]; intros d H; simpl in H; [done|]. case_decide; [done|].
  pose proof (Hpass (snapshot E ord d) d) as Hp. destruct (flush_pass E S (snapshot E ord d) d) as [d1 [|er|]]; simpl in *; [by eapply IH| |done].
  injection H as <-. by apply Hp.
Qed.
Lemma step_nb h d e : step_error E S h d = Some e → ¬ nest_error e.
Proof.
  destruct h as [o|ord n|ord n mn fn]; simpl; intros H.
  - pose proof (op_nb o d) as Ho. destruct (run_op E S o d); [done|]. injection H as <-. by apply Ho.
  - destruct (flush E S ord n d).2 eqn:Hf; try done. injection H as <-. by eapply flush_nb.
  - unfold rebuildall in H. destruct (flush E S ord n _).2 eqn:Hf; try done. injection H as <-. by eapply flush_nb.
Qed.
End nest.

Lemma no_nest_error b S rand imm depth E rank h d e : wf_schema S → names_apart S → mk_env b S rand imm depth = Ok E →
  upd_acyclic S rank → (∀ t, (rank t < depth)%nat) → calm_nest S → step_error E S h d = Some e → ¬ nest_error e.
Proof.
  intros Hwf Hna HE Hac Hd Hcalm. destruct (mk_env_gen _ _ _ _ _ _ HE) as [l Hl].
  assert (Hdep : e_depth E = depth) by (unfold mk_env in HE; inv_bind HE; by injection HE as <-).
  apply (step_nb E rank); [|by rewrite Hdep|done]. eapply (upd_acyclic_ok b S rand imm depth E l Hwf HE Hl); [|done]. by eapply names_apart_ok.
Qed.
Lemma no_nest_errors b S rand imm depth E rank h d e : wf_schema S → names_apart S → mk_env b S rand imm depth = Ok E →
  upd_acyclic S rank → (∀ t, (rank t < depth)%nat) → calm_nest S → step_error E S h d = Some e → e ≠ EDepth ∧ e ≠ ETableInUse.
Proof.
  intros Hwf Hna HE Hac Hd Hcalm H. assert (Hn : ¬ nest_error e) by (by eapply no_nest_error). split; intros ->; apply Hn; [by left|by right].
Qed.
