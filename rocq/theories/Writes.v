(** * What a statement writes (Exec.v, Orm.v).

    INSERT, UPDATE and DELETE write the rows they name; the triggers change only the columns of aggregates and of
    cache keys besides (denorms.py:374-438, dependencies.py:26-236). *)
From Verif Require Import Base BaseLemmas Schema TrigSet Gen GenLemmas Exec Engine Orm Spec Marking Silent.

(** The column belongs to an aggregate or a cache key. *)
Definition kept_up (S : schema) (t c : string) : Prop := ∃ m f, m ∈ s_models S ∧ f ∈ m_fields m ∧ m_table m = t ∧ f_name f = c ∧
  match f_kind f with KAgg _ | KCacheKey _ => True | _ => False end.
(** The rows agree in all other columns. *)
Definition agree (S : schema) (t : string) (r r' : row) : Prop := ∀ c, ¬ kept_up S t c → col r c = col r' c.
Definition same_row (S : schema) (t : string) (x y : option row) : Prop :=
  match x, y with None, None => True | Some r, Some r' => agree S t r r' | _, _ => False end.

Section writes.
Context (E : env) (S : schema).
Context (Htw : ∀ t c, tw E t c → kept_up S t c).
Notation like d d' := (∀ t k, same_row S t (getrow d t k) (getrow d' t k)).
Lemma agree_refl t r : agree S t r r. Proof. done. Qed.
Lemma agree_trans t r1 r2 r3 : agree S t r1 r2 → agree S t r2 r3 → agree S t r1 r3.
Proof. intros H1 H2 c Hc. rewrite (H1 c Hc). by apply H2. Qed.
Lemma same_refl t x : same_row S t x x.
Proof. by destruct x. Qed.
Lemma same_trans t x y z : same_row S t x y → same_row S t y z → same_row S t x z.
Proof. destruct x, y, z; try done. apply agree_trans. Qed.
Lemma skel_like d d' : skel E d d' → like d d'.
Proof. intros H t k. specialize (H t k). destruct (getrow d t k), (getrow d' t k); try done. intros c Hc. apply H. intros Ht. by apply Hc, Htw. Qed.

(** A change of one row, free of side effects. *)
Definition pure (ch : change) : Prop := match ch with CUpd k f => ∃ g : row → row, ∀ d o, f d o = Ok (g o, d) | _ => True end.
(** What it should do, up to the columns kept up. *)
Definition did (t : string) (ch : change) (x y : option row) : Prop :=
  match ch with
  | CIns _ r => x = None ∧ same_row S t (Some r) y
  | CUpd _ f => match x with None => y = None | Some o => ∃ o' r' : row, agree S t o o' ∧ (∀ d, f d o' = Ok (r', d)) ∧ same_row S t (Some r') y end
  | CDel _ => y = None
  end.
Lemma did_same t ch x x' y y' : same_row S t x x' → did t ch x' y' → same_row S t y' y → did t ch x y.
Proof.
  intros Hx H Hy. destruct ch; cbn [did] in *.
  - destruct H as [-> H]. destruct x; [done|]. split; [done|]. by eapply same_trans.
  - destruct x as [o|], x' as [o'|]; try done.
    + destruct H as (o2 & r' & H1 & H2 & H3). exists o2, r'. split_and!; [by eapply agree_trans|done|by eapply same_trans].
    + subst. by destruct y.
  - subst. by destruct y.
Qed.
Lemma apply_did t d ch d' evs : pure ch → apply_change E t d ch = Ok (d', evs) →
  did t ch (getrow d t (ch_key ch)) (getrow d' t (ch_key ch)) ∧ ∀ t' k, ¬ (t' = t ∧ k = ch_key ch) → getrow d' t' k = getrow d t' k.
Proof.
  intros Hp H. destruct ch as [k r|k f|k]; cbn [apply_change ch_key did] in *.
  - destruct (getrow d t k) eqn:Ho; [done|]. case_match; [|done]. injection H as <- <-. rewrite getrow_put_eq. split; [done|]. intros t' k' Hn. by apply getrow_put_ne.
  - destruct Hp as [g Hg]. destruct (getrow d t k) as [o|] eqn:Ho.
    + rewrite Hg in H. cbn [rbind] in H. cbn [fst snd] in H. case_match; [|done]. injection H as <- <-. rewrite getrow_put_eq. split.
      * exists o, (g o). split_and!; [done|intros d0; apply Hg|done].
      * intros t' k' Hn. by apply getrow_put_ne.
    + injection H as <- <-. done.
  - destruct (getrow d t k) as [o|] eqn:Ho.
    + case_match; [|done]. injection H as <- <-. split; [by rewrite getrow_del, decide_True|]. intros t' k' Hn. by rewrite getrow_del, decide_False.
    + by injection H as <- <-.
Qed.
(** The changes in turn, with whatever the triggers do in between. *)
Fixpoint turns (t : string) (cs : list change) (d d' : db) : Prop :=
  match cs with [] => like d d' | ch :: cs => ∃ d1 d2 evs, like d d1 ∧ apply_change E t d1 ch = Ok (d2, evs) ∧ turns t cs d2 d' end.
Lemma turns_first t cs d0 d d' : like d0 d → turns t cs d d' → turns t cs d0 d'.
Proof.
  intros Hl. destruct cs as [|ch cs]; cbn [turns].
  - intros H t' k. by eapply same_trans.
  - intros (d1 & d2 & evs & H1 & H2 & H3). exists d1, d2, evs. split_and!; [|done|done]. intros t' k. by eapply same_trans.
Qed.
Lemma turns_last t cs : ∀ d d1 d', turns t cs d d1 → like d1 d' → turns t cs d d'.
Proof.
  induction cs as [|ch cs IH]; intros d d1 d' H Hl; cbn [turns] in *.
  - intros t' k. by eapply same_trans.
  - destruct H as (d2 & d3 & evs & H1 & H2 & H3). exists d2, d3, evs. split_and!; [done|done|]. by eapply IH.
Qed.
Lemma turns_did t cs : ∀ d d', NoDup (ch_key <$> cs) → Forall pure cs → turns t cs d d' →
  (∀ ch, ch ∈ cs → did t ch (getrow d t (ch_key ch)) (getrow d' t (ch_key ch))) ∧
  ∀ t' k, ¬ (t' = t ∧ k ∈ ch_key <$> cs) → same_row S t' (getrow d t' k) (getrow d' t' k).
Proof.
  induction cs as [|ch cs IH]; intros d d' Hnd Hp H.
  - split; [by intros ? ?%elem_of_nil|]. intros t' k _. apply H.
  - destruct H as (d1 & d2 & evs & H1 & H2 & H3). rewrite fmap_cons in Hnd. apply NoDup_cons in Hnd as [Hn Hnd]. apply Forall_cons in Hp as [Hp1 Hp].
    destruct (IH d2 d' Hnd Hp H3) as [I1 I2]. destruct (apply_did t d1 ch d2 evs Hp1 H2) as [A1 A2]. split.
    + intros c [->|Hc]%elem_of_cons.
      * eapply did_same; [apply H1|exact A1|]. apply I2. by intros [_ ?].
      * specialize (I1 c Hc). eapply did_same; [|exact I1|apply same_refl]. rewrite (A2 t (ch_key c)); [apply H1|]. intros [_ E1]. apply Hn. rewrite <- E1.
        apply elem_of_list_fmap. by exists c.
    + intros t' k Hk. rewrite fmap_cons in Hk. eapply same_trans; [apply H1|]. rewrite <- (A2 t' k); [apply I2; intros [-> ?]; apply Hk; split; [done|by right]|].
      intros [-> ->]. apply Hk. split; [done|]. by left.
Qed.
Lemma fires_like n act d evs d' : foldM (fire E n act) d evs = Ok d' → like d d'.
Proof.
  apply (foldM_rel (λ d d', like d d')); [intros a t k; apply same_refl|intros a b c H1 H2 t k; by eapply same_trans|].
  intros a e a' _ H. by apply skel_like, (fire_skel E n act a e).
Qed.
Lemma apply_turns t cs : ∀ d d' evs, apply_all E t cs d = Ok (d', evs) → turns t cs d d'.
Proof.
  assert (H : ∀ d l d' evs, foldM (λ p c, let* q := apply_change E t p.1 c in Ok (q.1, p.2 ++ q.2)) (d, l) cs = Ok (d', evs) → turns t cs d d').
  { induction cs as [|ch cs IH]; intros d l d' evs H; cbn [foldM] in H.
    - injection H as <- <-. intros t' k. apply same_refl.
    - apply rbind_ok in H as ([d1 l1] & H1 & H2). cbn [fst snd] in H1. apply rbind_ok in H1 as ([d2 l2] & H1 & H3). injection H3 as <- <-. cbn [fst snd] in *.
      exists d, d2, l2. split_and!; [intros t' k; apply same_refl|done|]. by eapply IH. }
  intros d d' evs. apply H.
Qed.
Lemma batch_turns t cs n act d d' : run_batch E (fire E n act) t cs d = Ok d' → turns t cs d d'.
Proof.
  unfold run_batch. intros H. apply rbind_ok in H as ([d1 evs] & H1 & H2). eapply turns_last; [by eapply apply_turns|]. by eapply fires_like.
Qed.
Lemma exec_turns t cs d d' : exec E t cs d = Ok d' → turns t cs d d'.
Proof.
  unfold exec, run_stmt.
  assert (Hs : foldM (λ d c, run_batch E (fire E (e_depth E) []) t [c] d) d cs = Ok d' → turns t cs d d').
  { revert d. induction cs as [|ch cs IH]; intros d H; cbn [foldM] in H; [injection H as <-; intros t' k; apply same_refl|].
    apply rbind_ok in H as (d1 & H1 & H2). apply batch_turns in H1. cbn [turns] in *. destruct H1 as (x1 & x2 & evs & H3 & H4 & H5). exists x1, x2, evs.
    split_and!; [done|done|]. eapply turns_first; [exact H5|by apply IH]. }
  destruct (e_be E); [exact Hs|apply batch_turns|exact Hs].
Qed.
End writes.
(** The three statements. *)
Lemma tw_kept b S rand imm depth E : wf_schema S → mk_env b S rand imm depth = Ok E → ∀ t c, tw E t c → kept_up S t c.
Proof.
  intros Hwf HE t c Ht. assert (∃ l, gen_all S = Ok l) as [l Hl].
  { unfold mk_env in HE. apply rbind_ok in HE as (its & Hi & _). destruct (installed_ok _ _ _ Hi) as (l & Hl & _). by exists l. }
  destruct (tw_spec b S rand imm depth E l Hwf HE Hl t c Ht) as (m & f & H1 & H2 & H3 & H4 & H5). exists m, f. split_and!; try done.
  unfold plain_or_callback in H5. by destruct (f_kind f); try (by destruct H5).
Qed.
Section ops.
Context (E : env) (S : schema).
Context (Htw : ∀ t c, tw E t c → kept_up S t c).
Lemma insert_did t rows d d' : run_op E S (OInsert t rows) d = Ok d' → NoDup rows.*1 ∧
  (∀ k r, (k, r) ∈ rows → getrow d t k = None ∧ same_row S t (Some r) (getrow d' t k)) ∧
  ∀ t' k, ¬ (t' = t ∧ k ∈ rows.*1) → same_row S t' (getrow d t' k) (getrow d' t' k).
Proof.
  cbn [run_op]. intros H. destruct (exec_ins_nodup E t rows d d' H) as [Hnd _].
  assert (Hk : ch_key <$> ((λ p : Z * row, CIns p.1 p.2) <$> rows) = rows.*1) by (by rewrite <- list_fmap_compose).
  assert (Hp : Forall pure ((λ p : Z * row, CIns p.1 p.2) <$> rows)) by (apply Forall_fmap, Forall_forall; done).
  destruct (turns_did E S t _ d d' ltac:(by rewrite Hk) Hp (exec_turns E S Htw t _ d d' H)) as [D1 D2]. split; [done|]. split.
  - intros k r Hr. apply (D1 (CIns k r)). apply elem_of_list_fmap. by exists (k, r).
  - intros t' k Hn. apply D2. by rewrite Hk.
Qed.
Lemma update_did t ks g d d' : run_op E S (OUpdate t ks g) d = Ok d' →
  (∀ k, k ∈ ks → match getrow d t k with None => getrow d' t k = None | Some o => ∃ o', agree S t o o' ∧ same_row S t (Some (g o')) (getrow d' t k) end) ∧
  ∀ t' k, ¬ (t' = t ∧ k ∈ ks) → same_row S t' (getrow d t' k) (getrow d' t' k).
Proof.
  cbn [run_op]. intros H. set (cs := (λ k, CUpd k (λ d o, Ok (g o, d))) <$> remove_dups ks) in H.
  assert (Hk : ch_key <$> cs = remove_dups ks) by (unfold cs; rewrite <- list_fmap_compose; apply list_fmap_id).
  assert (Hp : Forall pure cs) by (apply Forall_fmap, Forall_forall; intros k _; by exists g).
  destruct (turns_did E S t cs d d' ltac:(rewrite Hk; apply NoDup_remove_dups) Hp (exec_turns E S Htw t cs d d' H)) as [D1 D2]. split.
  - intros k Hin. assert (Hc : CUpd k (λ d o, Ok (g o, d)) ∈ cs) by (apply elem_of_list_fmap; exists k; split; [done|by apply elem_of_remove_dups]).
    specialize (D1 _ Hc). cbn [did ch_key] in D1. destruct (getrow d t k) as [o|]; [|done]. destruct D1 as (o' & r' & H1 & H2 & H3).
    exists o'. split; [done|]. specialize (H2 d). by injection H2 as ->.
  - intros t' k Hn. apply D2. rewrite Hk, elem_of_remove_dups. done.
Qed.
Lemma delete_did t ks d d' : run_op E S (ODelete t ks) d = Ok d' →
  (∀ k, k ∈ ks → getrow d' t k = None) ∧ ∀ t' k, ¬ (t' = t ∧ k ∈ ks) → same_row S t' (getrow d t' k) (getrow d' t' k).
Proof.
  cbn [run_op]. intros H. assert (Hk : ch_key <$> (CDel <$> remove_dups ks) = remove_dups ks) by (rewrite <- list_fmap_compose; apply list_fmap_id).
  assert (Hp : Forall pure (CDel <$> remove_dups ks)) by (apply Forall_fmap, Forall_forall; done).
  destruct (turns_did E S t _ d d' ltac:(rewrite Hk; apply NoDup_remove_dups) Hp (exec_turns E S Htw t _ d d' H)) as [D1 D2]. split.
  - intros k Hin. apply (D1 (CDel k)). apply elem_of_list_fmap. exists k. split; [done|]. by apply elem_of_remove_dups.
  - intros t' k Hn. apply D2. rewrite Hk, elem_of_remove_dups. done.
Qed.
End ops.
