(** * Deciding the conditions of SpecOrder.v on concrete schemas and databases.
    No modelling here: boolean checks proved sound, used by the examples. *)
From stdpp Require Import relations.
From Verif Require Import Base BaseLemmas Schema TrigSet Gen Exec Spec SpecAgg SpecOrder GenLemmas Orm Flush Check ExAgg.

Definition rows_of (d : db) (t : string) : list (Z * row) := map_to_list (tab d t).
Lemma rows_of_in d t k r : getrow d t k = Some r → (k, r) ∈ rows_of d t.
Proof. intros H. by apply elem_of_map_to_list. Qed.

Section check.
Context (S : schema).

Definition callback_colb (m : model) (c : string) : bool :=
  existsb (λ f, bool_decide (f_col f = c) && match f_kind f with KCallback _ _ _ => true | _ => false end) (m_fields m).
Lemma callback_colb_spec m c : callback_colb m c = true → callback_col m c.
Proof.
  intros H. apply exb_spec in H as (f & Hf & H). bsplit. destruct (f_kind f) as [| |fn ds sk|a|ds] eqn:Hk; try done. by exists f, fn, ds, sk.
Qed.
Lemma callback_colb_complete m c : callback_col m c → callback_colb m c = true.
Proof.
  intros (f & fn & ds & sk & Hf & Hc & Hk). eapply exb_intro; [exact Hf|]. rewrite Hk, bool_decide_true by done. done.
Qed.

(** ** value_acyclic *)
Definition steadyb (d : db) (o : model) (j : Z) (c : string) : bool :=
  plain_colb o c ||
  existsb (λ g, bool_decide (f_col g = c) && match f_kind g with
    | KAgg a => match find_model S (ag_rel a) with
                | Some rel => agg_fieldb S o a && forallb (plain_colb rel) (agg_cols a) &&
                    match getrow d (m_table o) j with Some r => match col r c with VInt _ => true | _ => false end | None => true end
                | None => false end
    | _ => false end) (m_fields o).
Lemma steadyb_spec d o j c : o ∈ s_models S → steadyb d o j c = true → steady S d o j c.
Proof.
  intros Ho H. apply orb_true_iff in H as [H|H]; [left; by apply plain_colb_spec|right].
  apply exb_spec in H as (g & Hg & H). bsplit. destruct (f_kind g) as [| | |a|] eqn:Hk; try done.
  destruct (find_model S (ag_rel a)) as [rel|] eqn:Hrel; [|done]. bsplit. exists g, a, rel.
  split; [by apply agg_fieldb_spec|]. split; [done|]. split.
  - intros c' Hc'. apply plain_colb_spec. by eapply allb_spec.
  - intros r Hr. rewrite Hr in *. destruct (col r c); try done. eauto.
Qed.
Definition lessb (ρ : string → Z → string → nat) (d : db) (m : model) (k : Z) (c0 : string) (o : model) (j : Z) (c : string) : bool :=
  steadyb d o j c || (callback_colb o c && bool_decide (ρ (m_table o) j c < ρ (m_table m) k c0)%nat).
Definition viab (ρ : string → Z → string → nat) (d : db) (m : model) (k : Z) (r : row) (c0 : string) (p : dep * list string) : bool :=
  match find_model S (dep_other p.1) with
  | None => true
  | Some o =>
    match dep_rel p.1 with
    | RelForward fk => plain_colb m fk && match col r fk with VInt j => forallb (lessb ρ d m k c0 o j) p.2 | _ => true end
    | RelBackward fk => plain_colb o fk && forallb (λ x : Z * row, negb (bool_decide (col x.2 fk = VInt k)) ||
        forallb (lessb ρ d m k c0 o x.1) (fk :: p.2)) (rows_of d (m_table o))
    | RelM2M t lc rc => forallb (λ x : Z * row, negb (bool_decide (col x.2 lc = VInt k)) ||
        match col x.2 rc with VInt j => forallb (lessb ρ d m k c0 o j) p.2 | _ => true end) (rows_of d t)
    | RelGenForward ctc oidc => plain_colb o ctc && plain_colb o oidc && forallb (λ x : Z * row,
        negb (bool_decide (col x.2 ctc = VInt (m_ct m) ∧ to_text (col x.2 oidc) = Some (pretty k))) ||
        forallb (lessb ρ d m k c0 o x.1) (ctc :: oidc :: p.2)) (rows_of d (m_table o))
    | RelGenBackward _ _ => true
    end
  end.
Definition value_acyclicb (ρ : string → Z → string → nat) (rds : model → field → reads) (d : db) : bool := forallb (λ x,
  match f_kind x.2 with
  | KCallback fn ds sk =>
      forallb (λ p : dep * list string, bool_decide (p.1 ∈ ds)) (rd_via (rds x.1 x.2)) &&
      forallb (λ y : Z * row, forallb (lessb ρ d x.1 y.1 (f_col x.2) x.1 y.1) (own_cols (rds x.1 x.2)) &&
        forallb (viab ρ d x.1 y.1 y.2 (f_col x.2)) (rd_via (rds x.1 x.2))) (rows_of d (m_table x.1))
  | _ => true
  end) (all_fields S).
Lemma lessb_spec ρ d m k c0 o j c : o ∈ s_models S → lessb ρ d m k c0 o j c = true →
  steady S d o j c ∨ (callback_col o c ∧ (ρ (m_table o) j c < ρ (m_table m) k c0)%nat).
Proof.
  intros Ho H. apply orb_true_iff in H as [H|H]; [left; by apply steadyb_spec|right]. bsplit. split; [by apply callback_colb_spec|done].
Qed.
Lemma value_acyclicb_spec ρ rds d : value_acyclicb ρ rds d = true → reads_all S rds → value_acyclic S ρ d.
Proof.
  intros H Hr m f fn ds sk k r Hm Hf Hk Hrow. exists (rds m f). split; [by eapply Hr|].
  pose proof (all_fields_in S _ _ Hm Hf) as Hin. allb H (m, f) as B. rewrite Hk in B. apply andb_true_iff in B as [B1 B2]. split.
  - intros dp cs Hd. allb B1 (dp, cs) as C. by bsplit.
  - apply rows_of_in in Hrow. allb B2 (k, r) as C. apply andb_true_iff in C as [C1 C2].
    intros o j c Hc. destruct Hc as [c Hc|dp cs o fk j c Hd Ho Hrel Hfk Hc|dp cs o fk j r' c Hd Ho Hrel Hr' Hfk Hc|
      dp cs o t lc rc l lr j c Hd Ho Hrel Hlr Hlc Hrc Hc|dp cs o ctc oidc j r' c Hd Ho Hrel Hr' Hct Hoid Hc].
    + apply lessb_spec; [done|]. by eapply allb_spec.
    + pose proof (proj1 (find_model_in _ _ _ Ho)) as Hom. allb C2 (dp, cs) as D. unfold viab in D. simpl in D. rewrite Ho, Hrel in D. bsplit.
      rewrite Hfk in * by (by apply plain_colb_spec). apply lessb_spec; [done|]. by eapply allb_spec.
    + pose proof (proj1 (find_model_in _ _ _ Ho)) as Hom. allb C2 (dp, cs) as D. unfold viab in D. simpl in D. rewrite Ho, Hrel in D.
      apply andb_true_iff in D as [D1 D2]. apply rows_of_in in Hr'. pose proof (allb_spec _ _ D2 (j, r') Hr') as F. cbn beta iota delta [fst snd] in F.
      apply plain_colb_spec in D1. apply orb_true_iff in F as [F|F]; [bsplit; by destruct F; apply Hfk|].
      apply lessb_spec; [done|]. by apply (allb_spec (lessb ρ d m k (f_col f) o j) (fk :: cs) F).
    + pose proof (proj1 (find_model_in _ _ _ Ho)) as Hom. allb C2 (dp, cs) as D. unfold viab in D. simpl in D. rewrite Ho, Hrel in D.
      apply rows_of_in in Hlr. pose proof (allb_spec _ _ D (l, lr) Hlr) as F. cbn beta iota delta [fst snd] in F.
      apply orb_true_iff in F as [F|F]; [by bsplit|]. rewrite Hrc in F. apply lessb_spec; [done|]. by apply (allb_spec _ _ F).
    + pose proof (proj1 (find_model_in _ _ _ Ho)) as Hom. allb C2 (dp, cs) as D. unfold viab in D. simpl in D. rewrite Ho, Hrel in D.
      apply andb_true_iff in D as [D1 D2]. apply andb_true_iff in D1 as [D0 D1]. apply rows_of_in in Hr'.
      pose proof (allb_spec _ _ D2 (j, r') Hr') as F. cbn beta iota delta [fst snd] in F.
      apply plain_colb_spec in D0. apply plain_colb_spec in D1.
      apply orb_true_iff in F as [F|F]; [bsplit; by destruct F; split; [apply Hct|apply Hoid]|].
      apply lessb_spec; [done|]. by apply (allb_spec (lessb ρ d m k (f_col f) o j) (ctc :: oidc :: cs) F).
Qed.

(** ** no_self_relation *)
Definition no_self_relationb (d : db) : bool := forallb (λ x : model * field * dep,
  negb (bool_decide (dep_other x.2 = m_name x.1.1)) ||
  forallb (λ y : Z * row,
    match dep_rel x.2 with
    | RelForward fk | RelBackward fk => negb (bool_decide (col y.2 fk = VInt y.1))
    | RelM2M t c rc => forallb (λ z : Z * row, negb (bool_decide (col z.2 c = VInt y.1 ∧ col z.2 rc = VInt y.1))) (rows_of d t)
    | RelGenForward ctc oidc => negb (bool_decide (col y.2 ctc = VInt (m_ct x.1.1) ∧ to_text (col y.2 oidc) = Some (pretty y.1)))
    | RelGenBackward _ _ => true
    end) (rows_of d (m_table x.1.1))) (all_deps S).
Lemma no_self_relationb_spec d : no_self_relationb d = true → no_self_relation S d.
Proof.
  intros H m f fn ds sk dp k r Hm Hf Hk Hd Hr [Ho Hrel]. assert (Hd' : dp ∈ field_deps f) by (unfold field_deps; by rewrite Hk).
  pose proof (all_deps_in S _ _ _ Hm Hf Hd') as Hin. pose proof (allb_spec _ _ H (m, f, dp) Hin) as B. cbn beta iota delta [fst snd] in B.
  apply orb_true_iff in B as [B|B]; bsplit; [done|]. apply rows_of_in in Hr. pose proof (allb_spec _ _ B (k, r) Hr) as C. cbn beta iota delta [fst snd] in C.
  destruct (dep_rel dp); try by bsplit. destruct Hrel as (l & lr & Hlr & H1 & H2). apply rows_of_in in Hlr.
  pose proof (allb_spec _ _ C (l, lr) Hlr) as D. cbn beta in D. bsplit. by destruct D.
Qed.

(** ** calm *)
(** [cl t]: the tables whose rows triggers update, directly or not, when rows of [t]
    change; checked to be closed. *)
Definition edges : list (string * string) := m ← s_models S; (λ t, (t, m_table m)) <$> upd_sources S m.
Lemma edges_in t t' : updates S t t' → (t, t') ∈ edges.
Proof.
  intros [m t0 Hm Hu]. apply elem_of_list_bind. exists m. split; [|done]. apply elem_of_list_fmap. exists t0. split; [done|]. by apply upd_sources_in.
Qed.
Definition closedb (cl : string → list string) : bool := forallb (λ e : string * string,
  bool_decide (e.2 ∈ cl e.1) && forallb (λ t, bool_decide (t ∈ cl e.1)) (cl e.2)) edges.
Lemma closedb_spec cl t t' : closedb cl = true → tc (updates S) t t' → t' ∈ cl t.
Proof.
  intros H. induction 1 as [t t' He|t t1 t' He _ IH]; apply edges_in in He; pose proof (allb_spec _ _ H _ He) as B; cbn beta iota delta [fst snd] in B; bsplit; [done|].
  pose proof (allb_spec _ _ H1 _ IH) as C. cbn beta in C. by bsplit.
Qed.
Definition dep_edges : list (string * Z) := x ← all_fields S;
  match f_kind x.2 with
  | KCallback _ ds _ => dp ← ds; match find_model S (dep_other dp) with
      | Some o => (m_table o, m_ct x.1) :: match dep_rel dp with RelM2M t _ _ => [(t, m_ct x.1)] | _ => [] end
      | None => [] end
  | _ => []
  end.
Lemma dep_edges_in t ct : dep_edge S t ct → (t, ct) ∈ dep_edges.
Proof.
  intros H. apply elem_of_list_bind. destruct H as [m f fn ds sk dp o Hm Hf Hk Hd Ho|m f fn ds sk dp o t c rc Hm Hf Hk Hd Ho Hr];
    exists (m, f); (split; [|by apply all_fields_in]); simpl; rewrite Hk; apply elem_of_list_bind; exists dp; (split; [|done]); rewrite Ho; [by left|].
  rewrite Hr. right. by left.
Qed.
Definition echoes (cl : string → list string) (m : model) : list Z :=
  (omap (λ e : string * Z, if decide (e.1 = m_table m ∨ e.1 ∈ cl (m_table m)) then Some e.2 else None) dep_edges) ++
  (omap (λ x : model * field, match f_kind x.2 with
     | KCallback _ _ _ => if decide (m_table x.1 ∈ cl (m_table m)) then Some (m_ct x.1) else None
     | _ => None end) (all_fields S)).
Lemma echoes_in cl m ct : closedb cl = true → echo S m ct → ct ∈ echoes cl m.
Proof.
  intros Hcl H. apply elem_of_app. destruct H as [He|t Ht He|m' c Ht Hm' Hc ->].
  - left. apply elem_of_list_omap. exists (m_table m, ct). split; [by apply dep_edges_in|]. simpl. rewrite decide_True by (by left). done.
  - left. apply elem_of_list_omap. exists (t, ct). split; [by apply dep_edges_in|]. simpl. rewrite decide_True; [done|]. right. by eapply closedb_spec.
  - right. destruct Hc as (f & fn & ds & sk & Hf & _ & Hk). apply elem_of_list_omap. exists (m', f). split; [by apply all_fields_in|]. simpl. rewrite Hk.
    rewrite decide_True; [done|]. by eapply closedb_spec.
Qed.
Definition restlessb (b : backend) (m : model) : bool :=
  existsb (λ g, match f_kind g with KAutoNow | KCacheKey _ => watchedb S (m_table m) (f_col g) | _ => false end) (m_fields m) ||
  match b with
  | Postgres => existsb (λ g : string * string * Z, bool_decide (g.1.1 = m_table m)) (gens S)
  | MySQL => existsb (λ sk, bool_decide (m_pk m ∈ (if decide (sk = []) then m_always_skip m else sk))) (skips S m)
  | SQLite => false
  end.
Lemma restlessb_complete b m : restless b S m → restlessb b m = true.
Proof.
  unfold restlessb. intros H. apply orb_true_iff. destruct H as [g Hg Hk Hw|g ds Hg Hk Hw|cf ct -> Hg|sk -> Hsk Hsb].
  - left. eapply exb_intro; [exact Hg|]. rewrite Hk. by apply watchedb_spec.
  - left. eapply exb_intro; [exact Hg|]. rewrite Hk. by apply watchedb_spec.
  - right. apply gens_in in Hg. eapply exb_intro; [exact Hg|]. simpl. by rewrite bool_decide_true.
  - right. apply skips_in in Hsk. eapply exb_intro; [exact Hsk|]. by rewrite bool_decide_true.
Qed.
Definition calmb (b : backend) (σ : Z → nat) (cl : string → list string) : bool :=
  closedb cl && forallb (λ m, negb (restlessb b m) || forallb (λ ct, bool_decide (σ ct < σ (m_ct m))%nat) (echoes cl m)) (s_models S).
Lemma calmb_spec b σ cl : calmb b σ cl = true → calm b S σ.
Proof.
  unfold calmb. rewrite andb_true_iff. intros [Hcl H] m ct Hm Hre He. pose proof (allb_spec _ _ H _ Hm) as B. cbn beta in B.
  apply orb_true_iff in B as [B|B]; [apply restlessb_complete in Hre; bsplit; congruence|].
  pose proof (echoes_in _ _ _ Hcl He) as Hin. pose proof (allb_spec _ _ B _ Hin) as C. cbn beta in C. by bsplit.
Qed.
End check.
