(** * When install_triggers succeeds: every model a declaration names exists, no update trigger
    watches nothing, and on SQLite no lookup of an aggregate binds a value. *)
From Verif Require Import Base BaseLemmas Schema TrigSet Gen Exec Orm Spec Engine GenLemmas Marking Conditions Invariant Settle Sessions Silent Meta.
Open Scope list_scope.

(** ** Specification *)
(** Every model named by a dependency or by the manager of an aggregate is installed. *)
Definition resolvable (S : schema) : Prop := ∀ m f, m ∈ s_models S → f ∈ m_fields m →
  (∀ dp, dp ∈ field_deps f → is_Some (find_model S (dep_other dp))) ∧
  (∀ a, f_kind f = KAgg a → is_Some (find_model S (ag_rel a))).
(** No declaration skips all columns of a model. *)
Definition watches_some (S : schema) : Prop := ∀ m sk, m ∈ s_models S → skip_on S m sk →
  ∃ c, (c = m_pk m ∨ ∃ f, f ∈ m_fields m ∧ f_col f = c) ∧ ¬ skipped_by m sk c.
(** The constructors of all aggregates succeed with [default] as the default connection. *)
Definition constructible (default : backend) (S : schema) : Prop := ∀ m f a, m ∈ s_models S → f ∈ m_fields m → f_kind f = KAgg a → agg_init default a = Ok tt.
(** No aggregate excludes by a lookup with a value. *)
Definition excludes_null (S : schema) : Prop := ∀ m f a, m ∈ s_models S → f ∈ m_fields m → f_kind f = KAgg a → Forall null_lookup (ag_exclude a).

(** ** Lemmas *)
Lemma deps_okay S this g ds : (∀ dp, dp ∈ ds → is_Some (find_model S (dep_other dp))) → ∃ l, deps_triggers S this g ds = Ok l.
Proof.
  intros H. unfold deps_triggers. apply foldM_okay. intros acc dp Hdp. destruct (H dp Hdp) as [o Ho]. unfold with_model. rewrite Ho. by eexists.
Qed.
Lemma field_okay S m f : resolvable S → m ∈ s_models S → f ∈ m_fields m → ∃ l, field_triggers S m f = Ok l.
Proof.
  intros H Hm Hf. destruct (H m f Hm Hf) as [H1 H2]. unfold field_triggers, field_deps in *. destruct (f_kind f) as [| |fn ds sk|a|ds]; try by eexists.
  - destruct (deps_okay S m cb_dep_triggers ds H1) as [l Hl]. rewrite Hl. by eexists.
  - destruct (H2 a eq_refl) as [r Hr]. unfold with_model. rewrite Hr. by eexists.
  - by apply deps_okay.
Qed.
Lemma build_okay b S : wf_schema S → resolvable S → ∃ ts, build_triggerset b S = Ok ts.
Proof.
  intros Hwf H. unfold build_triggerset. apply foldM_okay. intros ts [m f] Hin. cbn [fst snd]. apply (alldenorms_elem _ _ _ Hwf) in Hin as (Hm & Hf & _).
  destruct (field_okay S m f H Hm Hf) as [l Hl]. rewrite Hl. by eexists.
Qed.

Ltac cases_in H := repeat (apply elem_of_cons in H as [->|H]); try (by apply elem_of_nil in H).
Lemma null_params l : Forall null_lookup l → omap (λ c, match c_op c, c_val c with LIsNull, _ => None | LExact, VNull => None | _, v => Some v end) l = [].
Proof.
  induction 1 as [|c l Hc Hl IH]; [done|]. cbn. destruct Hc as [->|[-> ->]]; exact IH.
Qed.
Lemma params_none S l tr ac : wf_schema S → gen_all S = Ok l → constructible SQLite S → excludes_null S → tr ∈ l → ac ∈ t_acts tr → act_params ac = [].
Proof.
  intros Hwf Hl Hc He Htr Hac. apply (origin_spec S l Hwf Hl) in Htr.
  destruct Htr as [m f fn ds sk Hm Hf Hk Hb Hi|m f fn ds sk dp o Hm Hf Hk Hdp Hfo Hi|m f ds dp o Hm Hf Hk Hdp Hfo Hi|m f a rel Hm Hf Hk Hfo Hi].
  - unfold cb_self_triggers in Hi. cases_in Hi; cbn in Hac; by cases_in Hac.
  - unfold cb_dep_triggers in Hi. destruct (dep_rel dp); cbn in Hi; cases_in Hi; cbn in Hac; by cases_in Hac.
  - unfold ck_dep_triggers in Hi. destruct (dep_rel dp); cbn in Hi; cases_in Hi; cbn in Hac; by cases_in Hac.
  - assert (Hfl : ag_filter a = []). { specialize (Hc m f a Hm Hf Hk). unfold agg_init in Hc. case_decide as Hd; [done|]. by destruct (ag_filter a); [|destruct Hd]. }
    specialize (He m f a Hm Hf Hk).
    unfold agg_triggers in Hi. cbn in Hi. cases_in Hi; cbn in Hac; cases_in Hac; cbn [act_params]; rewrite Hfl; by apply null_params.
Qed.
Lemma shape_watches S tr : wf_schema S → watches_some S → shape S tr → t_fields tr ≠ [].
Proof.
  intros Hwf Hw [m sk Hm Hsk _ Hf _|m cf ct _ _ _ Hf _ _|m f dp o t c rc _ _ _ _ _ _ Hf _]; rewrite Hf; [|done|done].
  destruct (Hw m sk Hm Hsk) as (c & Hc & Hn). pose proof (wf_models _ Hwf _ Hm) as W.
  assert (Hin : c ∈ model_tfields m sk); [|intros E; rewrite E in Hin; by apply elem_of_nil in Hin].
  unfold model_tfields. apply elem_of_list_filter. split; [exact Hn|].
  destruct Hc as [->|(f & Hf' & <-)]; [left|right]. apply elem_of_list_fmap. exists f. split; [by rewrite (wf_att _ _ W)|].
  apply elem_of_list_filter. split; [by apply (wf_owner _ _ W)|done].
Qed.

Theorem installs_l b S : wf_schema S → resolvable S → (b ≠ MySQL → watches_some S) → (b = SQLite → constructible SQLite S ∧ excludes_null S) →
  ∃ its, installed b S = Ok its.
Proof.
  intros Hwf Hr Hw Hp. destruct (build_okay b S Hwf Hr) as [ts Hts]. unfold installed. rewrite Hts. cbn. unfold tset_sql. apply mapM_res_len.
  intros [n tr] Hin. cbn [snd]. destruct (build_gen _ _ _ Hts) as (l & Hl & [_ _ Hs]).
  destruct (Hs _ _ Hin) as [(tr1 & H1 & H2 & H3) H4].
  assert (Hcond : ∃ c, trig_cond b tr = Ok c).
  { rewrite (trig_cond_same_head b tr tr1 H3). pose proof (shape_spec S l Hwf Hl tr1 H1) as Hsh. unfold trig_cond.
    destruct b, (t_ev tr1); try by eexists.
    - rewrite decide_False by (by apply (shape_watches S); [|apply Hw|]). by eexists.
    - rewrite decide_False by (by apply (shape_watches S); [|apply Hw|]). by eexists. }
  destruct Hcond as [c Hc]. unfold trig_sql. rewrite Hc. cbn. case_decide as Hb; [|by eexists].
  destruct (Hp Hb) as [Hp1 Hp2].
  assert (Hall : forallb (λ a, bool_decide (act_params a = [])) (dedup [] (t_acts tr)) = true).
  { apply forallb_forall. intros a Ha%elem_of_list_In. apply bool_decide_eq_true. apply elem_dedup in Ha as [Ha _].
    destruct (H4 a Ha) as (tr2 & Ht2 & _ & Ha2). by eapply params_none. }
  rewrite Hall. by eexists.
Qed.
