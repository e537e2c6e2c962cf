(** * Claims on saving through subclasses and proxies (C92). *)
From stdpp Require Import relations.
From Verif Require Import Base BaseLemmas Schema TrigSet Gen Exec Orm Flush Machine Spec SpecAgg SpecOrder SpecSave GenLemmas Conditions Settle Hist Sessions Agg AggProps Check ExForum ExBad ExAgg CheckOrder ExTree CheckSave ExSave ExModes ExLimits Links Inherit ExInherit.
Open Scope list_scope.

(** A class without parents is saved as Orm.v says, and without denormalized m2m fields so is a proxy. *)
Theorem plain_class_save b S rand imm depth E m pk r d : mk_env b S rand imm depth = Ok E → wf_schema S → m ∈ s_models S →
  (∀ c v, r !! c = Some v → c ∈ f_col <$> m_fields m) → save_class E (IClass [] m false) false pk r d = save E m pk r d.
Proof. exact (λ HE Hwf, class_plain b S rand imm depth E Hwf HE m pk r d). Qed.
Print Assumptions plain_class_save.
Theorem proxy_save E ps m force pk r d : has_m2m_denorm m = false →
  save_class E (IClass ps m true) force pk r d = save_class E (IClass ps m false) force pk r d.
Proof. exact (class_proxy E ps m force pk r d). Qed.
Print Assumptions proxy_save.
(** A proxy saves the row as if the model had no ManyToManyFields: no links, no second save. *)
Theorem proxy_save_without_links E ps m force pk r d :
  save_class E (IClass ps m true) force pk r d = save_class E (IClass ps (no_links m) false) force pk r d.
Proof. exact (class_proxy_no_links E ps m force pk r d). Qed.
Print Assumptions proxy_save_without_links.
Example proxy_without_links_ex b u : has_m2m_denorm OTeam = true ∧ okb (save_class (OE b u) team_proxy false None (rowof [("size", VInt 1)]) (o_d b u)) = true.
Proof. split; [done|]. destruct b, u; vm_compute; reflexivity. Qed.
Example plain_class_ex b : wf_schema (OS false) ∧ (∀ c v, rowof [("size", VInt 1)] !! c = Some v → c ∈ f_col <$> m_fields OTeam) ∧ has_m2m_denorm IBar = false ∧
  okb (save_class (OE b false) (IClass [] OTeam false) false None (rowof [("size", VInt 1)]) (o_d b false)) = true.
Proof.
  split; [apply OS_wf|]. split; [|split; [done|destruct b; vm_compute; reflexivity]]. intros c v H. simpl in H. rewrite lookup_insert_Some in H. destruct H as [[<- _]|[_ H]]; [by left|]. by rewrite lookup_empty in H.
Qed.

(** Whatever classes rows are saved through: every row is right or marked, and right after flush. *)
Theorem any_class_then_flush b S rand imm depth E rank d d1 ord n d' : mk_env b S rand imm depth = Ok E → flushable S rank imm →
  rtc (class_step S E) d d1 → links_ok S d → consistent_or_marked S d → no_self_relation S d1 →
  consistent_or_marked S d1 ∧ (flush E S ord n d1 = (d', Done) → consistent S d' ∧ d_dirty d' = []).
Proof. exact (λ HE Hfl, class_steps_flush b S rand imm depth E rank HE Hfl d d1 ord n d'). Qed.
Print Assumptions any_class_then_flush.
Example any_class_ex b : mk_env b IS rand0 true 10 = Ok (IE b) ∧ flushable IS i_rank true ∧ rtc (class_step IS (IE b)) d0 (is_3 b).1.1 ∧ no_self_relation IS (is_3 b).1.1 ∧
  flush (IE b) IS id_ord 10 (is_3 b).1.1 = (is_4 b, Done).
Proof. split; [apply IE_ok|]. split; [apply IS_flushable|]. split; [apply is_steps|]. split; [apply is_noself|apply is_4_ok]. Qed.

(** Aggregates move with their true value, and stay right, also those of new rows. *)
Theorem class_save_moves_aggregate b S rand imm depth E m f a rel k c force pk r d x r0 v : wf_schema S → names_apart S → mk_env b S rand imm depth = Ok E →
  agg_field S m f a rel → (∀ m', m' ∈ ic_models c → m' ∈ s_models S) → getrow d (m_table m) k = Some r0 → col r0 (f_col f) = VInt v →
  save_class E c force pk r d = Ok x →
  ∃ r1, getrow x.1.1 (m_table m) k = Some r1 ∧ col r1 (f_col f) = VInt (v + (agg_value x.1.1 rel a k - agg_value d rel a k)).
Proof. exact (class_error b S rand imm depth E m f a rel k c force pk r d x r0 v). Qed.
Print Assumptions class_save_moves_aggregate.
Theorem class_save_keeps_aggregates b S rand depth E m f a rel c force pk r d x : wf_schema S → names_apart S → mk_env b S rand true depth = Ok E →
  agg_field S m f a rel → (∀ m', m' ∈ ic_models c → m' ∈ s_models S) → save_class E c force pk r d = Ok x →
  fk_valid m a rel d → agg_exact m f a rel d → fk_valid m a rel x.1.1 ∧ agg_exact m f a rel x.1.1.
Proof. exact (class_exact b S rand depth E m f a rel c force pk r d x). Qed.
Print Assumptions class_save_keeps_aggregates.
Example class_aggregates_ex b : agg_field IS IBar i_cf i_count IDrinker ∧ (∀ m', m' ∈ ic_models bar → m' ∈ s_models IS) ∧
  save_class (IE b) bar false (Some 1) (i_row "z" 5) (is_2 b) = Ok (is_3 b) ∧ fk_valid IBar i_count IDrinker (is_2 b) ∧ agg_exact IBar i_cf i_count IDrinker (is_2 b) ∧
  is_cells (is_2 b) = Some <$> [VText "a"; VText "a"; VInt 1; VInt 1; VInt 2] ∧ is_cells (is_3 b).1.1 = Some <$> [VText "z"; VText "z"; VInt 5; VInt 5; VInt 2].
Proof.
  split; [apply IS_count|]. split; [intros m' Hm'; simpl in *; set_solver|]. split; [apply is_3_ok|]. split; [apply is_2_exact|]. split; [apply is_2_exact|].
  destruct (is_values b) as (_ & H2 & H3 & _). by split.
Qed.

(** A child with a CountField of its own can only be created with force_insert. *)
Theorem child_with_aggregate_raises S E m f a rel p0 ps proxy r d x : wf_schema S → agg_field S m f a rel → (∀ m', m' ∈ p0 :: ps → m_table m' ≠ m_table m) →
  (∀ k, is_Some (getrow d (m_table m) k) → is_Some (getrow d (m_table p0) k)) → save_class E (IClass (p0 :: ps) m proxy) false None r d ≠ Ok x.
Proof. exact (λ Hwf Haf, child_raises S E Hwf m f a rel Haf p0 ps proxy r d x). Qed.
Print Assumptions child_with_aggregate_raises.
(** "A new row can be saved": refuted, although Bar.objects.create() with the same values works. *)
Theorem child_save_refuted : ∀ b, ∃ S rank m f a rel c r d x, mk_env b S rand0 true 10 = Ok (env_of b S true) ∧ flushable S rank true ∧
  agg_field S m f a rel ∧ ic_own c = m ∧ (∀ m', m' ∈ ic_models c → m' ∈ s_models S) ∧ (∀ k, is_Some (getrow d (m_table m) k) → ∀ p, p ∈ ic_parents c → is_Some (getrow d (m_table p) k)) ∧
  save_class (env_of b S true) c true None r d = Ok x ∧ save_class (env_of b S true) c false None r d = Err EIndex.
Proof.
  intros b. exists IS, i_rank, IBar, i_cf, i_count, IDrinker, bar, (i_row "b" 2), (is_2 b), (ok_save (save_class (IE b) bar true None (i_row "b" 2) (is_2 b))).
  split; [apply IE_ok|]. split; [apply IS_flushable|]. split; [apply IS_count|]. split; [done|]. split; [intros m' Hm'; simpl in *; set_solver|].
  split; [intros k Hk p Hp; apply elem_of_list_singleton in Hp as ->; by apply (is_keys b)|].
  split; [apply ok_save_ok; destruct b; vm_compute; reflexivity|exact (is_raises b)].
Qed.
Print Assumptions child_save_refuted.

(** "Saving sets the denormalized links": refuted for subclasses and for proxies, also after flush. *)
Theorem subclass_save_sets_links_refuted : ∀ b u (proxy : bool), ∃ S c m mm fn ds k r d x d' ord n keys,
  mk_env b S rand0 true 10 = Ok (env_of b S true) ∧ wf_schema S ∧ s_bulk_unsafe S = u ∧ m ∈ ic_models c ∧ ic_proxy c = proxy ∧ mm ∈ m_m2m m ∧ mm_denorm mm = Some (fn, ds) ∧ k ≠ 0 ∧
  save_class (env_of b S true) c false (Some k) r d = Ok x ∧ flush (env_of b S true) S ord n x.1.1 = (d', Done) ∧
  (∃ r', getrow d' (m_table m) k = Some r' ∧ fn d' (Some k) r' = Ok keys) ∧ ¬ ∀ y, linked_to d' mm k y ↔ ∃ v, v ∈ keys ∧ y = VInt v.
Proof.
  intros b u proxy. exists (OS u), (o_class proxy), OTeam, o_members, fn_size, [], 1, (o_inst proxy), (o_d b u), (o_1 b u proxy), (o_2 b u proxy), id_ord, 10%nat, [1].
  split; [apply OE_ok|]. split; [apply OS_wf|]. split; [done|]. split; [destruct proxy; simpl; set_solver|]. split; [by destruct proxy|]. split; [by left|]. split; [done|]. split; [done|].
  split; [exact (o_1_ok b u proxy)|]. split; [exact (o_2_ok b u proxy)|]. destruct (o_links b u proxy) as (_ & H2 & H3). split.
  - unfold cellv in H3. change (m_table OTeam) with "team". destruct (getrow (o_2 b u proxy) "team" 1) as [r'|]; [|done]. exists r'. split; [done|]. injection H3 as H3. unfold fn_size. by rewrite H3.
  - intros H. destruct (H (VInt 1)) as [_ H1]. specialize (H1 ltac:(exists 1; split; [by left|done])). rewrite linked_spec, H2 in H1. by apply elem_of_nil in H1.
Qed.
Print Assumptions subclass_save_sets_links_refuted.
(** Saving through the declaring class does. *)
Example own_class_sets_links b u : ∃ x, save_class (OE b u) (IClass [] OTeam false) false (Some 1) (rowof [("size", VInt 1)]) (o_d b u) = Ok x ∧ linked x.1.1 o_members 1 = [VInt 1].
Proof. exact (o_own b u). Qed.

(** "flush keeps what a save of the row computes": refuted if the function calls a method that the subclass
    overrides: flush loads an instance of the declaring class. *)
Theorem subclass_value_kept_refuted : ∀ b, ∃ S c m f fn k r x d' ord n v r' v',
  mk_env b S rand0 true 10 = Ok (env_of b S true) ∧ m ∈ ic_parents c ∧ f ∈ m_fields m ∧ f_kind f = KCallback fn [] [] ∧
  save_class (env_of b S true) c false None r d0 = Ok x ∧ x.1.2 = k ∧ (∃ rk, getrow x.1.1 (m_table m) k = Some rk ∧ col rk (f_col f) = v) ∧
  flush (env_of b S true) S ord n x.1.1 = (d', Done) ∧ fn d' (Some k) x.2 = Ok (PVal v) ∧ getrow d' (m_table m) k = Some r' ∧ col r' (f_col f) = v' ∧ v' ≠ v.
Proof.
  intros b. destruct (k_values b) as (H1 & H2 & H3 & H4). unfold cellv in *.
  destruct (getrow (k_1 b).1.1 "place" 1) as [r1|] eqn:Hr1; [|done]. destruct (getrow (k_2 b) "place" 1) as [r2|] eqn:Hr2; [|done]. injection H2 as H2. injection H3 as H3.
  exists KS, kbar, KPlace, k_f, cb_kind, 1, k_row, (k_1 b), (k_2 b), id_ord, 10%nat, (VText "bar"), r2, (VText "place").
  split; [apply KE_ok|]. split; [by left|]. split; [right; by left|]. split; [done|]. split; [exact (k_1_ok b)|]. split; [done|]. split; [exists r1; by split|].
  split; [exact (k_2_ok b)|]. split; [done|]. split; [done|]. split; [done|done].
Qed.
Print Assumptions subclass_value_kept_refuted.
