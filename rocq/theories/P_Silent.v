(** * What does not mark (C08 second half, C09, C10, C11, C53). *)
From Verif Require Import Base BaseLemmas Schema TrigSet Gen Exec Orm Flush Spec GenLemmas Engine Marking Conditions Silent Merge Sessions Hist Check ExForum ExRich ExBad ExSkip P_Mark.
Ltac in_list0 := match goal with |- ?x ∈ ?l => apply (elem_of_list_In l x); simpl; tauto end.

(** ** C53 *)
(** [was], [is]: the value of a column of row [k] of table [t] before and after; equality of
    values is equality of SQL values with NULL equal to NULL. *)
Theorem update_condition_exact_partial E t k o n b tr c :
  t_ev tr = EvUpd → t_fields tr ≠ [] → trig_cond b tr = Ok c → (b = SQLite ∨ t_ctf tr = None) →
  let was := cell (e_pk E t) k o in let is := cell (e_pk E t) k n in
  cond_holds E (Ev t k (ChUpd o n)) c = true ↔
  (∃ f, f ∈ t_fields tr ∧ was f ≠ is f) ∧
  (∀ cf, t_ctf tr = Some cf → was cf = VInt (t_ct tr) ∨ is cf = VInt (t_ct tr)).
Proof. exact (cond_exact E t k o n b tr c). Qed.
Print Assumptions update_condition_exact_partial.
(** What the other two backends do for generic relations. *)
Theorem update_condition_postgres_generic E t k o n tr c cf :
  t_ev tr = EvUpd → t_fields tr ≠ [] → trig_cond Postgres tr = Ok c → t_ctf tr = Some cf →
  let was := cell (e_pk E t) k o in let is := cell (e_pk E t) k n in
  cond_holds E (Ev t k (ChUpd o n)) c = true ↔
  ((∃ f, f ∈ t_fields tr ∧ was f ≠ is f) ∧ was cf = VInt (t_ct tr)) ∨ is cf = VInt (t_ct tr).
Proof. exact (cond_postgres E t k o n tr c cf). Qed.
Print Assumptions update_condition_postgres_generic.
Theorem update_condition_mysql_generic E t k o n tr c :
  t_ev tr = EvUpd → t_fields tr ≠ [] → trig_cond MySQL tr = Ok c →
  let was := cell (e_pk E t) k o in let is := cell (e_pk E t) k n in
  cond_holds E (Ev t k (ChUpd o n)) c = true ↔ (∃ f, f ∈ t_fields tr ∧ was f ≠ is f).
Proof. exact (cond_mysql E t k o n tr c). Qed.
Print Assumptions update_condition_mysql_generic.
(** All together: when an update trigger fires, on every backend and for every kind of relation. *)
Theorem update_trigger_fires_iff E t k o n b tr c :
  t_ev tr = EvUpd → t_fields tr ≠ [] → trig_cond b tr = Ok c →
  let was := cell (e_pk E t) k o in let is := cell (e_pk E t) k n in
  let changed := ∃ f, f ∈ t_fields tr ∧ was f ≠ is f in
  cond_holds E (Ev t k (ChUpd o n)) c = true ↔
  match t_ctf tr, b with
  | None, _ | Some _, MySQL => changed
  | Some cf, SQLite => changed ∧ (was cf = VInt (t_ct tr) ∨ is cf = VInt (t_ct tr))
  | Some cf, Postgres => (changed ∧ was cf = VInt (t_ct tr)) ∨ is cf = VInt (t_ct tr)
  end.
Proof.
  intros Hev Hf Hc was is. cbv zeta. destruct (t_ctf tr) as [cf|] eqn:Ht.
  - destruct b.
    + etransitivity; [exact (cond_exact E t k o n SQLite tr c Hev Hf Hc (or_introl eq_refl))|]. rewrite Ht.
      split; [intros [H1 H2]; split; [exact H1|exact (H2 cf eq_refl)]|intros [H1 H2]; split; [exact H1|]; intros ? [= <-]; exact H2].
    + exact (cond_postgres E t k o n tr c cf Hev Hf Hc Ht).
    + exact (cond_mysql E t k o n tr c Hev Hf Hc).
  - etransitivity; [exact (cond_exact E t k o n b tr c Hev Hf Hc (or_intror Ht))|]. rewrite Ht. split; [by intros [H _]|intros H; split; [exact H|done]].
Qed.
Print Assumptions update_trigger_fires_iff.
(** Which triggers compare the content type: those on the model at the far end of a generic
    relation do, with the content type of the model that declares it and all columns watched;
    and no others do. *)
Theorem generic_triggers_compare_type S l :
  wf_schema S → gen_all S = Ok l →
  (∀ m f dp o ctc oidc, m ∈ s_models S → f ∈ m_fields m → dp ∈ field_deps f → find_model S (dep_other dp) = Some o →
     dep_rel dp = RelGenForward ctc oidc →
     ∃ tr, tr ∈ l ∧ t_tab tr = m_table o ∧ t_ev tr = EvUpd ∧ t_ctf tr = Some ctc ∧ t_ct tr = m_ct m ∧
       ∀ c, c = m_pk o ∨ (∃ g, g ∈ m_fields o ∧ c = f_col g) → c ∈ t_fields tr) ∧
  (∀ tr cf, tr ∈ l → t_ctf tr = Some cf → gen_on S (t_tab tr) cf (t_ct tr)).
Proof.
  intros Hwf Hl. split; [|intros tr cf Htr Hc; destruct (shape_spec S l Hwf Hl _ Htr); congruence].
  intros m f dp o ctc oidc Hm Hf Hdp Hfo Hr. pose proof (find_model_in _ _ _ Hfo) as [Ho _].
  assert (Hcols : ∀ c, c = m_pk o ∨ (∃ g, g ∈ m_fields o ∧ c = f_col g) →
    c ∈ m_pk o :: (f_att <$> filter (λ f, f_owner f = m_name o) (m_fields o))).
  { pose proof (wf_models _ Hwf _ Ho) as W. intros c [->|(g & Hg & ->)]; [left|right].
    rewrite <- (wf_att _ _ W _ Hg). apply elem_of_list_fmap_1, elem_of_list_filter. split; [by apply (wf_owner _ _ W)|done]. }
  unfold field_deps in Hdp. destruct (f_kind f) as [| |fn ds sk|a|ds] eqn:Hk; try (by apply elem_of_nil in Hdp).
  - exists (gen_trigger o ctc (m_ct m) EvUpd [AMark (m_ct m) RNew oidc; AMark (m_ct m) ROld oidc]).
    split; [|split; [done|]; split; [done|]; split; [done|]; split; [done|exact Hcols]].
    apply (origin_spec S l Hwf Hl). eapply or_cb; [exact Hm|exact Hf|exact Hk|exact Hdp|exact Hfo|]. unfold cb_dep_triggers. rewrite Hr. left.
  - eexists (gen_trigger o ctc (m_ct m) EvUpd _).
    split; [|split; [done|]; split; [done|]; split; [done|]; split; [done|exact Hcols]].
    apply (origin_spec S l Hwf Hl). eapply or_ck; [exact Hm|exact Hf|exact Hk|exact Hdp|exact Hfo|]. unfold ck_dep_triggers. rewrite Hr. left.
Qed.
Print Assumptions generic_triggers_compare_type.
Example generic_triggers_ex : wf_schema RS ∧ match gen_all RS with Ok l => length (filter (λ tr, t_ctf tr = Some "ctype_id") l) = 3%nat | Err _ => False end ∧
  RPost ∈ s_models RS ∧ f_tw ∈ m_fields RPost ∧ dep_tags ∈ field_deps f_tw ∧ find_model RS (dep_other dep_tags) = Some RTag.
Proof. split; [exact RS_wf|]. split; [vm_compute; reflexivity|]. split; [right; left|]. split; [in_list0|]. split; [left|done]. Qed.
(** The update triggers of the rich schema with their conditions: a plain and a generic one. *)
Definition tag_upd : trigger :=
  Trigger "tag" EvUpd ["id"; "weight"; "ctype_id"; "object_id"] (Some "ctype_id") 11 [AMark 11 RNew "object_id"].
Example update_condition_ex (b : backend) : ∃ c, t_ev tag_upd = EvUpd ∧ t_fields tag_upd ≠ [] ∧ trig_cond b tag_upd = Ok c.
Proof. destruct b; by eexists. Qed.
(** Refuted on PostgreSQL: an UPDATE changing nothing fires; on MySQL: a row that never had the content type fires. *)
Definition tag_row (ct w : Z) : row := rowof [("ctype_id", VInt ct); ("object_id", VText "7"); ("weight", VInt w)].
Theorem update_condition_exact_refuted :
  (∃ o c, trig_cond Postgres tag_upd = Ok c ∧ cond_holds (RE Postgres) (Ev "tag" 1 (ChUpd o o)) c = true) ∧
  (∃ o n c, trig_cond MySQL tag_upd = Ok c ∧ cond_holds (RE MySQL) (Ev "tag" 1 (ChUpd o n)) c = true ∧
     col o "ctype_id" ≠ VInt (t_ct tag_upd) ∧ col n "ctype_id" ≠ VInt (t_ct tag_upd)).
Proof.
  split.
  - exists (tag_row 11 1). eexists. split; [reflexivity|]. vm_compute. reflexivity.
  - exists (tag_row 12 1), (tag_row 12 2). eexists. split; [reflexivity|]. split; [vm_compute; reflexivity|]. split; by vm_compute.
Qed.
Print Assumptions update_condition_exact_refuted.

(** ** C09 *)
(** [watched] (Spec.v): the columns some declaration looks at.  [rows_updated]: the named rows became
    [g] of what they were; every other row, hence every aggregate and cache key elsewhere, is as
    before; no marker was added. *)
Theorem unwatched_update_is_silent b S rand imm depth E t ks g d d' :
  mk_env b S rand imm depth = Ok E → wf_schema S →
  run_op E S (OUpdate t ks g) d = Ok d' →
  (∀ k r c, k ∈ ks → getrow d t k = Some r → watched S t c → col (g r) c = col r c) →
  (b = Postgres → ∀ cf ct, ¬ gen_on S t cf ct) →
  (b = MySQL → ∀ m sk, m ∈ s_models S → m_table m = t → skip_on S m sk → ¬ skipped_by m sk (m_pk m)) →
  rows_updated t ks g d d'.
Proof. exact (λ HE Hwf, match mk_env_gen _ _ _ _ _ _ HE with ex_intro _ l Hl => silent_update b S rand imm depth E l Hwf HE Hl t ks g d d' end). Qed.
Print Assumptions unwatched_update_is_silent.
(** An item table that a callback, an aggregate and a cache key watch; "views" is left out everywhere.
    Updating "views" is silent while updating "x" marks the row and renews the parent's cache key. *)
Definition sk_E (b : backend) : env := env_of b SK true.
Definition sk_after (b : backend) (o : op) : db := step (sk_E b) SK (sk_d b) o.
Definition sk_views : op := OUpdate "item" [1; 2] sk_g.
Definition sk_x : op := OUpdate "item" [1; 2] (λ r, <["x" := VInt 9]> r).
Example unwatched_update_ex b : mk_env b SK rand0 true 10 = Ok (sk_E b) ∧
  run_op (sk_E b) SK sk_views (sk_d b) = Ok (sk_after b sk_views) ∧
  (∀ k r c, k ∈ [1; 2] → getrow (sk_d b) "item" k = Some r → watched SK "item" c → col (sk_g r) c = col r c) ∧
  (∀ cf ct, ¬ gen_on SK "item" cf ct) ∧
  (∀ m sk, m ∈ s_models SK → m_table m = "item" → skip_on SK m sk → ¬ skipped_by m sk (m_pk m)) ∧
  cellv (sk_d b) "item" 2 "views" = Some (VInt 0) ∧ cellv (sk_after b sk_views) "item" 2 "views" = Some (VInt 9) ∧
  d_dirty (sk_d b) = [] ∧ length (d_dirty (sk_after b sk_x)) = 2%nat ∧
  cellv (sk_d b) "parent" 1 "items" = Some (VInt 2) ∧
  bool_decide (cellv (sk_after b sk_x) "parent" 1 "ck" = cellv (sk_d b) "parent" 1 "ck") = false.
Proof.
  split; [by destruct b|]. split; [apply step_ok; comp|]. split.
  { intros k r c _ _ Hw. unfold sk_g. destruct (decide (c = "views")) as [->|Hn]; [|by rewrite col_insert_ne].
    exfalso. revert Hw. apply unwatched. by vm_compute. }
  split.
  { intros cf ct Hg. apply gens_in in Hg. vm_compute in Hg. by apply elem_of_nil in Hg. }
  split.
  { intros m sk Hm Ht Hs. apply skips_in in Hs. simpl in Hm. unfold skipped_by.
    repeat (apply elem_of_cons in Hm as [->|Hm]); [done| |by apply elem_of_nil in Hm].
    vm_compute in Hs. repeat (apply elem_of_cons in Hs as [->|Hs]); try (by apply elem_of_nil in Hs);
      intros Hc; apply (bool_decide_pack _) in Hc; vm_compute in Hc; done. }
  split_and!; comp.
Qed.
(** Outside the conditions it fails.  PostgreSQL, generic relation: an UPDATE changing nothing marks. *)
Definition op_idle : op := OUpdate "tag" [1] (λ r, r).
Theorem idle_update_generic_refuted : ∃ d d', d_dirty d = [] ∧ run_op (RE Postgres) RS op_idle d = Ok d' ∧ d_dirty d' ≠ [].
Proof. exists (rd2 Postgres), (after Postgres op_idle). split; [by vm_compute|]. split; [apply after_ok; by vm_compute|by vm_compute]. Qed.
Print Assumptions idle_update_generic_refuted.
(** MySQL, a skip list naming all columns and the key: the trigger has no condition. *)
Definition all_E : env := env_of MySQL ALL true.
Theorem all_skipped_mysql_refuted : ∃ d d', mk_env MySQL ALL rand0 true 10 = Ok all_E ∧ d_dirty d = [] ∧
  run_op all_E ALL (OUpdate "a" [1] (λ r, r)) d = Ok d' ∧ d_dirty d' ≠ [].
Proof.
  exists (hist2 MySQL ALL all_ops []), (step all_E ALL (hist2 MySQL ALL all_ops []) (OUpdate "a" [1] (λ r, r))).
  split; [reflexivity|]. split; [by vm_compute|]. split; [apply step_ok; by vm_compute|by vm_compute].
Qed.
Print Assumptions all_skipped_mysql_refuted.

(** ** C10 *)
(** If every list applying to the table of [m] leaves the column out, changing it is silent; with the
    code's rule ([skipped_by]) that holds for a column of denorm_always_skip where each declared list
    is empty or repeats the column. *)
Theorem always_skip_honoured_partial b S rand imm depth E m c v ks d d' :
  mk_env b S rand imm depth = Ok E → wf_schema S → m ∈ s_models S → (∀ cf ct, ¬ gen_on S (m_table m) cf ct) →
  c ∈ m_always_skip m → (∀ sk, skip_on S m sk → (sk = [] ∨ c ∈ sk) ∧ ¬ skipped_by m sk (m_pk m)) →
  run_op E S (OUpdate (m_table m) ks (λ r, <[c := v]> r)) d = Ok d' →
  rows_updated (m_table m) ks (λ r, <[c := v]> r) d d'.
Proof. exact (λ HE Hwf, match mk_env_gen _ _ _ _ _ _ HE with ex_intro _ l Hl => always_skip_silent b S rand imm depth E l Hwf HE Hl m c v ks d d' end). Qed.
Print Assumptions always_skip_honoured_partial.
Example always_skip_ex b : mk_env b SK rand0 true 10 = Ok (sk_E b) ∧ wf_schema SK ∧ sk_item ∈ s_models SK ∧
  (∀ cf ct, ¬ gen_on SK (m_table sk_item) cf ct) ∧ "views" ∈ m_always_skip sk_item ∧
  (∀ sk, skip_on SK sk_item sk → (sk = [] ∨ "views" ∈ sk) ∧ ¬ skipped_by sk_item sk (m_pk sk_item)) ∧
  skip_on SK sk_item [] ∧ skip_on SK sk_item ["views"] ∧
  run_op (sk_E b) SK sk_views (sk_d b) = Ok (sk_after b sk_views).
Proof.
  split; [by destruct b|]. split; [apply SK_wf|]. split; [in_list0|]. split.
  { intros cf ct Hg. apply gens_in in Hg. vm_compute in Hg. by apply elem_of_nil in Hg. }
  split; [in_list0|]. split.
  { intros sk Hs. apply skips_in in Hs. vm_compute in Hs. unfold skipped_by.
    repeat (apply elem_of_cons in Hs as [->|Hs]); try (by apply elem_of_nil in Hs);
      (split; [first [by left|right; in_list0]|intros Hc; apply (bool_decide_pack _) in Hc; vm_compute in Hc; done]). }
  split; [apply (so_self _ _ (cbf "y" "Item" (cb_copy "x") [] []) (cb_copy "x") []); [repeat constructor|done]|].
  split; [|apply step_ok; comp].
  apply (so_dep SK sk_item sk_parent (ckf "ck" "Parent" [Dep "Item" (RelBackward "parent_id") ["views"]]) (Dep "Item" (RelBackward "parent_id") ["views"]));
    first [done|repeat constructor].
Qed.
(** Refuted as stated: the field has a skip list of its own, so denorm_always_skip is not consulted. *)
Definition as_E (b : backend) : env := env_of b AS true.
Definition as_views : op := OUpdate "a" [1] (λ r, <["views" := VInt 1]> r).
Theorem always_skip_honoured_refuted : ∀ b, ∃ d d', mk_env b AS rand0 true 10 = Ok (as_E b) ∧ wf_schema AS ∧
  as_a ∈ s_models AS ∧ "views" ∈ m_always_skip as_a ∧
  d_dirty d = [] ∧ run_op (as_E b) AS as_views d = Ok d' ∧ marker_of as_a 1 ∈ d_dirty d'.
Proof.
  intros b. exists (as_d b), (step (as_E b) AS (as_d b) as_views). split; [by destruct b|].
  split; [apply wf_schemab_spec; by vm_compute|]. split; [left|]. split; [left|]. split; [comp|]. split; [apply step_ok; comp|].
  in_list.
Qed.
Print Assumptions always_skip_honoured_refuted.

(** ** C11 *)
(** Refuted: field y skips column z, field w copies z.  Changing z leaves no marker, so w stays wrong
    and a flush does nothing; with the two declarations in the other order the same update is
    handled.  ([written_row_is_marked] of P_Mark.v shows that a column skipped by no list marks.) *)
Definition mg_E (b : backend) (S : schema) : env := env_of b S true.
Theorem skip_stays_local_refuted : ∀ b, ∃ d d', mk_env b MG rand0 true 10 = Ok (mg_E b MG) ∧ wf_schema MG ∧
  f_kind mg_w = KCallback (cb_copy "z") [] [] ∧ d_dirty d = [] ∧
  run_op (mg_E b MG) MG upd_z d = Ok d' ∧ d_dirty d' = [] ∧ ¬ consistent MG d'.
Proof.
  intros b. exists (hist2 b MG mg_ops []), (step (mg_E b MG) MG (hist2 b MG mg_ops []) upd_z). split; [by destruct b|].
  split; [apply wf_schemab_spec; by vm_compute|]. split; [done|]. split; [comp|]. split; [apply step_ok; comp|]. split; [comp|].
  apply (staleb_spec _ _ mg_a 3 1); [left|comp].
Qed.
Print Assumptions skip_stays_local_refuted.
Example skip_other_order b : d_dirty (hist2 b MG' mg_ops [upd_z]) = [marker_of mg_b 1].
Proof. comp. Qed.

(** In general, whether an installed trigger fires is decided by the first of the
    declarations that share its name; the later ones only add actions. *)
Theorem first_declaration_decides b S its l it : installed b S = Ok its → gen_all S = Ok l → it ∈ its →
  ∃ tr rest, filter (λ tr, trig_name b tr = i_name it) l = tr :: rest ∧
    i_tab it = t_tab tr ∧ i_ev it = t_ev tr ∧ trig_cond b tr = Ok (i_cond it) ∧
    i_acts it = dedup [] (t_acts tr ++ concat (t_acts <$> rest)).
Proof.
  intros H Hl Hit. destruct (installed_headed b S its l H Hl it Hit) as (tr & rest & Hf & H1 & H2 & H3).
  exists tr, rest. split_and!; try done. by rewrite (installed_merge b S its l H Hl it Hit), Hf.
Qed.
Print Assumptions first_declaration_decides.
(** In the schema above two declarations share the update trigger, and it watches the
    columns of the first. *)
Example first_declaration_ex b : match installed b MG, gen_all MG with
  | Ok its, Ok l => existsb (λ it, bool_decide (i_ev it = EvUpd) && match i_cond it with CFields cs => bool_decide ("z" ∉ cs) | _ => false end &&
      bool_decide (length (filter (λ tr, trig_name b tr = i_name it) l) = 2%nat)) its
  | _, _ => false end = true.
Proof. comp. Qed.

(** ** C08, second half *)
(** Rows whose content type is another model, before and after, mark no row of [m], on SQLite and
    PostgreSQL ([m] depends on the table in no other way, and no trigger writes into the table's
    own columns through aggregates or cache keys). *)
Theorem other_content_type_unmarked b S rand imm depth E rank m om ctc o d d' mk :
  mk_env b S rand imm depth = Ok E → trackable S rank imm b → b ≠ MySQL →
  m ∈ s_models S → om ∈ s_models S → m ≠ om →
  (∀ m', m' ∈ s_models S → ¬ upd_source S m' (m_table om)) →
  (∀ f fn ds sk dp, f ∈ m_fields m → f_kind f = KCallback fn ds sk → dp ∈ ds → find_model S (dep_other dp) = Some om →
     ∃ oidc, dep_rel dp = RelGenForward ctc oidc) →
  is_statement o (m_table om) → run_op E S o d = Ok d' →
  (∀ k, k ∈ stmt_keys o → ¬ before_or_after (m_table om) d d' k (λ r, col r ctc = VInt (m_ct m))) →
  mk.1 = m_ct m → mk ∈ d_dirty d' → mk ∈ d_dirty d.
Proof. exact (other_type_tk b S rand imm depth E rank m om ctc o d d' mk). Qed.
Print Assumptions other_content_type_unmarked.
(** A tag of a forum (content type 10) changes its weight: no post is marked, on MySQL one is. *)
Definition op_tag2 : op := OSave "Tag" (Some 2) (rowof [("ctype_id", VInt 10); ("object_id", VText "7"); ("weight", VInt 1)]).
Definition op_w2 : op := OUpdate "tag" [2] (λ r, <["weight" := VInt 5]> r).
Definition oc_d (b : backend) : db := step (RE b) RS (rd2 b) op_tag2.
Definition oc_after (b : backend) : db := step (RE b) RS (oc_d b) op_w2.
Lemma ten_seven : VInt 10 ≠ VInt (m_ct RPost).
Proof. vm_compute. done. Qed.
Example other_content_type_ex b : trackable RS rrank true b ∧ RPost ∈ s_models RS ∧ RTag ∈ s_models RS ∧ RPost ≠ RTag ∧
  (∀ m', m' ∈ s_models RS → ¬ upd_source RS m' (m_table RTag)) ∧
  (∀ f fn ds sk dp, f ∈ m_fields RPost → f_kind f = KCallback fn ds sk → dp ∈ ds → find_model RS (dep_other dp) = Some RTag →
     ∃ oidc, dep_rel dp = RelGenForward "ctype_id" oidc) ∧
  is_statement op_w2 (m_table RTag) ∧ run_op (RE b) RS op_w2 (oc_d b) = Ok (oc_after b) ∧
  (∀ k, k ∈ stmt_keys op_w2 → ¬ before_or_after (m_table RTag) (oc_d b) (oc_after b) k (λ r, col r "ctype_id" = VInt (m_ct RPost))) ∧
  cellv (oc_d b) "tag" 2 "weight" = Some (VInt 1) ∧ cellv (oc_after b) "tag" 2 "weight" = Some (VInt 5) ∧
  bool_decide (marker_of RPost 7 ∈ d_dirty (oc_after b)) = bool_decide (b = MySQL).
Proof.
  split; [apply RS_trackable|]. split; [in_list0|]. split; [in_list0|]. split; [done|]. split.
  { intros m' Hm' Hu. apply upd_sources_in in Hu. models Hm'; (apply (bool_decide_pack _) in Hu; vm_compute in Hu; done). }
  split.
  { intros f fn ds sk dp Hf Hk Hd Ho. assert (Hd' : dp ∈ field_deps f) by (unfold field_deps; by rewrite Hk).
    assert (HP : RPost ∈ s_models RS) by in_list0.
    destruct (RS_deps _ _ _ HP Hf Hd') as [(? & _ & ->)|[(? & _ & ->)|[(? & _ & ->)|(? & _ & ->)]]]; try done. by eexists. }
  split; [done|]. split; [apply step_ok; comp|]. split.
  { assert (H1 : cellv (oc_d b) "tag" 2 "ctype_id" = Some (VInt 10)) by comp.
    assert (H2 : cellv (oc_after b) "tag" 2 "ctype_id" = Some (VInt 10)) by comp.
    intros k ->%elem_of_list_singleton. change (m_table RTag) with "tag". exact (not_ba _ _ _ _ _ _ _ H1 H2 ten_seven). }
  split_and!; comp.
Qed.
