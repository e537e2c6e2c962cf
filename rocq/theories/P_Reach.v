(** * C76, C47, C48, C56: which rows a write marks. *)
From Verif Require Import Base BaseLemmas Schema TrigSet Gen Exec Orm Spec Engine GenLemmas Check ExForum ExBad ExRich ExLimits Reach P_Mark.

(** ** C76 *)
Theorem marked_for_a_reason b S rand imm depth E o d d' m k :
  wf_schema S → names_apart S → no_m2m_denorm S → mk_env b S rand imm depth = Ok E → run_op E S o d = Ok d' →
  m ∈ s_models S → marker_of m k ∈ d_dirty d' → marker_of m k ∈ d_dirty d ∨ reason S d d' (writes S o d d') m k.
Proof. exact (only_reasons b S rand imm depth E o d d' m k). Qed.
Print Assumptions marked_for_a_reason.
(** Changing the score of post 7 marks the post and the member with a bookmark of it. It
    changes the sum of forum 1, so that forum and its post 8 are marked too. Forum 2 has no
    reason and is not marked. *)
Example marked_for_a_reason_ex b : wf_schema RS ∧ names_apart RS ∧ no_m2m_denorm RS ∧
  run_op (RE b) RS op_score (rd2 b) = Ok (after b op_score) ∧ d_dirty (rd2 b) = [] ∧
  marker_of RPost 7 ∈ d_dirty (after b op_score) ∧ marker_of RMember 1 ∈ d_dirty (after b op_score) ∧
  marker_of RForum 1 ∈ d_dirty (after b op_score) ∧ marker_of RPost 8 ∈ d_dirty (after b op_score) ∧ marker_of RForum 2 ∉ d_dirty (after b op_score).
Proof.
  split; [apply RS_wf|]. split; [apply names_apartb_spec; by vm_compute|]. split; [apply no_m2m_denormb_spec; by vm_compute|].
  split; [apply after_ok; comp|]. split; [comp|].
  assert (Hin : ∀ x, bool_decide (x ∈ d_dirty (after b op_score)) = true → x ∈ d_dirty (after b op_score)) by (intros x; apply bool_decide_eq_true).
  assert (Hni : ∀ x, bool_decide (x ∈ d_dirty (after b op_score)) = false → x ∉ d_dirty (after b op_score)) by (intros x; apply bool_decide_eq_false).
  split_and!; [apply Hin|apply Hin|apply Hin|apply Hin|apply Hni]; comp.
Qed.
(** The same for one statement on a table that feeds no aggregate and no cache key: a row
    of another model is marked only by a dependency that relates it to a row written. *)
Theorem marks_follow_dependencies b S rand imm depth E m om o d d' k :
  wf_schema S → names_apart S → no_m2m_denorm S → mk_env b S rand imm depth = Ok E →
  m ∈ s_models S → om ∈ s_models S → m ≠ om → (∀ m', m' ∈ s_models S → ¬ upd_source S m' (m_table om)) →
  is_statement o (m_table om) → run_op E S o d = Ok d' → marker_of m k ∈ d_dirty d' →
  marker_of m k ∈ d_dirty d ∨ ∃ f fn ds sk dp j, f ∈ m_fields m ∧ f_kind f = KCallback fn ds sk ∧ dp ∈ ds ∧
    find_model S (dep_other dp) = Some om ∧ j ∈ stmt_keys o ∧ related d d' m k om j dp.
Proof. exact (marks_follow b S rand imm depth E m om o d d' k). Qed.
Print Assumptions marks_follow_dependencies.

(** ** C47: what is marked for a forward key *)
(** The fields of [m] that depend on [om]. *)
Definition depends_by (S : schema) (m om : model) (P : Schema.relation → Prop) : Prop := ∀ f fn ds sk dp,
  f ∈ m_fields m → f_kind f = KCallback fn ds sk → dp ∈ ds → find_model S (dep_other dp) = Some om → P (dep_rel dp).
(** Only rows whose key column equals the primary key of a row written are marked,
    whatever column of [om] the key refers to. *)
Theorem forward_marks_primary_keys b S rand imm depth E m om fk o d d' k :
  wf_schema S → names_apart S → no_m2m_denorm S → mk_env b S rand imm depth = Ok E →
  m ∈ s_models S → om ∈ s_models S → m ≠ om → (∀ m', m' ∈ s_models S → ¬ upd_source S m' (m_table om)) →
  depends_by S m om (λ r, r = RelForward fk) →
  is_statement o (m_table om) → run_op E S o d = Ok d' → marker_of m k ∈ d_dirty d' → marker_of m k ∉ d_dirty d →
  ∃ j, j ∈ stmt_keys o ∧ before_or_after (m_table m) d d' k (λ r, col r fk = VInt j).
Proof.
  intros Hwf Hna Hnm HE Hm Hom Hne Hn Hd Hs Ho Hin Hni.
  destruct (marks_follow b S rand imm depth E m om o d d' k Hwf Hna Hnm HE Hm Hom Hne Hn Hs Ho Hin) as [?|(f & fn & ds & sk & dp & j & Hf & Hk & Hdp & Hfo & Hj & Hr)]; [done|].
  exists j. split; [done|]. unfold related in Hr. by rewrite (Hd f fn ds sk dp) in Hr.
Qed.
Print Assumptions forward_marks_primary_keys.
Lemma no_source S (om : model) : forallb (λ m', forallb (λ f, match f_kind f with KAgg _ | KCacheKey _ => false | _ => true end) (m_fields m')) (s_models S) = true →
  ∀ m', m' ∈ s_models S → ¬ upd_source S m' (m_table om).
Proof.
  intros H m' Hm Hu. rewrite forallb_forall in H. apply elem_of_list_In in Hm. specialize (H _ Hm). rewrite forallb_forall in H.
  assert (Hf : ∀ f, f ∈ m_fields m' → match f_kind f with KAgg _ | KCacheKey _ => false | _ => true end = true) by (intros f Hf%elem_of_list_In; by apply H).
  destruct Hu as [f a rel Hi Hk|f ds dp o Hi Hk|f ds dp o t c rc Hi Hk|f ds dp o ctc oidc Hi Hk]; specialize (Hf _ Hi); by rewrite Hk in Hf.
Qed.
Ltac is_ok := unfold env_of; match goal with |- context [mk_env ?b ?S ?r ?i ?n] =>
  let H := fresh in assert (H : match mk_env b S r i n with Ok _ => true | Err _ => false end = true) by (destruct b; vm_compute; reflexivity);
  destruct (mk_env b S r i n); [reflexivity|discriminate H] end.
Example forward_marks_ex b : wf_schema TF ∧ names_apart TF ∧ no_m2m_denorm TF ∧ mk_env b TF rand0 true 10 = Ok (env_of b TF true) ∧
  (∀ m', m' ∈ s_models TF → ¬ upd_source TF m' (m_table tf_tag)) ∧ depends_by TF tf_doc tf_tag (λ r, r = RelForward "tag_id").
Proof.
  split; [apply wf_schemab_spec; by vm_compute|]. split; [apply names_apartb_spec; by vm_compute|]. split; [apply no_m2m_denormb_spec; by vm_compute|].
  split; [is_ok|]. split; [apply no_source; by vm_compute|].
  intros f fn ds sk dp Hf Hk Hdp _. simpl in Hf. repeat (apply elem_of_cons in Hf as [->|Hf]; [try discriminate Hk|]); [|by apply elem_of_nil in Hf].
  injection Hk as <- <- <-. by apply elem_of_list_singleton in Hdp as ->.
Qed.

(** ** C48: the other direction of a generic relation *)
(** A dependency by [denorm.depend_on_related] on the owner of a GenericRelation marks
    nothing at all when the owner is written. *)
Theorem generic_backward_marks_nothing b S rand imm depth E m om o d d' k :
  wf_schema S → names_apart S → no_m2m_denorm S → mk_env b S rand imm depth = Ok E →
  m ∈ s_models S → om ∈ s_models S → m ≠ om → (∀ m', m' ∈ s_models S → ¬ upd_source S m' (m_table om)) →
  depends_by S m om (λ r, ∃ ctc oidc, r = RelGenBackward ctc oidc) →
  is_statement o (m_table om) → run_op E S o d = Ok d' → marker_of m k ∈ d_dirty d' → marker_of m k ∈ d_dirty d.
Proof.
  intros Hwf Hna Hnm HE Hm Hom Hne Hn Hd Hs Ho Hin.
  destruct (marks_follow b S rand imm depth E m om o d d' k Hwf Hna Hnm HE Hm Hom Hne Hn Hs Ho Hin) as [?|(f & fn & ds & sk & dp & j & Hf & Hk & Hdp & Hfo & Hj & Hr)]; [done|].
  destruct (Hd f fn ds sk dp) as (ctc & oidc & Hrel); [done..|]. unfold related in Hr. by rewrite Hrel in Hr.
Qed.
Print Assumptions generic_backward_marks_nothing.
Example generic_backward_ex b : wf_schema GB ∧ names_apart GB ∧ no_m2m_denorm GB ∧ mk_env b GB rand0 true 10 = Ok (env_of b GB true) ∧
  (∀ m', m' ∈ s_models GB → ¬ upd_source GB m' (m_table gb_forum)) ∧ depends_by GB gb_tag gb_forum (λ r, ∃ ctc oidc, r = RelGenBackward ctc oidc).
Proof.
  split; [apply wf_schemab_spec; by vm_compute|]. split; [apply names_apartb_spec; by vm_compute|]. split; [apply no_m2m_denormb_spec; by vm_compute|].
  split; [is_ok|]. split; [apply no_source; by vm_compute|].
  intros f fn ds sk dp Hf Hk Hdp _. simpl in Hf. repeat (apply elem_of_cons in Hf as [->|Hf]; [try discriminate Hk|]); [|by apply elem_of_nil in Hf].
  injection Hk as <- <- <-. apply elem_of_list_singleton in Hdp as ->. by exists "ct_id", "oid".
Qed.

(** ** C56: tables no declaration refers to *)
(** Holds for every schema, well-formed or not: the parent table of a multi-table child
    has no trigger unless some declaration refers to the parent itself. *)
Theorem undeclared_table_marks_nothing b S rand imm depth E o t d d' : mk_env b S rand imm depth = Ok E → ¬ declared_on S t →
  is_statement o t → run_op E S o d = Ok d' →
  d_dirty d' = d_dirty d ∧ ∀ t' k, t' ≠ t ∨ k ∉ stmt_keys o → getrow d' t' k = getrow d t' k.
Proof. exact (undeclared_quiet b S rand imm depth E o t d d'). Qed.
Print Assumptions undeclared_table_marks_nothing.
Example undeclared_table_ex b : mk_env b MI rand0 true 10 = Ok (env_of b MI true) ∧ ¬ declared_on MI "place" ∧
  is_statement (OUpdate "place" [1] (λ r, <["title" := VText "b"]> r)) "place".
Proof.
  split; [is_ok|]. split; [|done].
  intros H. destruct H as [m f fn ds sk o Hm Hf Hk Ho Ht|m f dp o Hm Hf Hdp _ _|m f dp c rc Hm Hf Hdp _|m f dp ctc oidc o Hm Hf Hdp _ _ _|m f a rel Hm Hf Hk _ _];
    repeat (apply elem_of_cons in Hm as [->|Hm]; [simpl in Hf|]); try (by apply elem_of_nil in Hm);
    repeat (apply elem_of_cons in Hf as [->|Hf]; [|]); try (by apply elem_of_nil in Hf); try discriminate Hk; try (by apply elem_of_nil in Hdp).
  injection Ho as <-. discriminate Ht.
Qed.

(** ** C55: counts that change *)
(** A row whose aggregate changes is marked: on PostgreSQL and MySQL for every schema, on
    SQLite unless triggers lead back to a table they started from. *)
Theorem changed_aggregate_marks b S rand imm depth E rank m f fn ds sk g a o d d' k r r' :
  mk_env b S rand imm depth = Ok E → trackable S rank imm b →
  m ∈ s_models S → f ∈ m_fields m → f_kind f = KCallback fn ds sk →
  g ∈ m_fields m → f_kind g = KAgg a → tracked S m (f_col g) →
  run_op E S o d = Ok d' → links_ok S d →
  getrow d (m_table m) k = Some r → getrow d' (m_table m) k = Some r' → col r (f_col g) ≠ col r' (f_col g) →
  ∃ ms, d_dirty d' = d_dirty d ++ ms ∧ marker_of m k ∈ ms.
Proof.
  intros HE Ht Hm Hf Hk Hg Ha Htr Ho HL Hr Hr' Hne.
  eapply written_row_is_marked; [exact HE|exact Ht|exact Hm|exact Hf|exact Hk|exact Ho|exact HL|by exists r'|].
  unfold touched. rewrite Hr, Hr'. by exists (f_col g).
Qed.
Print Assumptions changed_aggregate_marks.
Definition sc_op : op := OUpdate "node" [3] (λ r, <["parent_id" := VInt 1]> r).
Definition sc_d1 : db := foldl (step (env_of Postgres SC true) SC) d0 sc_ops.
Example changed_aggregate_ex : mk_env Postgres SC rand0 true 10 = Ok (env_of Postgres SC true) ∧ trackable SC (λ _, 0%nat) true Postgres ∧
  tracked SC sc_node "kids" ∧ links_ok SC sc_d1 ∧
  run_op (env_of Postgres SC true) SC sc_op sc_d1 = Ok (step (env_of Postgres SC true) SC sc_d1 sc_op) ∧
  cellv sc_d1 "node" 1 "kids" = Some (VInt 0) ∧ cellv (step (env_of Postgres SC true) SC sc_d1 sc_op) "node" 1 "kids" = Some (VInt 1).
Proof.
  split; [by vm_compute|]. split.
  { split; [apply wf_schemab_spec; by vm_compute|apply wf_linksb_spec; by vm_compute|apply names_apartb_spec; by vm_compute|done| |done].
    left. apply no_m2m_depb_spec. by vm_compute. }
  split; [apply trackedb_spec; by vm_compute|]. split.
  { intros m f dp o t c rc Hm Hf Hd Hr. exfalso. apply elem_of_list_singleton in Hm as ->.
    repeat (apply elem_of_cons in Hf as [->|Hf]); try (by apply elem_of_nil in Hf); by apply elem_of_nil in Hd. }
  split; [apply step_ok; by vm_compute|]. split; by vm_compute.
Qed.
