(** * Property theorems: managers of aggregates, generic relations, and when the triggers can be installed. *)
From Verif Require Import Base BaseLemmas Schema TrigSet Gen Exec Orm Spec SpecAgg ExForum ExRich ExAgg Check GenLemmas Conditions Render RenderProps Text Read ReadProps ReadStmt ReadTrig ReadMeans ReadGen TextFmt P_Text Refs P_Refs Meta Installs.
Open Scope list_scope.

(** ** C65 *)
(** For the managers of ForeignKeys and OneToOneFields the triggers are those of Gen.v, whose
    properties are C12 to C15 ([ag_rel] and [ag_fk] are read from the manager). *)
Theorem key_managers_count S X this f a :
  f_kind f = KAgg a → key_manager a (x_mgr X (m_name this) (f_name f)) → full_triggers S X this f = field_triggers S this f.
Proof.
  intros Hk Hm. apply full_triggers_eq.
  - intros a' Ha. by assert (a' = a) as -> by congruence.
  - intros fn ds sk dp o [H|H]; congruence.
Qed.
Print Assumptions key_managers_count.
(** A ManyToManyField's manager, in either direction, or a name that is no manager: build_triggerset
    raises, so install_triggers installs nothing, for no model. *)
Theorem m2m_manager_raises b S X m f a : (m, f) ∈ alldenorms S → f_kind f = KAgg a →
  (x_mgr X (m_name m) (f_name f) = MgNone ∨ ∃ decl mm, x_mgr X (m_name m) (f_name f) = MgM2M decl mm) →
  full_triggers S X m f = Err EAttribute ∧ ∃ e, full_build b S X = Err e.
Proof.
  intros Hin Hk Hg. assert (H : full_triggers S X m f = Err EAttribute).
  { unfold full_triggers. rewrite Hk. by destruct Hg as [->|(? & ? & ->)]. }
  split; [done|]. by eapply full_build_raises.
Qed.
Print Assumptions m2m_manager_raises.
(** Forum.n_tags = CountField('tags') over a ManyToManyField, beside a CountField over a ForeignKey. *)
Definition mg_links : m2m := M2M "tags" "Tag" "forum_tags" "forum_id" "tag_id" None.
Definition MTM : schema := Schema
  [mkmodel "Forum" "forum" 1 [aggf "n_posts" "Forum" (Agg "Post" "forum_id" [] [] None []); aggf "n_tags" "Forum" (Agg "Tag" "id" [] [] None [])] [mg_links];
   mkmodel "Post" "post" 2 [fkf "forum" "Forum" "Post"] []; mkmodel "Tag" "tag" 3 [] []] false.
Definition mtm_django (g : manager) : django := Django (λ _ f, if String.eqb f "n_posts" then MgReverseFk "Post" "forum_id" else g) (λ _, []).
Definition is_okay {A} (r : res A) : bool := match r with Ok _ => true | Err _ => false end.
Theorem any_manager_counts_refuted b : full_build b MTM (mtm_django (MgM2M "Forum" mg_links)) = Err EAttribute ∧ full_build b MTM (mtm_django MgNone) = Err EAttribute ∧
  is_okay (full_build b MTM (mtm_django (MgReverseFk "Post" "forum_id"))) = true ∧ is_okay (full_build b MTM (mtm_django (MgReverseOne "Post" "forum_id"))) = true.
Proof. destruct b; (split; [vm_compute; reflexivity|split; [vm_compute; reflexivity|split; vm_compute; reflexivity]]). Qed.
Print Assumptions any_manager_counts_refuted.
Example m2m_manager_ex : let X := mtm_django (MgM2M "Forum" mg_links) in
  existsb (λ p : model * field, match f_kind p.2, x_mgr X (m_name p.1) (f_name p.2) with KAgg _, MgM2M _ _ => true | _, _ => false end) (alldenorms MTM) = true ∧
  existsb (λ p : model * field, match f_kind p.2, x_mgr X (m_name p.1) (f_name p.2) with KAgg a, MgReverseFk r k => String.eqb r (ag_rel a) && String.eqb k (ag_fk a) | _, _ => false end) (alldenorms MTM) = true.
Proof. vm_compute. done. Qed.
(** A GenericRelation's manager: the triggers are put on the table of the aggregate itself, and
    their texts refer to a column with the name of the relation. *)
Theorem generic_manager_own_table S X this f a n : f_kind f = KAgg a → x_mgr X (m_name this) (f_name f) = MgGeneric n →
  ∃ l, full_triggers S X this f = Ok l ∧ (∀ tr, tr ∈ l → t_tab tr = m_table this ∧ ∀ ac, ac ∈ t_acts tr → (m_table this, n) ∈ act_refs (t_tab tr) ac) ∧ l ≠ [].
Proof.
  intros Hk Hg. unfold full_triggers. rewrite Hk, Hg. unfold mgr_triggers. cbn. eexists. split; [done|]. split; [|done].
  intros tr Htr. unfold agg_triggers in Htr. cases_in Htr; (split; [done|]; intros ac Hac; cbn in Hac; cases_in Hac; cbn; destruct (ag_sum a); cbn; set_solver).
Qed.
Print Assumptions generic_manager_own_table.
(** Doc.n_tags = CountField('tags') with tags = GenericRelation(TaggedItem). *)
Definition GEN : schema := Schema
  [mkmodel "Doc" "doc" 1 [ExForum.plain "title" "Doc"; aggf "n_tags" "Doc" (Agg "TaggedItem" "object_id" [] [] None [])] [];
   mkmodel "TaggedItem" "taggeditem" 2 [ExForum.plain "content_type_id" "TaggedItem"; ExForum.plain "object_id" "TaggedItem"] []] false.
Definition gen_django : django := Django (λ _ _, MgGeneric "tags") (λ _, []).
Definition full_missing (b : backend) (S : schema) (X : django) : list (option (string * evkind * list (string * string))) :=
  match full_build b S X with
  | Ok ts => (λ p : string * trigger, pt ← read b (trig_text nu1 ut0 b p.1 p.2 (quoted p.2)) (trig_params nu1 b (quoted p.2));
      Some (pt_tab pt, pt_ev pt, filter (λ q, has_columnb S q.1 q.2 = false) (pt_refs pt))) <$> ts
  | Err _ => []
  end.
Theorem generic_manager_counts_refuted b : full_missing b GEN gen_django =
  [Some ("doc", EvUpd, [("doc", "tags"); ("doc", "tags")]); Some ("doc", EvIns, [("doc", "tags")]); Some ("doc", EvDel, [("doc", "tags")])].
Proof. destruct b; vm_compute; reflexivity. Qed.
Print Assumptions generic_manager_counts_refuted.

(** ** C66 *)
(** install_triggers raises nothing when every named model is installed, no declaration skips
    all columns of a model (MySQL: or does) and, on SQLite, the aggregates can be constructed
    there and exclude no values. *)
Theorem triggers_install b S : wf_schema S → resolvable S → (b ≠ MySQL → watches_some S) →
  (b = SQLite → constructible SQLite S ∧ excludes_null S) → ∃ its, installed b S = Ok its.
Proof. apply installs_l. Qed.
Print Assumptions triggers_install.
Definition resolvableb (S : schema) : bool := forallb (λ m, forallb (λ f, forallb (λ dp, match find_model S (dep_other dp) with Some _ => true | None => false end) (field_deps f) &&
  match f_kind f with KAgg a => match find_model S (ag_rel a) with Some _ => true | None => false end | _ => true end) (m_fields m)) (s_models S).
Lemma resolvableb_spec S : resolvableb S = true → resolvable S.
Proof.
  intros H m f Hm%elem_of_list_In Hf%elem_of_list_In. pose proof (proj1 (forallb_forall _ _) H _ Hm) as H1. pose proof (proj1 (forallb_forall _ _) H1 _ Hf) as H2. cbn beta in H2.
  apply andb_true_iff in H2 as [H2 H3]. split.
  - intros dp Hdp%elem_of_list_In. pose proof (proj1 (forallb_forall _ _) H2 _ Hdp) as H4. cbn beta in H4. destruct (find_model S (dep_other dp)); [by eexists|done].
  - intros a Hk. rewrite Hk in H3. destruct (find_model S (ag_rel a)); [by eexists|done].
Qed.
Lemma pk_watched S : (∀ m sk, m ∈ s_models S → skip_on S m sk → ¬ skipped_by m sk (m_pk m)) → watches_some S.
Proof. intros H m sk Hm Hsk. exists (m_pk m). split; [by left|by apply H]. Qed.
Lemma RS_watches : watches_some RS.
Proof.
  apply pk_watched. intros m sk Hm Hsk. assert (Hp : m_pk m = "id" ∧ m_always_skip m = []) by (apply RS_model in Hm as [->|[->|[->| ->]]]; done). destruct Hp as [-> Ha].
  unfold skipped_by. rewrite Ha. by destruct (RS_skip m sk Hm Hsk) as [->| ->]; vm_compute; set_solver.
Qed.
Definition aggs_of (S : schema) : list agg := m ← s_models S; f ← m_fields m; match f_kind f with KAgg a => [a] | _ => [] end.
Lemma aggs_of_in S m f a : m ∈ s_models S → f ∈ m_fields m → f_kind f = KAgg a → a ∈ aggs_of S.
Proof. intros Hm Hf Hk. unfold aggs_of. apply elem_of_list_bind. exists m. split; [|done]. apply elem_of_list_bind. exists f. split; [|done]. rewrite Hk. by left. Qed.
Example triggers_install_ex : wf_schema RS ∧ resolvable RS ∧ watches_some RS ∧ constructible SQLite RS ∧ excludes_null RS ∧ (1 ≤ length (aggs_of RS))%nat ∧
  (∀ b, tset_sqlb b RS = true).
Proof.
  split; [apply RS_wf|]. split; [apply resolvableb_spec; vm_compute; reflexivity|]. split; [apply RS_watches|].
  assert (H : Forall (λ a, agg_init SQLite a = Ok tt ∧ ag_exclude a = []) (aggs_of RS)) by (repeat (constructor; [done|]); constructor).
  split; [intros m f a Hm Hf Hk; by apply (proj1 (Forall_forall _ _) H a), (aggs_of_in RS m f)|].
  split; [intros m f a Hm Hf Hk; rewrite (proj2 (proj1 (Forall_forall _ _) H a (aggs_of_in RS m f a Hm Hf Hk))); constructor|].
  split; [apply (bool_decide_unpack _); vm_compute; exact I|]. intros []; vm_compute; reflexivity.
Qed.
(** Refuted: "what the constructor accepts can be installed".  It refuses a filter on SQLite
    but does not look at exclude. *)
Definition EXC : schema := Schema
  [mkmodel "Forum" "forum" 1 [aggf "many" "Forum" (Agg "Post" "forum_id" [] [Cond1 "title" LExact (VText "")] None [])] [];
   mkmodel "Post" "post" 2 [fkf "forum" "Forum" "Post"; ExForum.plain "title" "Post"] []] false.
Theorem accepted_installs_refuted : ∃ S, wf_schema S ∧ resolvable S ∧ all_agg S ∧ names_plain SQLite S ∧ constructible SQLite S ∧ installed SQLite S = Err ESyntax ∧ none_read SQLite S = true.
Proof.
  exists EXC. split; [apply wf_schemab_spec; vm_compute; reflexivity|]. split; [apply resolvableb_spec; vm_compute; reflexivity|]. split; [apply all_aggb_spec; vm_compute; reflexivity|].
  split; [apply names_plainb_spec; vm_compute; reflexivity|]. split; [|split; vm_compute; reflexivity].
  assert (H : Forall (λ a, agg_init SQLite a = Ok tt) (aggs_of EXC)) by (repeat (constructor; [done|]); constructor).
  intros m f a Hm Hf Hk. by apply (proj1 (Forall_forall _ _) H a), (aggs_of_in EXC m f).
Qed.
Print Assumptions accepted_installs_refuted.
(** Refuted: "what the constructor refuses cannot be installed": filter={'closed': None} needs no parameter. *)
Definition NUL : schema := Schema
  [mkmodel "Forum" "forum" 1 [aggf "many" "Forum" (Agg "Post" "forum_id" [Cond1 "closed" LExact VNull] [] None [])] [];
   mkmodel "Post" "post" 2 [fkf "forum" "Forum" "Post"; ExForum.plain "closed" "Post"] []] false.
Theorem refused_fails_refuted : ∃ S a, a ∈ aggs_of S ∧ agg_init SQLite a = Err ENotImplemented ∧ tset_sqlb SQLite S = true ∧ all_read SQLite S = true.
Proof. exists NUL. eexists. split; [left|]. split; [reflexivity|]. split; vm_compute; reflexivity. Qed.
Print Assumptions refused_fails_refuted.

(** ** C67 *)
(** build_triggerset raises nothing if and only if every aggregate has a manager with a key,
    every model named by a dependency is installed, and no model on which a generic relation
    puts triggers has a reverse one-to-one relation of its own.  [m_gen dp o]: that model. *)
Definition m_gen (m o : model) (dp : dep) (r : model) : Prop :=
  (∃ c i, dep_rel dp = RelGenForward c i ∧ r = o) ∨ (∃ c i, dep_rel dp = RelGenBackward c i ∧ r = m).
Theorem build_raises_iff b S X : wf_schema S →
  (∃ ts, full_build b S X = Ok ts) ↔
  (∀ m f a, m ∈ s_models S → f ∈ m_fields m → f_kind f = KAgg a → has_key S (x_mgr X (m_name m) (f_name f))) ∧
  (∀ m f dp, m ∈ s_models S → f ∈ m_fields m → dp ∈ field_deps f → ∃ o, find_model S (dep_other dp) = Some o ∧
    ∀ r, m_gen m o dp r → IReverseOne (m_name r) ∉ x_items X (m_name r)).
Proof.
  intros Hwf. rewrite full_build_okay.
  assert (Hg : ∀ m o dp r, gen_remote m o dp = Some r ↔ m_gen m o dp r).
  { intros m o dp r. unfold gen_remote, m_gen. destruct (dep_rel dp); split; first [intros [= <-]|intros [(? & ? & ? & ->)|(? & ? & ? & ->)]]; try done; eauto. }
  split.
  - intros H. split.
    + intros m f a Hm Hf Hk. eapply (H m f); [|done]. apply (alldenorms_elem _ _ _ Hwf). split_and!; [done|done|]. unfold is_denorm. by rewrite Hk.
    + intros m f dp Hm Hf Hdp. unfold field_deps in Hdp.
      assert (Hd : (m, f) ∈ alldenorms S) by (apply (alldenorms_elem _ _ _ Hwf); split_and!; [done|done|]; unfold is_denorm; destruct (f_kind f); try done; by apply elem_of_nil in Hdp).
      destruct (H m f Hd) as [_ H2]. destruct (f_kind f) as [| |fn ds sk|a|ds] eqn:Hk; try by apply elem_of_nil in Hdp.
      * destruct (H2 fn ds sk dp ltac:(by left) Hdp) as (o & Ho & Hr). exists o. split; [done|]. intros r Hr'. apply (Hr r). by apply Hg.
      * destruct (H2 (λ _ _ _, Ok (PVal VNull)) ds [] dp ltac:(by right) Hdp) as (o & Ho & Hr). exists o. split; [done|]. intros r Hr'. apply (Hr r). by apply Hg.
  - intros [H1 H2] m f Hin. apply (alldenorms_elem _ _ _ Hwf) in Hin as (Hm & Hf & _). split; [intros a Hk; by eapply H1|].
    intros fn ds sk dp Hk Hdp. destruct (H2 m f dp Hm Hf) as (o & Ho & Hr); [unfold field_deps; by destruct Hk as [->| ->]|]. exists o. split; [done|]. intros r Hr'. apply (Hr r). by apply Hg.
Qed.
Print Assumptions build_raises_iff.
(** And where it raises nothing for the managers of ForeignKeys and OneToOneFields, it returns what Gen.v's does. *)
Theorem build_is_gen b S X : wf_schema S →
  (∀ m f a, m ∈ s_models S → f ∈ m_fields m → f_kind f = KAgg a → key_manager a (x_mgr X (m_name m) (f_name f))) →
  (∀ m f dp o r, m ∈ s_models S → f ∈ m_fields m → dp ∈ field_deps f → find_model S (dep_other dp) = Some o → m_gen m o dp r → IReverseOne (m_name r) ∉ x_items X (m_name r)) →
  full_build b S X = build_triggerset b S.
Proof.
  intros Hwf H1 H2. apply full_build_eq. intros m f Hin. apply (alldenorms_elem _ _ _ Hwf) in Hin as (Hm & Hf & _). split; [intros a Hk; by eapply H1|].
  intros fn ds sk dp o Hk Hdp Ho. apply dep_raises_okay. intros r Hr Hl. eapply (H2 m f dp o r); try done; [unfold field_deps; by destruct Hk as [->| ->]|].
  unfold gen_remote in Hr. unfold m_gen. destruct (dep_rel dp); try done; injection Hr as <-; eauto.
Qed.
Print Assumptions build_is_gen.
(** Doc.first = @denormalized depending on TaggedItem through a GenericRelation.  TaggedItem has
    a reverse one-to-one relation (class Audit: item = OneToOneField(TaggedItem)): refuted that the
    triggers can always be built. *)
Definition GDOC : schema := Schema
  [mkmodel "Doc" "doc" 1 [ExForum.plain "title" "Doc"; cbf "first" "Doc" (λ _ _ _, Ok (PVal (VInt 0))) [Dep "TaggedItem" (RelGenForward "content_type_id" "object_id") []] []] [];
   mkmodel "TaggedItem" "taggeditem" 2 [ExForum.plain "content_type_id" "TaggedItem"; ExForum.plain "object_id" "TaggedItem"] [];
   mkmodel "Audit" "audit" 3 [fkf "item" "TaggedItem" "Audit"] []] false.
Definition gdoc_django (one : bool) : django := Django (λ _ _, MgNone) (λ m,
  if String.eqb m "TaggedItem" then (if one then [IReverseOne "TaggedItem"] else []) ++ [IOther; IField (ExForum.plain "id" "TaggedItem"); IField (ExForum.plain "content_type_id" "TaggedItem"); IField (ExForum.plain "object_id" "TaggedItem")]
  else []).
Theorem generic_dependency_builds_refuted b : wf_schema GDOC ∧ resolvable GDOC ∧ tset_sqlb b GDOC = true ∧ is_okay (full_build b GDOC (gdoc_django false)) = true ∧ full_build b GDOC (gdoc_django true) = Err EAttribute.
Proof.
  split; [apply wf_schemab_spec; vm_compute; reflexivity|]. split; [apply resolvableb_spec; vm_compute; reflexivity|].
  destruct b; (split; [vm_compute; reflexivity|split; vm_compute; reflexivity]).
Qed.
Print Assumptions generic_dependency_builds_refuted.
(** A trigger on the class itself passes over reverse relations, so the same model is no problem there. *)
Theorem class_fields_are_columns m l skip : items_ok m l → class_fields m l skip = model_tfields m skip.
Proof. apply class_fields_eq. Qed.
Print Assumptions class_fields_are_columns.
