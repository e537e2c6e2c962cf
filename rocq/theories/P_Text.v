(** * Property theorems: the complete SQL texts of the triggers, read by a small SQL reader (Read.v). *)
From Verif Require Import Base BaseLemmas Schema TrigSet Gen Exec Orm Spec ExForum ExRich GenLemmas Conditions Render RenderProps Text Read ReadProps ReadStmt ReadTrig ReadMeans ReadGen TextFmt.
From Coq Require Import Ascii.
Open Scope list_scope.

(** ** C61 *)
(** [nu c]: column c is nullable, [ut c]: it is compared as text; [acts]: the actions with
    their way of quoting.  The text of every generated trigger that the model installs is read
    as a trigger with this name, table and event, whose condition and statements mean what the
    model's do, in every database, for every event. *)
Theorem trigger_text_reads_back b S ts n tr it nu ut acts digest rnd :
  names_plain b S → build_triggerset b S = Ok ts → (n, tr) ∈ ts → trig_sql b tr = Ok it → acts.*2 = t_acts tr →
  (∀ s, word_ok b (digest s)) → word_ok b rnd →
  ∃ pt, read b (trig_text nu ut b (final_name b digest rnd tr) tr acts) (trig_params nu b acts) = Some pt ∧
    pt_name pt = final_name b digest rnd tr ∧ pt_tab pt = i_tab it ∧ pt_ev pt = i_ev it ∧
    (∀ E e d, texts_ok ut E e tr → read_cond E e d pt = cond_holds E e (i_cond it)) ∧
    Forall2 (λ s p, ∀ E fire act e d, nulls_ok nu E e p.2 → run_read E fire act e d s = run_action E fire act e d p.2) (pt_stmts pt) (dedup_sql nu b [] acts).
Proof.
  intros HS Hts Hin Hit Ha Hd Hr. destruct (merged_ok _ _ _ _ _ HS Hts Hin) as [Ho Hn]. destruct (trig_sql_inv _ _ _ Hit) as (Hc & Ht & He & _ & _).
  eexists. split; [eapply schema_reads; try done; by apply final_plain|]. cbn [trig_ast pt_name pt_tab pt_ev pt_stmts]. rewrite Ht, He. split_and!; try done.
  - intros E e d Hx. by apply cond_means.
  - apply Forall2_fmap_l. apply Forall_Forall2_diag. apply Forall_forall. intros [q a] Hqa%dedup_sql_in E fire act e d Hnl. cbn [snd] in *. apply (action_means nu E fire act e d b q a); [|done].
    apply Hn. rewrite <- Ha. apply elem_of_list_fmap. by exists (q, a).
Qed.
Print Assumptions trigger_text_reads_back.

(** So, if actions of one text are one action, the text runs like the installed trigger. *)
Theorem trigger_text_runs b S ts n tr it nu ut acts digest rnd :
  names_plain b S → build_triggerset b S = Ok ts → (n, tr) ∈ ts → trig_sql b tr = Ok it → acts.*2 = t_acts tr →
  (∀ s, word_ok b (digest s)) → word_ok b rnd →
  (∀ p p', p ∈ acts → p' ∈ acts → action_key nu b p = action_key nu b p' ↔ p.2 = p'.2) →
  ∃ pt, read b (trig_text nu ut b (final_name b digest rnd tr) tr acts) (trig_params nu b acts) = Some pt ∧
    ∀ E fire act e d, texts_ok ut E e tr → (∀ a, a ∈ t_acts tr → nulls_ok nu E e a) →
      run_ptrig E fire act e d pt = if cond_holds E e (i_cond it) then foldM (run_action E fire act e) d (i_acts it) else Ok d.
Proof.
  intros HS Hts Hin Hit Ha Hd Hr Hk. destruct (trigger_text_reads_back b S ts n tr it nu ut acts digest rnd) as (pt & Hpt & _ & _ & _ & Hc & Hs); try done.
  exists pt. split; [done|]. intros E fire act e d Hx Hn. unfold run_ptrig. rewrite Hc by done. destruct (cond_holds E e (i_cond it)); [|done].
  destruct (trig_sql_inv _ _ _ Hit) as (_ & _ & _ & Hi & _). rewrite Hi, <- Ha, <- (dedup_sql_keys nu b acts Hk).
  apply (foldM_same (λ s a, ∀ d', run_read E fire act e d' s = run_action E fire act e d' a)); [|auto].
  apply Forall2_fmap_r. assert (Hin' : ∀ p, p ∈ dedup_sql nu b [] acts → nulls_ok nu E e p.2).
  { intros p Hp%dedup_sql_in. apply Hn. rewrite <- Ha. apply elem_of_list_fmap. by exists p. }
  clear -Hs Hin'. induction Hs as [|s p l k H Hs IH]; constructor; [intros d'; apply H, Hin'; left|apply IH; intros p' ?; apply Hin'; by right].
Qed.
Print Assumptions trigger_text_runs.

(** What the model does not install is not read: an UPDATE trigger that watches no column
    (SQLite, PostgreSQL), and filter values on SQLite. *)
Theorem trigger_text_rejected b S ts n tr x nu ut acts digest rnd :
  names_plain b S → build_triggerset b S = Ok ts → (n, tr) ∈ ts → trig_sql b tr = Err x → acts.*2 = t_acts tr →
  (∀ s, word_ok b (digest s)) → word_ok b rnd →
  read b (trig_text nu ut b (final_name b digest rnd tr) tr acts) (trig_params nu b acts) = None.
Proof. intros HS Hts Hin Hx Ha Hd Hr. eapply schema_unread; try done. apply final_plain; try done. by apply (merged_ok b S ts n). Qed.
Print Assumptions trigger_text_rejected.

(** The triggers of a schema with their texts, every column quoted. *)
Definition nu1 : string → bool := λ _, true.
Definition ut0 : string → bool := λ _, false.
Definition quoted (tr : trigger) : list (bool * action) := (λ a, (true, a)) <$> t_acts tr.
Definition dig (s : string) : string := "1a2b".
Definition texts (b : backend) (S : schema) : list (trigger * (string * list val)) :=
  match build_triggerset b S with
  | Ok ts => (λ p : string * trigger, (p.2, (trig_text nu1 ut0 b (final_name b dig "abcde" p.2) p.2 (quoted p.2), trig_params nu1 b (quoted p.2)))) <$> ts
  | Err _ => []
  end.
Definition all_read (b : backend) (S : schema) : bool := forallb (λ p : trigger * (string * list val), match read b p.2.1 p.2.2 with Some pt => String.eqb (pt_tab pt) (t_tab p.1) | None => false end) (texts b S).
Definition none_read (b : backend) (S : schema) : bool := existsb (λ p : trigger * (string * list val), match read b p.2.1 p.2.2 with None => true | _ => false end) (texts b S).
Definition tset_sqlb (b : backend) (S : schema) : bool := match installed b S with Ok _ => true | Err _ => false end.
Lemma dig_ok b s : word_ok b (dig s). Proof. by destruct b. Qed.
Lemma rnd_ok b : word_ok b "abcde". Proof. by destruct b. Qed.
(** A schema with ForeignKeys, a ManyToManyField, aggregates and cache keys: its names are
    ordinary, and all its triggers are read. *)
Example rich_names b : names_plain b RS.
Proof. apply names_plainb_spec. destruct b; vm_compute; reflexivity. Qed.
Example rich_texts_read b : all_read b RS = true ∧ tset_sqlb b RS = true ∧ (12 ≤ length (texts b RS))%nat.
Proof. destruct b; (split; [vm_compute; reflexivity|split; [vm_compute; reflexivity|apply (bool_decide_unpack _); vm_compute; exact I]]). Qed.
(** A CountField with a filter on a column that is nowhere NULL; a dependency whose skip
    leaves no column to watch. *)
Definition FLT : schema := Schema
  [mkmodel "Forum" "forum" 1 [aggf "many" "Forum" (Agg "Post" "forum_id" [Cond1 "score" LGte (VInt 3)] [Cond1 "title" LExact (VText "")] None [])] [];
   mkmodel "Post" "post" 2 [fkf "forum" "Forum" "Post"; ExForum.plain "score" "Post"; ExForum.plain "title" "Post"] []] false.
Example filtered_names b : names_plain b FLT.
Proof. apply names_plainb_spec. destruct b; vm_compute; reflexivity. Qed.
Example filtered_texts_read : all_read Postgres FLT = true ∧ all_read MySQL FLT = true ∧ none_read SQLite FLT = true ∧ tset_sqlb SQLite FLT = false.
Proof. vm_compute. done. Qed.

(** ** C62 *)
(** Refuted: "every column and table name Django accepts works".  Tables and some columns
    are not quoted.  A CountField named "order": no text can be read, on any backend. *)
Definition ORD : schema := Schema
  [mkmodel "Forum" "forum" 1 [aggf "order" "Forum" (Agg "Post" "forum_id" [] [] None [])] [];
   mkmodel "Post" "post" 2 [fkf "forum" "Forum" "Post"] []] false.
Theorem any_name_works_refuted b : ∃ S ts, build_triggerset b S = Ok ts ∧ ts ≠ [] ∧
  (∀ m, m ∈ s_models S → ident (m_table m) ∧ ident (m_pk m) ∧ ∀ f, f ∈ m_fields m → ident (f_name f) ∧ ident (f_att f)) ∧
  (∀ n tr, (n, tr) ∈ ts → (∃ it, trig_sql b tr = Ok it) ∧ read b (trig_text nu1 ut0 b n tr (quoted tr)) (trig_params nu1 b (quoted tr)) = None).
Proof.
  exists ORD. destruct (build_triggerset b ORD) as [ts|] eqn:Hts; [|exfalso; destruct b; vm_compute in Hts; discriminate].
  exists ts. split; [done|]. split; [intros ->; destruct b; vm_compute in Hts; discriminate|]. split.
  - intros m Hm. assert (Hb : forallb (λ m, identb (m_table m) && identb (m_pk m) && forallb (λ f, identb (f_name f) && identb (f_att f)) (m_fields m)) (s_models ORD) = true) by (vm_compute; reflexivity).
    pose proof (proj1 (forallb_forall _ _) Hb m (proj1 (elem_of_list_In _ _) Hm)) as H. cbn in H. ands. split; [by apply identb_spec|]. split; [by apply identb_spec|].
    intros f Hf%elem_of_list_In. pose proof (proj1 (forallb_forall _ _) ltac:(eassumption) f Hf) as H'. cbn in H'. ands. split; by apply identb_spec.
  - intros n tr Hin. assert (Hb : match build_triggerset b ORD with
      | Ok ts => forallb (λ p : string * trigger, match trig_sql b p.2 with Ok _ => true | Err _ => false end && match read b (trig_text nu1 ut0 b p.1 p.2 (quoted p.2)) (trig_params nu1 b (quoted p.2)) with None => true | _ => false end) ts
      | Err _ => true end = true) by (destruct b; vm_compute; reflexivity).
    rewrite Hts in Hb. pose proof (proj1 (forallb_forall _ _) Hb _ (proj1 (elem_of_list_In _ _) Hin)) as H. cbn [fst snd] in H. ands. split; [destruct (trig_sql b tr); [by eexists|done]|]. by destruct (read _ _ _).
Qed.
Print Assumptions any_name_works_refuted.
(** A model with db_table = 'Post' on PostgreSQL: the trigger is put on the table "post". *)
Definition UPC : schema := Schema
  [mkmodel "Forum" "forum" 1 [aggf "posts" "Forum" (Agg "Post" "forum_id" [] [] None [])] [];
   mkmodel "Post" "Post" 2 [fkf "forum" "Forum" "Post"] []] false.
Definition tables_read (b : backend) (S : schema) : list (string * option string) :=
  (λ p : trigger * (string * list val), (t_tab p.1, pt_tab <$> read b p.2.1 p.2.2)) <$> texts b S.
Theorem table_name_kept_refuted : tset_sqlb Postgres UPC = true ∧
  tables_read Postgres UPC = [("Post", Some "post"); ("Post", Some "post"); ("Post", Some "post")] ∧
  tables_read SQLite UPC = [("Post", Some "Post"); ("Post", Some "Post"); ("Post", Some "Post")].
Proof. split; [|split]; vm_compute; reflexivity. Qed.
Print Assumptions table_name_kept_refuted.

(** ** C63 *)
(** denorm_sql prints without raising, and without parameters it prints the executed text. *)
Theorem denorm_sql_prints b S ts n tr nu ut acts digest rnd :
  names_plain b S → build_triggerset b S = Ok ts → (n, tr) ∈ ts → acts.*2 = t_acts tr → (∀ s, word_ok b (digest s)) → word_ok b rnd →
  ∃ t, denorm_sql nu ut b (final_name b digest rnd tr) tr acts = Some t ∧
    (trig_params nu b acts = [] → t = trig_text nu ut b (final_name b digest rnd tr) tr acts).
Proof.
  intros HS Hts Hin Ha Hd Hr. destruct (merged_ok _ _ _ _ _ HS Hts Hin) as [Ho Hn]. assert (Hp : plain b (final_name b digest rnd tr)) by (by apply final_plain).
  assert (Hl : Forall (λ p, names_ok b p.1 p.2) (dedup_sql nu b [] acts)).
  { apply Forall_forall. intros [q a] Hqa%dedup_sql_in. apply Hn. rewrite <- Ha. apply elem_of_list_fmap. by exists (q, a). }
  pose proof (tmpl_trig nu ut b _ tr acts Hp Ho Hl) as Ht. destruct (tmpl_formats py_str _ _ Ht) as [t Hx]. exists t. split; [done|]. intros H0. pose proof (tmpl_plain py_str _ _ Ht H0) as Hy. congruence.
Qed.
Print Assumptions denorm_sql_prints.
(** Hence on SQLite it prints what is executed, whenever that is accepted. *)
Theorem denorm_sql_exact_sqlite S ts n tr it nu ut acts digest rnd :
  names_plain SQLite S → build_triggerset SQLite S = Ok ts → (n, tr) ∈ ts → trig_sql SQLite tr = Ok it → acts.*2 = t_acts tr → (∀ s, word_ok SQLite (digest s)) → word_ok SQLite rnd →
  denorm_sql nu ut SQLite (final_name SQLite digest rnd tr) tr acts = Some (trig_text nu ut SQLite (final_name SQLite digest rnd tr) tr acts).
Proof.
  intros HS Hts Hin Hit Ha Hd Hr. destruct (denorm_sql_prints SQLite S ts n tr nu ut acts digest rnd) as (t & -> & Ht); try done. rewrite Ht; [done|].
  apply params_nil. rewrite Ha. by apply (trig_sql_inv _ _ _ Hit).
Qed.
Print Assumptions denorm_sql_exact_sqlite.
Definition printed (b : backend) (S : schema) : list (option ptrig * option ptrig) :=
  match build_triggerset b S with
  | Ok ts => (λ p : string * trigger, (read b (trig_text nu1 ut0 b p.1 p.2 (quoted p.2)) (trig_params nu1 b (quoted p.2)),
      t ← denorm_sql nu1 ut0 b p.1 p.2 (quoted p.2); read b t [])) <$> ts
  | Err _ => []
  end.
#[global] Instance opd_eq_dec : EqDecision opd. Proof. solve_decision. Defined.
#[global] Instance bexp_eq_dec : EqDecision bexp. Proof. solve_decision. Defined.
#[global] Instance xexp_eq_dec : EqDecision xexp. Proof. solve_decision. Defined.
#[global] Instance pstmt_eq_dec : EqDecision pstmt. Proof. solve_decision. Defined.
#[global] Instance ptrig_eq_dec : EqDecision ptrig. Proof. solve_decision. Defined.
(** Integers are printed readably... *)
Definition INT : schema := Schema
  [mkmodel "Forum" "forum" 1 [aggf "many" "Forum" (Agg "Post" "forum_id" [Cond1 "score" LGte (VInt 3); Cond1 "score" LLt (VInt (-7))] [] None [])] [];
   mkmodel "Post" "post" 2 [fkf "forum" "Forum" "Post"; ExForum.plain "score" "Post"] []] false.
Example denorm_sql_integers : forallb (λ b, forallb (λ p : option ptrig * option ptrig, bool_decide (p.1 = p.2 ∧ p.1 ≠ None)) (printed b INT) && negb (bool_decide (printed b INT = []))) [Postgres; MySQL] = true.
Proof. vm_compute. reflexivity. Qed.
(** Refuted for text: the values are printed without quotes, as the project's own test
    models have it: exclude = {'title': ''} prints a text that cannot be read, and a value
    that is a name is read as a column. *)
Definition TXT : schema := Schema
  [mkmodel "Forum" "forum" 1 [aggf "many" "Forum" (Agg "Post" "forum_id" [] [Cond1 "title" LExact (VText "")] None [])] [];
   mkmodel "Post" "post" 2 [fkf "forum" "Forum" "Post"; ExForum.plain "title" "Post"] []] false.
Definition TX2 : schema := Schema
  [mkmodel "Forum" "forum" 1 [aggf "many" "Forum" (Agg "Post" "forum_id" [Cond1 "title" LExact (VText "id")] [] None [])] [];
   mkmodel "Post" "post" 2 [fkf "forum" "Forum" "Post"; ExForum.plain "title" "Post"] []] false.
Theorem denorm_sql_text_refuted :
  forallb (λ b, negb (bool_decide (printed b TXT = [])) && forallb (λ p : option ptrig * option ptrig, bool_decide (p.1 ≠ None ∧ p.2 = None)) (printed b TXT) &&
    forallb (λ p : option ptrig * option ptrig, bool_decide (p.1 ≠ None ∧ p.2 ≠ None ∧ p.1 ≠ p.2)) (printed b TX2)) [Postgres; MySQL] = true.
Proof. vm_compute. reflexivity. Qed.
Print Assumptions denorm_sql_text_refuted.
