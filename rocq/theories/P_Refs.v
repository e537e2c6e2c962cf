(** * Property theorems: what the trigger texts refer to exists. *)
From Verif Require Import Base BaseLemmas Schema TrigSet Gen Exec Orm Spec SpecAgg ExForum ExRich ExAgg Check GenLemmas Conditions Render RenderProps Text Read ReadProps ReadStmt ReadTrig ReadMeans ReadGen TextFmt P_Text Refs.
Open Scope list_scope.

(** ** C64 *)
(** Every installed trigger is read from its text (Read.v), is on a table of the schema, and
    all tables and columns its condition and statements refer to exist; an INSERT trigger does
    not refer to OLD and a DELETE trigger does not refer to NEW. *)
Theorem references_exist b S ts n tr it nu ut acts digest rnd :
  wf_schema S → m2m_exists S → all_agg S → names_apart S → names_plain b S →
  build_triggerset b S = Ok ts → (n, tr) ∈ ts → trig_sql b tr = Ok it → acts.*2 = t_acts tr →
  (∀ s, word_ok b (digest s)) → word_ok b rnd →
  ∃ pt, read b (trig_text nu ut b (final_name b digest rnd tr) tr acts) (trig_params nu b acts) = Some pt ∧
    (∃ c, has_column S (pt_tab pt) c) ∧
    Forall (λ p, has_column S p.1 p.2) (pt_refs pt) ∧ Forall (row_exists (pt_ev pt)) (pt_rows pt).
Proof.
  intros HS Hm2 Hag Hna Hnp Hts Hin Hit Ha Hd Hr. eapply refs_exist_l; try done. apply final_plain; try done. by apply (merged_ok b S ts n).
Qed.
Print Assumptions references_exist.

(** All references of the texts of a schema, of triggers that can be created. *)
Definition read_refs (b : backend) (S : schema) : list (string * string) :=
  mjoin ((λ p : trigger * (string * list val), match trig_sql b p.1, read b p.2.1 p.2.2 with Ok _, Some pt => pt_refs pt | _, _ => [] end) <$> texts b S).
Example references_exist_ex b : wf_schema RS ∧ m2m_exists RS ∧ all_agg RS ∧ names_apart RS ∧ names_plain b RS ∧ tset_sqlb b RS = true ∧
  (50 ≤ length (read_refs b RS))%nat ∧ forallb (λ p, has_columnb RS p.1 p.2) (read_refs b RS) = true.
Proof.
  split; [apply RS_wf|]. split; [apply m2m_existsb_spec; vm_compute; reflexivity|]. split; [apply all_aggb_spec; vm_compute; reflexivity|].
  split; [apply names_apartb_spec; vm_compute; reflexivity|]. split; [apply rich_names|].
  destruct b; (split; [vm_compute; reflexivity|split; [apply (bool_decide_unpack _); vm_compute; exact I|vm_compute; reflexivity]]).
Qed.
Example references_exist_ex2 : wf_schema GS ∧ m2m_exists GS ∧ all_agg GS ∧ names_apart GS ∧ names_plain Postgres GS ∧ tset_sqlb Postgres GS = true ∧
  (30 ≤ length (read_refs Postgres GS))%nat ∧ forallb (λ p, has_columnb GS p.1 p.2) (read_refs Postgres GS) = true.
Proof.
  split; [apply GS_wf|]. split; [apply m2m_existsb_spec; vm_compute; reflexivity|]. split; [apply GS_agg|]. split; [apply GS_names|].
  split; [apply names_plainb_spec; vm_compute; reflexivity|]. split; [vm_compute; reflexivity|split; [apply (bool_decide_unpack _); vm_compute; exact I|vm_compute; reflexivity]].
Qed.

(** Refuted with db_column.  [refers S p]: a trigger that the model installs is read as one
    that refers to [p]. *)
Definition refers (b : backend) (S : schema) (p : string * string) : Prop := ∃ ts n tr it pt, build_triggerset b S = Ok ts ∧ (n, tr) ∈ ts ∧ trig_sql b tr = Ok it ∧
  read b (trig_text nu1 ut0 b (final_name b dig "abcde" tr) tr (quoted tr)) (trig_params nu1 b (quoted tr)) = Some pt ∧ p ∈ pt_refs pt.
Lemma read_refs_spec b S p : p ∈ read_refs b S → refers b S p.
Proof.
  unfold read_refs, texts. intros H. destruct (build_triggerset b S) as [ts|] eqn:Hts; [|by apply elem_of_nil in H].
  apply elem_of_list_join in H as (rs & Hp & H). apply elem_of_list_fmap in H as (q & -> & H). apply elem_of_list_fmap in H as ([n tr] & -> & H). cbn [fst snd] in Hp.
  destruct (trig_sql b tr) as [it|] eqn:Hit; [|by apply elem_of_nil in Hp]. destruct (read b _ _) as [pt|] eqn:Hr; [|by apply elem_of_nil in Hp].
  by exists ts, n, tr, it, pt.
Qed.
(** The three places: the watched columns and the key of the related model are given by their
    attribute names, a summed column by its field name (DBC: fields of Post), and the aggregate
    column by its field name (DBA: the CountField itself). *)
Definition DBC : schema := Schema
  [mkmodel "Forum" "forum" 1 [aggf "total" "Forum" (Agg "Post" "forum_id" [] [] (Some "score") [])] [];
   mkmodel "Post" "post" 2 [Field "forum" "forum_id" "f" (Some "Forum") "Post" KPlain; Field "score" "score" "pts" None "Post" KPlain] []] false.
Definition dba_many : field := Field "many" "many" "n" None "Forum" (KAgg (Agg "Post" "forum_id" [] [] None [])).
Definition DBA : schema := Schema
  [mkmodel "Forum" "forum" 1 [dba_many] [];
   mkmodel "Post" "post" 2 [fkf "forum" "Forum" "Post"; ExForum.plain "score" "Post"] []] false.
Definition missing (b : backend) (S : schema) : list (string * string) := filter (λ p, has_columnb S p.1 p.2 = false) (read_refs b S).
Lemma missing_spec b S p : p ∈ missing b S → refers b S p ∧ ¬ has_column S p.1 p.2.
Proof. intros [H1 H2]%elem_of_list_filter. split; [by apply read_refs_spec|by apply has_columnb_false]. Qed.
Theorem references_exist_db_column_refuted b :
  (∃ S p, names_plain b S ∧ tset_sqlb b S = true ∧ refers b S p ∧ ¬ has_column S p.1 p.2) ∧
  (∀ p, p ∈ [("post", "forum_id"); ("post", "score")] → refers b DBC p ∧ ¬ has_column DBC p.1 p.2) ∧
  (refers b DBA ("forum", "many") ∧ ¬ has_column DBA "forum" "many" ∧ has_column DBA "forum" "n").
Proof.
  assert (HC : forallb (λ p, bool_decide (p ∈ missing b DBC)) [("post", "forum_id"); ("post", "score")] = true) by (destruct b; vm_compute; reflexivity).
  assert (HA : bool_decide (("forum", "many") ∈ missing b DBA) = true) by (destruct b; vm_compute; reflexivity). apply bool_decide_eq_true, missing_spec in HA as [HA1 HA2].
  split_and!; [|intros p Hp; apply missing_spec; apply (bool_decide_unpack _); apply Is_true_eq_left; by apply (proj1 (forallb_forall _ _) HC p), elem_of_list_In|done|done|].
  - exists DBA, ("forum", "many"). split_and!; [apply names_plainb_spec; destruct b; vm_compute; reflexivity|destruct b; vm_compute; reflexivity|done|done].
  - eapply (hc_field DBA (mkmodel "Forum" "forum" 1 [dba_many] []) dba_many); [by left|left|done].
Qed.
Print Assumptions references_exist_db_column_refuted.
