(** * Aggregates over aggregates (C73). *)
From Verif Require Import Base BaseLemmas Schema TrigSet Gen Exec Orm Flush Spec SpecAgg Hist AggOps AggChain Check ExForum ExRich ExBad ExAgg ExChain.

(** [agg_link]: as [agg_field], but the columns counted, summed and filtered by may be
    aggregates (or cache keys) of the related model.  [upd_acyclic S rank]: no chain of
    trigger updates leads from a table back to itself. *)
Theorem chained_exact b S rank rand depth E m f a rel hs d :
  wf_schema S → names_apart S → upd_acyclic S rank → mk_env b S rand true depth = Ok E → agg_link S m f a rel →
  Forall (clean_hop m f) hs → fk_valid m a rel d ∧ agg_exact m f a rel d →
  fk_valid m a rel (foldl (hstep E S) d hs) ∧ agg_exact m f a rel (foldl (hstep E S) d hs).
Proof. exact (λ Hwf Hna Hua HE, hist_chain b S rank rand depth E Hwf Hna Hua HE m f a rel hs d). Qed.
Print Assumptions chained_exact.
(** A SumField over a CountField stores the number of rows two relations away. *)
Theorem sum_of_counts b S rank rand depth E m f a rel f' a' rel' hs d k r :
  wf_schema S → names_apart S → upd_acyclic S rank → mk_env b S rand true depth = Ok E →
  agg_link S m f a rel → agg_link S rel f' a' rel' → ag_sum a = Some (f_col f') → ag_sum a' = None →
  Forall (clean_hop m f) hs → Forall (clean_hop rel f') hs →
  fk_valid m a rel d → agg_exact m f a rel d → fk_valid rel a' rel' d → agg_exact rel f' a' rel' d →
  getrow (foldl (hstep E S) d hs) (m_table m) k = Some r →
  col r (f_col f) = VInt (map_fold (λ j _ s, Z.of_nat (size (related (foldl (hstep E S) d hs) rel' a' j)) + s) 0
    (related (foldl (hstep E S) d hs) rel a k)).
Proof. exact (λ Hwf Hna Hua HE, hist_sum_counts b S rank rand depth E Hwf Hna Hua HE m f a rel f' a' rel' hs d k r). Qed.
Print Assumptions sum_of_counts.
Lemma cops_clean : Forall (clean_hop HBoard h_total) cops ∧ Forall (clean_hop HThread h_posts) cops.
Proof.
  unfold cops. split; (repeat (apply Forall_cons; split); [..|apply Forall_nil; exact I]); try exact I; intros Ht; try discriminate Ht;
    intros k r Hin; repeat (apply elem_of_cons in Hin as [[= -> ->]|Hin]); try done; by apply elem_of_nil in Hin.
Qed.
Example chained_ex b :
  mk_env b HS rand0 true 10 = Ok (env_of b HS true) ∧ wf_schema HS ∧ names_apart HS ∧ upd_acyclic HS hrank ∧
  agg_link HS HBoard h_total a_total2 HThread ∧ agg_link HS HThread h_posts a_posts HPost ∧
  Forall (clean_hop HBoard h_total) cops ∧ Forall (clean_hop HThread h_posts) cops ∧
  fk_valid HBoard a_total2 HThread d0 ∧ agg_exact HBoard h_total a_total2 HThread d0 ∧
  fk_valid HThread a_posts HPost d0 ∧ agg_exact HThread h_posts a_posts HPost d0 ∧
  (cellv (cd b) "board" 1 "total", cellv (cd b) "board" 2 "total") = (Some (VInt 4), Some (VInt 0)) ∧
  (λ k, cellv (cd b) "thread" k "n_posts") <$> [1; 2; 3] = Some <$> [VInt 0; VInt 1; VInt 3].
Proof.
  split; [destruct b; vm_compute; reflexivity|]. split; [apply HS_wf|]. split; [apply HS_names|]. split; [apply HS_acyclic|].
  split; [apply HS_total|]. split; [apply HS_posts|]. split; [apply cops_clean|]. split; [apply cops_clean|].
  split; [by apply (exact_empty HBoard h_total)|]. split; [apply exact_spec; by apply exact_empty|].
  split; [by apply (exact_empty HThread h_posts)|]. split; [apply exact_spec; by apply exact_empty|].
  destruct b; vm_compute; split; reflexivity.
Qed.

(** With a relation of a model to itself it fails on SQLite: its triggers do not fire
    recursively, so the update of the inner count by a trigger is not seen by that trigger. *)
Theorem chained_self_refuted : ∃ S m f a hs, wf_schema S ∧ names_apart S ∧ agg_link S m f a m ∧ Forall (clean_hop m f) hs ∧
  mk_env SQLite S rand0 true 10 = Ok (env_of SQLite S true) ∧ fk_valid m a m d0 ∧ agg_exact m f a m d0 ∧
  ¬ agg_exact m f a m (foldl (hstep (env_of SQLite S true) S) d0 hs).
Proof.
  exists US, UNode, u_grand, a_grand, uops. split; [apply US_wf|]. split; [apply US_names|]. split; [apply US_grand|]. split.
  { unfold uops. repeat (apply Forall_cons; split); [..|apply Forall_nil; exact I]; intros _; try (intros r; unfold col; by rewrite lookup_insert_ne);
    intros k r Hin; repeat (apply elem_of_cons in Hin as [[= -> ->]|Hin]); try done; by apply elem_of_nil in Hin. }
  split; [vm_compute; reflexivity|]. split; [by apply (exact_empty UNode u_grand)|]. split; [apply exact_spec; by apply exact_empty|].
  apply (agg_wrong _ _ _ _ _ 1 0 1); [vm_compute; reflexivity|vm_compute; reflexivity|done].
Qed.
Print Assumptions chained_self_refuted.
