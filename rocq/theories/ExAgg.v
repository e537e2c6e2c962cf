(** * A schema with filtered, summed and callback-filtered aggregates. *)
From Verif Require Import Base BaseLemmas Schema TrigSet Gen Exec Orm Flush Spec SpecAgg GenLemmas Hist Check ExForum ExBad.

Definition agg_fieldb (S : schema) (m : model) (a : agg) : bool :=
  match find_model S (ag_rel a) with
  | Some rel => existsb (λ g, bool_decide (f_col g = ag_fk a) && bool_decide (f_fk g = Some (m_name m))) (m_fields rel) &&
                forallb (λ c, column_ofb rel c && trackedb S rel c) (agg_cols a)
  | None => false
  end.
Lemma agg_fieldb_spec S m f a rel : m ∈ s_models S → f ∈ m_fields m → f_kind f = KAgg a → find_model S (ag_rel a) = Some rel →
  agg_fieldb S m a = true → agg_field S m f a rel.
Proof.
  intros Hm Hf Hk Hr H. unfold agg_fieldb in H. rewrite Hr in H. apply andb_true_iff in H as [H1 H2].
  split; [done..| |].
  - apply exb_spec in H1 as (g & Hg & Hp). bsplit. by exists g.
  - intros c Hc. allb H2 c as B. apply andb_true_iff in B as [B1 B2]. split; [by apply column_ofb_spec|by apply trackedb_spec].
Qed.
Definition all_aggb (S : schema) : bool := forallb (λ x : model * field, match f_kind x.2 with KAgg a => agg_fieldb S x.1 a | _ => true end) (all_fields S).
Lemma all_aggb_spec S : all_aggb S = true → all_agg S.
Proof.
  intros H m f a Hm Hf Hk. pose proof (all_fields_in _ _ _ Hm Hf) as Hin. unfold all_aggb in H. allb H (m, f) as B. rewrite Hk in B.
  destruct (find_model S (ag_rel a)) as [rel|] eqn:Hr; [|unfold agg_fieldb in B; by rewrite Hr in B]. exists rel. by apply agg_fieldb_spec.
Qed.

Lemma agg_wrong d m f a rel k v w : cellv d (m_table m) k (f_col f) = Some (VInt v) → agg_value d rel a k = w → v ≠ w → ¬ agg_exact m f a rel d.
Proof.
  unfold cellv. intros Hc Hv Hne H. destruct (getrow d (m_table m) k) as [r|] eqn:Hr; [|done]. specialize (H k r Hr). simpl in Hc. congruence.
Qed.
(** n_open = CountField("item_set", filter={"state": 1}, exclude={"weight__gt": 5});
    total = SumField("item_set", field="score");
    n_flag = CountField("item_set", filter={"flag": 1}) where flag is itself denormalized. *)
Definition cb_flag : callback := λ _ _ r, Ok (PVal (match col r "score" with VInt s => if decide (3 < s) then VInt 1 else VInt 0 | _ => VInt 0 end)).
Definition a_open : agg := Agg "Item" "parent_id" [Cond1 "state" LExact (VInt 1)] [Cond1 "weight" LGt (VInt 5)] None [].
Definition a_total : agg := Agg "Item" "parent_id" [] [] (Some "score") [].
Definition a_flag : agg := Agg "Item" "parent_id" [Cond1 "flag" LExact (VInt 1)] [] None [].
Definition g_open : field := aggf "n_open" "Parent" a_open.
Definition g_total : field := aggf "total" "Parent" a_total.
Definition g_flag : field := aggf "n_flag" "Parent" a_flag.
Definition GParent : model := mkmodel "Parent" "parent" 40 [plain "title" "Parent"; g_open; g_total; g_flag] [].
Definition GItem : model := mkmodel "Item" "item" 41
  [ fkf "parent" "Parent" "Item"; plain "state" "Item"; plain "weight" "Item"; plain "score" "Item"; cbf "flag" "Item" cb_flag [] [] ] [].
Definition GS : schema := Schema [GParent; GItem] false.
Definition GE (b : backend) : env := env_of b GS true.
(** Filter values are bound parameters, which SQLite does not accept inside a trigger. *)
Lemma GE_ok b : b ≠ SQLite → mk_env b GS rand0 true 10 = Ok (GE b).
Proof. intros Hb. destruct b; [done|..]; vm_compute; reflexivity. Qed.
Lemma GE_sqlite : mk_env SQLite GS rand0 true 10 = Err ESyntax.
Proof. vm_compute. reflexivity. Qed.
Lemma GS_wf : wf_schema GS. Proof. apply wf_schemab_spec. by vm_compute. Qed.
Lemma GS_names : names_apart GS. Proof. apply names_apartb_spec. by vm_compute. Qed.
Lemma GS_agg : all_agg GS. Proof. apply all_aggb_spec. by vm_compute. Qed.
Ltac inl := simpl; set_solver.
Lemma GS_open : agg_field GS GParent g_open a_open GItem.
Proof. apply agg_fieldb_spec; [inl|inl|done|done|by vm_compute]. Qed.
Lemma GS_total : agg_field GS GParent g_total a_total GItem.
Proof. apply agg_fieldb_spec; [inl|inl|done|done|by vm_compute]. Qed.
Lemma GS_flag : agg_field GS GParent g_flag a_flag GItem.
Proof. apply agg_fieldb_spec; [inl|inl|done|done|by vm_compute]. Qed.
(** Every aggregate field of the schema is one of the three. *)
Lemma GS_only m f a rel : agg_field GS m f a rel → m = GParent ∧ rel = GItem ∧ (f = g_open ∧ a = a_open ∨ f = g_total ∧ a = a_total ∨ f = g_flag ∧ a = a_flag).
Proof.
  intros [Hm Hf Hk Hr _ _]. simpl in Hm. apply elem_of_cons in Hm as [->|Hm]; [|apply elem_of_list_singleton in Hm as ->].
  - simpl in Hf. repeat (apply elem_of_cons in Hf as [->|Hf]); [done|..|by apply elem_of_nil in Hf]; injection Hk as <-; injection Hr as <-; eauto 6.
  - simpl in Hf. repeat (apply elem_of_cons in Hf as [->|Hf]); [done..|by apply elem_of_nil in Hf].
Qed.

Definition item (p : val) (st w s : Z) : row := rowof [("parent_id", p); ("state", VInt st); ("weight", VInt w); ("score", VInt s); ("flag", VInt 0)].
Definition prow (t : string) : row := rowof [("title", VText t); ("n_open", VInt 0); ("total", VInt 0); ("n_flag", VInt 0)].
(** Two parents; items by raw insert and by save; a bulk update flipping a filter column;
    moving an item to the other parent; a bulk delete; an item without parent; a flush in between. *)
Definition gops : list hop :=
  [ HOp (OInsert "parent" [(1, prow "a"); (2, prow "b")]);
    HOp (OInsert "item" [(1, item (VInt 1) 1 0 4); (2, item (VInt 1) 1 9 5); (3, item (VInt 2) 0 1 6); (4, item VNull 1 1 7)]);
    HOp (OSave "Item" None (item (VInt 1) 1 5 10));
    HOp (OUpdate "item" [2; 3] (λ r, <["state" := VInt 1]> r));
    HFlush id_ord 5;
    HOp (OUpdate "item" [3] (λ r, <["parent_id" := VInt 1]> r));
    HOp (OUpdate "item" [1] (λ r, <["parent_id" := VInt 2]> r));
    HOp (OSave "Item" (Some 2) (item (VInt 1) 1 2 1));
    HOp (ODelete "item" [4; 5]) ].
Definition gd (b : backend) : db := foldl (hstep (GE b) GS) d0 gops.
