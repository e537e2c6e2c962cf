(** * Specification of aggregate fields.

    Stated on the schema and the stored rows only; nothing of the trigger
    generation or execution model is used. *)
From Verif Require Import Base Schema Spec.

(** The meaning of one lookup of [filter=] / [exclude=]: equality ([=None] is IS NULL),
    the ordering lookups on integers, and isnull (0 is False). *)
Definition lookup_true (c : cond1) (v : val) : Prop :=
  match c_op c with
  | LExact => v = c_val c
  | LGt => match v, c_val c with VInt a, VInt b => b < a | _, _ => False end
  | LGte => match v, c_val c with VInt a, VInt b => b ≤ a | _, _ => False end
  | LLt => match v, c_val c with VInt a, VInt b => a < b | _, _ => False end
  | LLte => match v, c_val c with VInt a, VInt b => a ≤ b | _, _ => False end
  | LIsNull => match c_val c with VInt b => v = VNull ↔ b ≠ 0 | _ => False end
  end.
#[global] Instance lookup_true_dec c v : Decision (lookup_true c v).
Proof. unfold lookup_true. repeat case_match; apply _. Defined.

(** [.filter(...).exclude(...)]: all of filter, and not all of exclude. *)
Definition selected (a : agg) (r : row) : Prop :=
  Forall (λ c, lookup_true c (col r (c_col c))) (ag_filter a) ∧
  (ag_exclude a = [] ∨ ¬ Forall (λ c, lookup_true c (col r (c_col c))) (ag_exclude a)).
#[global] Instance selected_dec a r : Decision (selected a r).
Proof. unfold selected. apply _. Defined.

(** The related rows of row [k]. *)
Definition related (d : db) (rel : model) (a : agg) (k : Z) : gmap Z row :=
  filter (λ p : Z * row, col p.2 (ag_fk a) = VInt k ∧ selected a p.2) (tab d (m_table rel)).
Definition summand (v : val) : Z := match v with VInt z => z | _ => 0 end.
(** The number of related rows, or the sum of a column over them. *)
Definition agg_value (d : db) (rel : model) (a : agg) (k : Z) : Z :=
  match ag_sum a with
  | None => Z.of_nat (size (related d rel a k))
  | Some c => map_fold (λ _ r s, summand (col r c) + s) 0 (related d rel a k)
  end.

(** Every row of [m] stores the right value in the aggregate column of [f]. *)
Definition agg_exact (m : model) (f : field) (a : agg) (rel : model) (d : db) : Prop := ∀ k r,
  getrow d (m_table m) k = Some r → col r (f_col f) = VInt (agg_value d rel a k).
(** No related row points at a missing row. *)
Definition fk_valid (m : model) (a : agg) (rel : model) (d : db) : Prop := ∀ j r k,
  getrow d (m_table rel) j = Some r → col r (ag_fk a) = VInt k → is_Some (getrow d (m_table m) k).

(** The columns an aggregate looks at. *)
Definition agg_cols (a : agg) : list string :=
  ag_fk a :: (c_col <$> ag_filter a) ++ (c_col <$> ag_exclude a) ++ match ag_sum a with Some c => [c] | None => [] end.
(** An aggregate field of the schema: its relation is a ForeignKey, and the columns
    it looks at are ordinary or callback columns that no skip list hides. *)
Record agg_field (S : schema) (m : model) (f : field) (a : agg) (rel : model) : Prop := AggField {
  af_model : m ∈ s_models S;
  af_field : f ∈ m_fields m;
  af_kind : f_kind f = KAgg a;
  af_rel : find_model S (ag_rel a) = Some rel;
  af_fk : ∃ g, g ∈ m_fields rel ∧ f_col g = ag_fk a ∧ f_fk g = Some (m_name m);
  af_cols : ∀ c, c ∈ agg_cols a → column_of rel c ∧ tracked S rel c
}.
(** The same without the restriction to ordinary columns: what is counted or summed,
    filtered and excluded may depend on aggregates of the related model. *)
Record agg_link (S : schema) (m : model) (f : field) (a : agg) (rel : model) : Prop := AggLink {
  al_model : m ∈ s_models S;
  al_field : f ∈ m_fields m;
  al_kind : f_kind f = KAgg a;
  al_rel : find_model S (ag_rel a) = Some rel;
  al_fk : ∃ g, g ∈ m_fields rel ∧ f_col g = ag_fk a ∧ f_fk g = Some (m_name m);
  al_cols : ∀ c, c ∈ agg_cols a → tracked S rel c
}.
Coercion agg_field_link S m f a rel (H : agg_field S m f a rel) : agg_link S m f a rel :=
  AggLink _ _ _ _ _ (af_model _ _ _ _ _ H) (af_field _ _ _ _ _ H) (af_kind _ _ _ _ _ H) (af_rel _ _ _ _ _ H) (af_fk _ _ _ _ _ H)
    (λ c Hc, proj2 (af_cols _ _ _ _ _ H c Hc)).

(** Every aggregate field of the schema is of this kind. *)
Definition all_agg (S : schema) : Prop := ∀ m f a, m ∈ s_models S → f ∈ m_fields m → f_kind f = KAgg a → ∃ rel, agg_field S m f a rel.
(** A row adds nothing negative to a SumField. *)
Definition nonneg_row (a : agg) (r : row) : Prop := ∀ c, ag_sum a = Some c → 0 ≤ summand (col r c).
Definition nonneg_db (S : schema) (d : db) : Prop := ∀ m f a rel, agg_field S m f a rel → ∀ j r,
  getrow d (m_table rel) j = Some r → nonneg_row a r.
(** All aggregates of the schema are right. *)
Definition all_agg_exact (S : schema) (d : db) : Prop := ∀ m f a rel, agg_field S m f a rel →
  fk_valid m a rel d ∧ agg_exact m f a rel d.
