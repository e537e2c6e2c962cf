(** * What a save or a flush of unchanged data may do.
    Stated on the schema, the stored rows and the callbacks only. *)
From Verif Require Import Base Schema Spec SpecAgg SpecOrder.

(** A column that every save rewrites: auto_now columns and cache keys. *)
Definition clock_col (m : model) (c : string) : Prop :=
  ∃ g, g ∈ m_fields m ∧ f_col g = c ∧ match f_kind g with KAutoNow | KCacheKey _ => True | _ => False end.
(** No callback looks at such a column. *)
Definition reads_no_clock (S : schema) : Prop := ∀ m f fn ds sk,
  m ∈ s_models S → f ∈ m_fields m → f_kind f = KCallback fn ds sk →
  ∃ rd, reads_only S m fn rd ∧ (∀ dp cs, (dp, cs) ∈ rd_via rd → dp ∈ ds) ∧
    ∀ d k r o j c, o ∈ s_models S → reads_cell S d m rd k r o j c → ¬ clock_col o c.
(** Same rows with the same values, up to these columns. *)
Definition data_kept (S : schema) (d d' : db) : Prop :=
  (∀ m, m ∈ s_models S → same_rows (m_table m) (λ c, ¬ clock_col m c) d d') ∧
  (∀ t, (∀ m, m ∈ s_models S → m_table m ≠ t) → same_rows t (λ _, True) d d').

(** An instance [r] of row [k] whose counts and sums are those stored. *)
Definition counts_current (m : model) (r stored : row) : Prop := ∀ g a,
  g ∈ m_fields m → f_kind g = KAgg a → col r (f_col g) = col stored (f_col g).
(** The instance [r] of row [k] does not refer to itself. *)
Definition not_self_related (m : model) (d : db) (k : Z) (r : row) : Prop := ∀ f fn ds sk dp,
  f ∈ m_fields m → f_kind f = KCallback fn ds sk → dp ∈ ds → ¬ self_related m d k r dp.

(** The functions of [m] give an instance the same value whether its key is [pk] (None:
    not saved yet) or the key [k] it gets. *)
Definition key_alike (m : model) (d : db) (pk : option Z) (k : Z) : Prop := ∀ f fn ds sk d' r,
  f ∈ m_fields m → f_kind f = KCallback fn ds sk → d_tabs d' = d_tabs d → fn d' pk r = fn d' (Some k) r.

(** ** DENORM_BULK_UNSAFE_TRIGGERS *)
(** [flushable] without the condition that the setting is off. *)
Record savable (S : schema) (rank : string → nat) (imm : bool) : Prop := Savable {
  sa_wf : wf_schema S;
  sa_links : wf_links S;
  sa_names : names_apart S;
  sa_m2m : no_m2m_dep S ∨ (imm = true ∧ m2m_declared S);
  sa_acyclic : upd_acyclic S rank;
  sa_self : self_deps_plain S;
  sa_nodm : no_m2m_denorm S;
  sa_truthy : all_truthy S;
  sa_settled : all_settled S rank
}.
(** The callbacks read no counts, sums or cache keys of their own row. *)
Definition own_stored (S : schema) (rank : string → nat) : Prop := ∀ m f fn ds sk,
  m ∈ s_models S → f ∈ m_fields m → f_kind f = KCallback fn ds sk →
  ∃ rd, covered S m f fn ds rd ∧ settled S rank m f rd ∧ ∀ c, c ∈ rd_own rd → column_of m c.
