(** * Which cells a computed value depends on.

    Stated on the schema, the stored rows and the callbacks only; nothing of the
    trigger generation, statement execution, saving or flushing model is used. *)
From Verif Require Import Base Schema Spec SpecAgg.

(** The columns of its own row a callback looks at: those it reads and the foreign
    keys it follows. *)
Definition own_cols (rd : reads) : list string :=
  rd_own rd ++ omap (λ p : dep * list string, match dep_rel p.1 with RelForward fk => Some fk | _ => None end) (rd_via rd).

(** [reads_cell S d m rd k r o j c]: a callback of row [k] (stored as [r]) of model [m]
    that reads [rd] may look at column [c] of row [j] of model [o].  Rows are related
    as stored in [d]; where the relation itself is a computed column, every row
    counts as related. *)
Inductive reads_cell (S : schema) (d : db) (m : model) (rd : reads) (k : Z) (r : row) : model → Z → string → Prop :=
  | rc_own c : c ∈ own_cols rd → reads_cell S d m rd k r m k c
  | rc_fwd dp cs o fk j c : (dp, cs) ∈ rd_via rd → find_model S (dep_other dp) = Some o → dep_rel dp = RelForward fk →
      (plain_col m fk → col r fk = VInt j) → c ∈ cs → reads_cell S d m rd k r o j c
  | rc_bwd dp cs o fk j r' c : (dp, cs) ∈ rd_via rd → find_model S (dep_other dp) = Some o → dep_rel dp = RelBackward fk →
      getrow d (m_table o) j = Some r' → (plain_col o fk → col r' fk = VInt k) → c ∈ fk :: cs → reads_cell S d m rd k r o j c
  | rc_m2m dp cs o t lc rc l lr j c : (dp, cs) ∈ rd_via rd → find_model S (dep_other dp) = Some o → dep_rel dp = RelM2M t lc rc →
      getrow d t l = Some lr → col lr lc = VInt k → col lr rc = VInt j → c ∈ cs → reads_cell S d m rd k r o j c
  | rc_gen dp cs o ctc oidc j r' c : (dp, cs) ∈ rd_via rd → find_model S (dep_other dp) = Some o → dep_rel dp = RelGenForward ctc oidc →
      getrow d (m_table o) j = Some r' → (plain_col o ctc → col r' ctc = VInt (m_ct m)) →
      (plain_col o oidc → to_text (col r' oidc) = Some (pretty k)) → c ∈ ctc :: oidc :: cs → reads_cell S d m rd k r o j c.

Definition callback_col (m : model) (c : string) : Prop :=
  ∃ f fn ds sk, f ∈ m_fields m ∧ f_col f = c ∧ f_kind f = KCallback fn ds sk.

(** A cell that flush() does not change: an ordinary column, or an aggregate over
    ordinary columns that holds a number. *)
Definition steady (S : schema) (d : db) (o : model) (j : Z) (c : string) : Prop :=
  plain_col o c ∨
  ∃ g a rel, agg_field S o g a rel ∧ f_col g = c ∧ (∀ c', c' ∈ agg_cols a → plain_col rel c') ∧
    ∀ r, getrow d (m_table o) j = Some r → ∃ v, col r c = VInt v.

(** The value dependencies between cells are acyclic: every callback reads, besides
    steady cells, only callback cells of smaller rank.  [ρ] ranks a column of a row
    of a table. *)
Definition value_acyclic (S : schema) (ρ : string → Z → string → nat) (d : db) : Prop := ∀ m f fn ds sk k r,
  m ∈ s_models S → f ∈ m_fields m → f_kind f = KCallback fn ds sk → getrow d (m_table m) k = Some r →
  ∃ rd, reads_only S m fn rd ∧ (∀ dp cs, (dp, cs) ∈ rd_via rd → dp ∈ ds) ∧
    ∀ o j c, reads_cell S d m rd k r o j c →
      steady S d o j c ∨ (callback_col o c ∧ (ρ (m_table o) j c < ρ (m_table m) k (f_col f))%nat).

(** Two databases have the same value in a cell (if both have the row). *)
Definition agree_cell (d d' : db) (o : model) (j : Z) (c : string) : Prop := ∀ r r',
  getrow d (m_table o) j = Some r → getrow d' (m_table o) j = Some r' → col r c = col r' c.
Definition steady_kept (S : schema) (d d' : db) : Prop := ∀ o j c, o ∈ s_models S → steady S d o j c → agree_cell d d' o j c.

(** ** Rows that every save changes, and the types of rows such a save marks *)
(** A change in table [t] marks rows of content type [ct] through a declared
    dependency. *)
Inductive dep_edge (S : schema) : string → Z → Prop :=
  | de_other m f fn ds sk dp o : m ∈ s_models S → f ∈ m_fields m → f_kind f = KCallback fn ds sk → dp ∈ ds →
      find_model S (dep_other dp) = Some o → dep_edge S (m_table o) (m_ct m)
  | de_link m f fn ds sk dp o t c rc : m ∈ s_models S → f ∈ m_fields m → f_kind f = KCallback fn ds sk → dp ∈ ds →
      find_model S (dep_other dp) = Some o → dep_rel dp = RelM2M t c rc → dep_edge S t (m_ct m).
(** A change in table [t] makes triggers update aggregates or cache keys in [t']. *)
Inductive updates (S : schema) : string → string → Prop :=
  | up_table m t : m ∈ s_models S → upd_source S m t → updates S t (m_table m).
(** Saving a row of [m] may mark rows of content type [ct] besides the row itself:
    because they depend on the table of [m], or on a table whose aggregates or cache
    keys are updated in turn, or because they are the rows so updated. *)
Inductive echo (S : schema) (m : model) (ct : Z) : Prop :=
  | ec_dep : dep_edge S (m_table m) ct → echo S m ct
  | ec_upd t : tc (updates S) (m_table m) t → dep_edge S t ct → echo S m ct
  | ec_self m' c : tc (updates S) (m_table m) (m_table m') → m' ∈ s_models S → callback_col m' c → ct = m_ct m' → echo S m ct.
(** A save of an unchanged row of [m] fires its triggers: the row has a watched
    auto_now or cache-key column, which every save rewrites; or the condition of its
    triggers does not look at changes only (PostgreSQL with a generic relation, MySQL
    with a skip list that hides all columns). *)
Inductive restless (b : backend) (S : schema) (m : model) : Prop :=
  | rl_auto g : g ∈ m_fields m → f_kind g = KAutoNow → watched S (m_table m) (f_col g) → restless b S m
  | rl_key g ds : g ∈ m_fields m → f_kind g = KCacheKey ds → watched S (m_table m) (f_col g) → restless b S m
  | rl_pg cf ct : b = Postgres → gen_on S (m_table m) cf ct → restless b S m
  | rl_my sk : b = MySQL → skip_on S m sk → skipped_by m sk (m_pk m) → restless b S m.
(** Restless rows do not mark each other in a cycle: [σ] decreases along [echo]. *)
Definition calm (b : backend) (S : schema) (σ : Z → nat) : Prop := ∀ m ct,
  m ∈ s_models S → restless b S m → echo S m ct → (σ ct < σ (m_ct m))%nat.
