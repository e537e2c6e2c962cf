(** * What the code reads from the Django model classes.

    Models [model._meta] as far as denorm/denorms.py, denorm/dependencies.py,
    denorm/helpers.py and denorm/db/base.py consult it, together with the
    denormalization declarations of denorm/fields.py. *)
From Verif Require Import Base.

Inductive backend := SQLite | Postgres | MySQL.
#[global] Instance backend_eq_dec : EqDecision backend.
Proof. solve_decision. Defined.

(** Lookups usable in [filter=] / [exclude=] of an aggregate field
    (denorm/fields.py:118-125).  Only lookups on local columns are modelled. *)
Inductive lkp := LExact | LGt | LGte | LLt | LLte | LIsNull.
#[global] Instance lkp_eq_dec : EqDecision lkp.
Proof. solve_decision. Defined.
Record cond1 := Cond1 { c_col : string; c_op : lkp; c_val : val }.
#[global] Instance cond1_eq_dec : EqDecision cond1.
Proof. solve_decision. Defined.

(** The type of relation a dependency resolves to (denorm/dependencies.py:72-77)
    together with the relation field. The string types 'forward', 'backward',
    'forward_m2m', 'backward_m2m' are split by the class of the field. *)
Inductive relation :=
  | RelForward (fk : string)               (** ForeignKey column on this_model *)
  | RelBackward (fk : string)              (** ForeignKey column on other_model *)
  | RelM2M (tab c rc : string)             (** ManyToManyField: table, column of this_model, column of other_model *)
  | RelGenForward (ctc oidc : string)      (** GenericRelation on this_model to other_model: its content type and object id columns *)
  | RelGenBackward (ctc oidc : string).    (** GenericRelation on other_model to this_model *)
#[global] Instance relation_eq_dec : EqDecision relation.
Proof. solve_decision. Defined.

(** A resolved DependOnRelated (denorm/dependencies.py:37-42, 64-92);
    how it is resolved is modelled in Resolve.v. *)
Record dep := Dep {
  dep_other : string;        (** other_model (name) *)
  dep_rel : relation;        (** self.type, self.field *)
  dep_skip : list string     (** self.skip = skip or () *)
}.

(** Python results of a callback: a plain value or a model instance
    (denorm/fields.py:74). *)
Inductive pyval := PVal (v : val) | PInst (m : string) (pk : Z).
#[global] Instance pyval_eq_dec : EqDecision pyval.
Proof. solve_decision. Defined.

(** A callback: arbitrary function of the database and the in-memory instance
    (primary key, if any, and attributes); it may raise. *)
Definition callback := db → option Z → row → res pyval.
(** The callback of a denormalized m2m field returns objects or keys; only the
    keys matter (denorm/denorms.py:47-51, 120-126). *)
Definition m2m_callback := db → option Z → row → res (list Z).

(** An aggregate declaration (denorm/fields.py:103-142, denorm/denorms.py:305-321).
    The manager is represented by what it resolves to: the related model and the
    attname of its ForeignKey. [ag_sum = None] is CountField, [Some f] SumField. *)
Record agg := Agg {
  ag_rel : string;
  ag_fk : string;
  ag_filter : list cond1;
  ag_exclude : list cond1;
  ag_sum : option string;
  ag_skip : list string      (** skip or () *)
}.

Inductive fkind :=
  | KPlain                                   (** ordinary column *)
  | KAutoNow                                 (** DateTimeField(auto_now=True) *)
  | KCallback (fn : callback) (deps : list dep) (skip : list string)  (** @denormalized *)
  | KAgg (a : agg)                           (** CountField / SumField *)
  | KCacheKey (deps : list dep).             (** CacheKeyField *)

Record field := Field {
  f_name : string;           (** field.name *)
  f_att : string;            (** field.attname; also the column: see [f_col] *)
  f_col : string;            (** get_attname_column()[1] *)
  f_fk : option string;      (** Some m: ForeignKey/OneToOneField to model m *)
  f_owner : string;          (** field.model: differs from the model for inherited fields *)
  f_kind : fkind
}.

(** ManyToManyField (auto-created intermediate table). *)
Record m2m := M2M {
  mm_name : string;
  mm_to : string;
  mm_table : string;         (** m2m_db_table() *)
  mm_col : string;           (** m2m_column_name() *)
  mm_rev : string;           (** m2m_reverse_name() *)
  mm_denorm : option (m2m_callback * list dep)
}.

Record model := Model {
  m_name : string;
  m_app : string;
  m_table : string;
  m_pk : string;             (** primary key column *)
  m_ct : Z;                  (** ContentType.objects.get_for_model(model).pk *)
  m_proxy : bool;
  m_swapped : bool;
  m_fields : list field;     (** _meta.fields without the primary key *)
  m_m2m : list m2m;          (** _meta.local_many_to_many *)
  m_always_skip : list string; (** denorm_always_skip *)
  m_truthy : row → bool;     (** bool(instance) *)
  m_visible : row → bool     (** rows returned by model.objects *)
}.

(** All installed models in get_models(include_auto_created=True) order, and the
    two settings consulted (denorm/fields.py:41). *)
Record schema := Schema {
  s_models : list model;
  s_bulk_unsafe : bool       (** settings.DENORM_BULK_UNSAFE_TRIGGERS *)
}.

Definition find_model (S : schema) (n : string) : option model :=
  list_find (λ m, m_name m = n) (s_models S) ≫= λ p, Some p.2.

Definition pk_of_table (S : schema) (t : string) : string :=
  match list_find (λ m, m_table m = t) (s_models S) with
  | Some (_, m) => m_pk m
  | None => "id"              (** auto-created m2m tables have an AutoField id *)
  end.

(** The columns written by triggers or by save() on behalf of denorm. *)
Definition is_denorm (f : field) : bool :=
  match f_kind f with KCallback _ _ _ | KAgg _ | KCacheKey _ => true | _ => false end.
