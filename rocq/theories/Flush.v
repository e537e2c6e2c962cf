(** * flush, rebuildall, middleware.
    Models denorm/denorms.py:536-566, 593-635 and denorm/middleware.py:21-26. *)
From Verif Require Import Base Schema TrigSet Gen Exec Orm.

(** The model a content type id denotes. *)
Definition model_of_ct (S : schema) (ct : Z) : option model :=
  list_find (λ m, m_proxy m = false ∧ m_ct m = ct) (s_models S) ≫= λ p, Some p.2.

(** dirty_instance.content_object (GenericForeignKey, denorm/models.py:19): the row
    whose key has the stored text; None if the object id is NULL or the row is
    gone.  A content type without model class raises AttributeError. *)
Definition content_object (S : schema) (d : db) (mk : marker) : res (option (model * Z * row)) :=
  match model_of_ct S mk.1 with
  | None => Err EAttribute
  | Some m =>
      match mk.2 with
      | None => Ok None
      | Some s =>
          match list_find (λ p : Z * row, pretty p.1 = s) (map_to_list (tab d (m_table m))) with
          | Some (_, (k, r)) => Ok (Some (m, k, r))
          | None => Ok None
          end
      end
  end.

(** [DirtyInstance.objects.filter(content_type_id=..., object_id=...).delete()]:
    denorms.py:632-635; [object_id=None] is IS NULL. *)
Definition unmark (d : db) (mk : marker) : db :=
  set_dirty d (filter (λ x, x ≠ mk) (d_dirty d)).

(** The save half of the loop body: denorms.py:629-630.  [if content_object:] is
    the Python truth value of the instance. *)
Definition process_save (E : env) (S : schema) (mk : marker) (d : db) : res db :=
  let* o := content_object S d mk in
  match o with
  | Some (m, k, r) =>
      if m_truthy m r then let* p := save_existing E m k r d in Ok p.1 else Ok d
  | None => Ok d
  end.
(** The loop body: denorms.py:625-635. *)
Definition process (E : env) (S : schema) (mk : marker) (d : db) : res db :=
  let* d1 := process_save E S mk d in Ok (unmark d1 mk).

Inductive outcome := Done | Raised (e : exn) | Running.
#[global] Instance outcome_eq_dec : EqDecision outcome.
Proof. solve_decision. Defined.

(** [for dirty_instance in qs.iterator()]; what was done before an exception stays
    (autocommit). *)
Fixpoint flush_pass (E : env) (S : schema) (l : list marker) (d : db) : db * outcome :=
  match l with
  | [] => (d, Done)
  | mk :: l' =>
      match process E S mk d with
      | Ok d' => flush_pass E S l' d'
      | Err e => (d, Raised e)
      end
  end.

(** The queryset of one pass (denorms.py:607-614): DISTINCT ON is only supported
    by PostgreSQL.  [ord] is the order in which the database returns the rows. *)
Definition snapshot (E : env) (ord : db → list marker → list marker) (d : db) : list marker :=
  match e_be E with
  | Postgres => ord d (remove_dups (d_dirty d))
  | _ => ord d (d_dirty d)
  end.

(** flush(): denorms.py:593-635.  [Running] means the fuel was exhausted: the loop
    has not stopped after [n] passes. *)
Fixpoint flush (E : env) (S : schema) (ord : db → list marker → list marker) (n : nat) (d : db) : db * outcome :=
  match n with
  | O => (d, Running)
  | Datatypes.S n' =>
      if decide (d_dirty d = []) then (d, Done)
      else match flush_pass E S (snapshot E ord d) d with
           | (d', Done) => flush E S ord n' d'
           | p => p
           end
  end.

(** rebuildall's selection: denorms.py:541-550: models owning a matching denorm,
    each once, in order of first appearance. *)
Definition matches_name (m : model) (model_name : option string) : bool :=
  match model_name with
  | None => true
  | Some n => bool_decide (n = m_app m) || bool_decide (n = m_name m) ||
              bool_decide (n = m_app m +:+ "." +:+ m_name m)
  end.
Definition rebuild_denorms (S : schema) (model_name field_name : option string) : list (model * field) :=
  filter (λ p : model * field,
    matches_name p.1 model_name = true ∧
    (field_name = None ∨ field_name = Some (f_name p.2))) (alldenorms S).
Fixpoint dedup_models (seen : list string) (l : list model) : list model :=
  match l with
  | [] => []
  | m :: l' => if decide (m_name m ∈ seen) then dedup_models seen l' else m :: dedup_models (m_name m :: seen) l'
  end.
Definition rebuild_models (S : schema) (model_name field_name : option string) : list model :=
  dedup_models [] (rebuild_denorms S model_name field_name).*1.
(** The markers created: denorms.py:560-565, one per row of [model.objects.all()]. *)
Definition rebuild_marks (S : schema) (model_name field_name : option string) (d : db) : list marker :=
  m ← rebuild_models S model_name field_name;
  (λ p : Z * row, (m_ct m, Some (pretty p.1))) <$>
    filter (λ p : Z * row, m_visible m p.2 = true) (map_to_list (tab d (m_table m))).
(** rebuildall(): denorms.py:536-566. *)
Definition rebuildall (E : env) (S : schema) (ord : db → list marker → list marker) (n : nat)
    (model_name field_name : option string) (d : db) : db * outcome :=
  flush E S ord n (mark d (rebuild_marks S model_name field_name d)).

(** DenormMiddleware.process_response: middleware.py:21-26. [None]: flush still running. *)
Definition process_response {R} (E : env) (S : schema) (ord : db → list marker → list marker) (n : nat)
    (d : db) (response : R) : option (db * (R + exn)) :=
  match flush E S ord n d with
  | (d', Done) => Some (d', inl response)
  | (d', Raised e) => Some (d', if is_database_error e then inl response else inr e)
  | (_, Running) => None
  end.
