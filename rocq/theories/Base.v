(** * Substrate: SQL values, rows, tables, database, exceptions.

    This file models no function of django-denorm itself; it fixes what a
    database is for the rest of the development (see DESIGN.md, trusted base).

    Simplifications: primary keys are integers and are never updated; a table
    is a finite map from primary key to row; a row is a finite map from column
    name to value, a missing column reading as NULL. *)
From stdpp Require Export prelude gmap strings pretty.
#[global] Set Default Goal Selector "1".
Open Scope string_scope.
Open Scope Z_scope.
Open Scope list_scope.

(** SQL values.  Booleans, dates, decimals are represented by integers. *)
Inductive val := VNull | VInt (z : Z) | VText (s : string).
#[global] Instance val_eq_dec : EqDecision val.
Proof. solve_decision. Defined.

Notation row := (gmap string val).
Definition col (r : row) (c : string) : val := default VNull (r !! c).
Notation table := (gmap Z row).

(** A row of the DirtyInstance table (denorm/models.py:17-18): content type id
    and object id.  [object_id] is a nullable TextField, so keys are stored as
    text.  The table has no unique constraint (denorm/migrations/0001_initial.py). *)
Definition marker : Type := Z * option string.

(** The database: user tables, the DirtyInstance rows in insertion order, the
    number of random draws so far and a clock (both only feed oracles). *)
Record db := Db {
  d_tabs : gmap string table;
  d_dirty : list marker;
  d_rnd : nat;
  d_now : nat
}.

Definition tab (d : db) (t : string) : table := default ∅ (d_tabs d !! t).
Definition getrow (d : db) (t : string) (k : Z) : option row := tab d t !! k.

Definition set_tabs (d : db) (ts : gmap string table) : db :=
  Db ts (d_dirty d) (d_rnd d) (d_now d).
Definition set_dirty (d : db) (l : list marker) : db :=
  Db (d_tabs d) l (d_rnd d) (d_now d).
Definition put_row (d : db) (t : string) (k : Z) (r : row) : db :=
  set_tabs d (<[t := <[k := r]> (tab d t)]> (d_tabs d)).
Definition del_row (d : db) (t : string) (k : Z) : db :=
  set_tabs d (<[t := delete k (tab d t)]> (d_tabs d)).
Definition mark (d : db) (l : list marker) : db := set_dirty d (d_dirty d ++ l).
Definition tick_rnd (d : db) : db := Db (d_tabs d) (d_dirty d) (S (d_rnd d)) (d_now d).
Definition tick_now (d : db) : db := Db (d_tabs d) (d_dirty d) (d_rnd d) (S (d_now d)).

(** Conversion of a value into the TextField [object_id]. *)
Definition to_text (v : val) : option string :=
  match v with
  | VNull => None
  | VInt z => Some (pretty z)
  | VText s => Some s
  end.

(** Exceptions. *)
Inductive exn :=
  | EDepth         (** nested trigger depth exceeded (stack depth limit) *)
  | ETableInUse    (** MySQL error 1442 *)
  | ENotNull       (** NOT NULL constraint of an aggregate column *)
  | ECheck         (** CHECK (col >= 0) of PositiveIntegerField *)
  | EIntegrity     (** foreign key or primary key violation *)
  | ESyntax        (** the generated SQL is not accepted *)
  | EDuplicate     (** trigger already exists *)
  | EValue         (** Python ValueError *)
  | EType          (** Python TypeError / DB type error *)
  | EIndex         (** Python IndexError *)
  | EAttribute     (** Python AttributeError *)
  | ENotImplemented(** Python NotImplementedError *)
  | ENotSupported  (** django.db.NotSupportedError *)
  | ENoRows        (** DatabaseError: save() with update_fields matched no row *)
  | EUser (n : Z). (** exception raised by a user callback *)
#[global] Instance exn_eq_dec : EqDecision exn.
Proof. solve_decision. Defined.

(** django.db.DatabaseError covers the errors raised by the database. *)
Definition is_database_error (e : exn) : bool :=
  match e with
  | EDepth | ETableInUse | ENotNull | ECheck | EIntegrity | ESyntax | EDuplicate | ENotSupported | ENoRows => true
  | _ => false
  end.

Inductive res (A : Type) := Ok (a : A) | Err (e : exn).
Arguments Ok {A} a. Arguments Err {A} e.

Definition rbind {A B} (x : res A) (f : A → res B) : res B :=
  match x with Ok a => f a | Err e => Err e end.
Notation "'let*' x ':=' m 'in' k" := (rbind m (λ x, k))
  (at level 200, x pattern, m at level 100, k at level 200, right associativity).

Fixpoint foldM {A B} (f : A → B → res A) (a : A) (l : list B) : res A :=
  match l with
  | [] => Ok a
  | x :: l' => let* a' := f a x in foldM f a' l'
  end.

Fixpoint mapM_res {A B} (f : A → res B) (l : list A) : res (list B) :=
  match l with
  | [] => Ok []
  | x :: l' => let* y := f x in let* ys := mapM_res f l' in Ok (y :: ys)
  end.
