(** * The table of markers as the migrations make it.

    denorm/migrations/0001_initial.py, denorm/south_migrations/0001_initial.py and
    0002_auto__chg_field_dirtyinstance_object_id.py, and the INSERT statements of the triggers on
    such tables (db/sqlite3/triggers.py:24-37, db/mysql/triggers.py:20-34,
    db/postgresql/triggers.py:20-41).  Base.v and everything built on it takes the table of
    Django's migration, which has no unique constraint.

    Simplifications: the ids of the markers are left out, rows are in insertion order; keys are
    not negative, so that both types of object_id hold them (as text here). *)
From Verif Require Import Base BaseLemmas Schema.
Open Scope list_scope.

(** models.PositiveIntegerField or models.TextField; both nullable. *)
Inductive oid_type := PosInt | Text.
Record mtable := MTable { mt_oid : oid_type; mt_unique : bool; mt_rows : list marker }.

(** ** INSERT and DELETE *)
(** A unique constraint on (object_id, content_type_id) does not concern rows with NULL in it. *)
Definition clash (m : marker) (rows : list marker) : bool := bool_decide (m.2 ≠ None ∧ m ∈ rows).
(** INSERT OR REPLACE: the rows that stand in the way go. *)
Definition ins_replace (rows : list marker) (m : marker) : list marker :=
  (if clash m rows then filter (λ x, x ≠ m) rows else rows) ++ [m].
(** INSERT IGNORE: the new row goes. *)
Definition ins_ignore (rows : list marker) (m : marker) : list marker := if clash m rows then rows else rows ++ [m].
(** A plain INSERT, one row after the other: [None] is a unique_violation. *)
Fixpoint ins_plain (rows l : list marker) : option (list marker) :=
  match l with [] => Some rows | m :: l => if clash m rows then None else ins_plain (rows ++ [m]) l end.
(** One INSERT statement of a trigger with the rows [l].  On Postgres the block with
    EXCEPTION WHEN unique_violation undoes the statement and goes on. *)
Definition ins (b : backend) (t : mtable) (l : list marker) : mtable :=
  MTable (mt_oid t) (mt_unique t)
    (if mt_unique t then
       match b with
       | SQLite => foldl ins_replace (mt_rows t) l
       | MySQL => foldl ins_ignore (mt_rows t) l
       | Postgres => default (mt_rows t) (ins_plain (mt_rows t) l)
       end
     else mt_rows t ++ l).
(** The DELETE of flush (denorms.py:632-635): every marker of the row. *)
Definition del (t : mtable) (m : marker) : mtable := MTable (mt_oid t) (mt_unique t) (filter (λ x, x ≠ m) (mt_rows t)).
Inductive mop := MIns (l : list marker) | MDel (m : marker).
Definition mstep (b : backend) (t : mtable) (o : mop) : mtable := match o with MIns l => ins b t l | MDel m => del t m end.

(** ** The migrations *)
(** [None]: there is no table. *)
Definition mstate : Type := option mtable.
Definition no_dups (rows : list marker) : Prop := NoDup (filter (λ m : marker, m.2 ≠ None) rows).
#[global] Instance no_dups_dec rows : Decision (no_dups rows).
Proof. unfold no_dups. apply _. Defined.
(** create_table / CreateModel: fails if the table is there. *)
Definition create_table (ty : oid_type) (s : mstate) : res mstate := match s with None => Ok (Some (MTable ty false [])) | Some _ => Err EDuplicate end.
Definition delete_table (s : mstate) : res mstate := match s with Some _ => Ok None | None => Err EValue end.
(** db.create_unique: fails on duplicates; db.delete_unique: South raises ValueError if there is none. *)
Definition create_unique (s : mstate) : res mstate :=
  match s with
  | Some t => if decide (no_dups (mt_rows t)) then Ok (Some (MTable (mt_oid t) true (mt_rows t))) else Err EIntegrity
  | None => Err EValue
  end.
Definition delete_unique (s : mstate) : res mstate :=
  match s with Some (MTable ty true rows) => Ok (Some (MTable ty false rows)) | _ => Err EValue end.
Definition alter_column (ty : oid_type) (s : mstate) : res mstate :=
  match s with Some t => Ok (Some (MTable ty (mt_unique t) (mt_rows t))) | None => Err EValue end.
(** denorm/migrations/0001_initial.py:13-22. *)
Definition django_0001 (s : mstate) : res mstate := create_table Text s.
(** denorm/south_migrations/0001_initial.py:9-28. *)
Definition south_0001 (s : mstate) : res mstate := let* s1 := create_table PosInt s in create_unique s1.
Definition south_0001_back (s : mstate) : res mstate := let* s1 := delete_unique s in delete_table s1.
(** denorm/south_migrations/0002_auto__chg_field_dirtyinstance_object_id.py:9-26. *)
Definition south_0002 (s : mstate) : res mstate := let* s1 := delete_unique s in alter_column Text s1.
Definition south_0002_back (s : mstate) : res mstate := let* s1 := create_unique s in alter_column PosInt s1.

(** ** Lemmas *)
Lemma elem_ins_replace rows m x : x ∈ ins_replace rows m ↔ x ∈ rows ∨ x = m.
Proof.
  unfold ins_replace. rewrite elem_of_app, elem_of_list_singleton. destruct (clash m rows) eqn:E; [|done].
  apply bool_decide_eq_true in E as [_ E]. rewrite elem_of_list_filter. destruct (decide (x = m)) as [->|]; tauto.
Qed.
Lemma elem_ins_ignore rows m x : x ∈ ins_ignore rows m ↔ x ∈ rows ∨ x = m.
Proof.
  unfold ins_ignore. destruct (clash m rows) eqn:E; [|by rewrite elem_of_app, elem_of_list_singleton].
  apply bool_decide_eq_true in E as [_ E]. split; [tauto|]. by intros [H| ->].
Qed.
Lemma elem_foldl (f : list marker → marker → list marker) (Hf : ∀ rows m x, x ∈ f rows m ↔ x ∈ rows ∨ x = m) l rows x :
  x ∈ foldl f rows l ↔ x ∈ rows ∨ x ∈ l.
Proof.
  revert rows. induction l as [|m l IH]; intros rows; simpl; [set_solver|]. rewrite IH, Hf, elem_of_cons. tauto.
Qed.
Lemma plain_rows rows l r : ins_plain rows l = Some r → r = rows ++ l.
Proof.
  revert rows. induction l as [|m l IH]; intros rows; simpl; [rewrite app_nil_r; congruence|].
  destruct (clash m rows); [done|]. intros ->%IH. by rewrite <- app_assoc.
Qed.
(** Which INSERT a Postgres trigger loses. *)
Lemma plain_none rows l : ins_plain rows l = None ↔ ∃ l1 m l2, l = l1 ++ m :: l2 ∧ m.2 ≠ None ∧ m ∈ rows ++ l1.
Proof.
  revert rows. induction l as [|m l IH]; intros rows; simpl.
  - split; [done|]. by intros ([|? ?] & ? & ? & ? & _).
  - destruct (clash m rows) eqn:E.
    + apply bool_decide_eq_true in E as [E1 E2]. split; [|done]. intros _. exists [], m, l. rewrite app_nil_r. done.
    + apply bool_decide_eq_false in E. rewrite IH. split.
      * intros (l1 & m' & l2 & -> & Hn & Hi). exists (m :: l1), m', l2. rewrite <- app_assoc in Hi. done.
      * intros ([|m0 l1] & m' & l2 & Hl & Hn & Hi); simpl in Hl; injection Hl as <- ->.
        -- rewrite app_nil_r in Hi. tauto.
        -- exists l1, m', l2. rewrite <- app_assoc. done.
Qed.

(** The statements that a table with the constraint handles like one without it. *)
Definition kept (b : backend) (o : mop) : Prop :=
  match o with MDel _ => True | MIns l => b = Postgres → ∃ m, l = [m] end.
Lemma ins_elem b t l x : kept b (MIns l) → (x ∈ mt_rows (ins b t l) ↔ x ∈ mt_rows t ∨ x ∈ l).
Proof.
  intros Hk. unfold ins. cbn [mt_rows]. destruct (mt_unique t); [|apply elem_of_app]. destruct b.
  - apply elem_foldl, elem_ins_replace.
  - destruct (Hk eq_refl) as [m ->]. simpl. destruct (clash m (mt_rows t)) eqn:E; simpl; [|by rewrite elem_of_app].
    apply bool_decide_eq_true in E as [_ E]. rewrite elem_of_list_singleton. split; [tauto|]. by intros [H| ->].
  - apply elem_foldl, elem_ins_ignore.
Qed.
Lemma same_markers b t t' ops : (∀ x, x ∈ mt_rows t ↔ x ∈ mt_rows t') → Forall (kept b) ops →
  ∀ x, x ∈ mt_rows (foldl (mstep b) t ops) ↔ x ∈ mt_rows (foldl (mstep b) t' ops).
Proof.
  intros He Hk. revert t t' He. induction ops as [|o ops IH]; intros t t' He; [done|]. apply Forall_cons in Hk as [H1 H2]. simpl. apply IH; [done|].
  intros x. destruct o as [l|m]; cbn [mstep].
  - rewrite !ins_elem by done. by rewrite He.
  - unfold del. cbn [mt_rows]. by rewrite !elem_of_list_filter, He.
Qed.
(** Nothing is there that was not inserted, on any backend. *)
Lemma ins_sub b t l x : x ∈ mt_rows (ins b t l) → x ∈ mt_rows t ∨ x ∈ l.
Proof.
  destruct (decide (b = Postgres)) as [->|Hb]; [|apply ins_elem; by intros ?].
  unfold ins. cbn [mt_rows]. destruct (mt_unique t); [|apply elem_of_app]. destruct (ins_plain (mt_rows t) l) as [r|] eqn:E; simpl; [|tauto].
  apply plain_rows in E as ->. apply elem_of_app.
Qed.
(** The constraint holds. *)
Lemma no_dups_app1 rows m : no_dups rows → (m.2 ≠ None → m ∉ rows) → no_dups (rows ++ [m]).
Proof.
  unfold no_dups. intros Hd Hm. rewrite filter_app. apply NoDup_app. split; [done|]. split.
  - intros x [_ Hx]%elem_of_list_filter [Hn ->%elem_of_list_singleton]%elem_of_list_filter. by apply Hm.
  - apply NoDup_filter, NoDup_singleton.
Qed.
Lemma no_dups_filter (P : marker → Prop) `{!∀ x, Decision (P x)} rows : no_dups rows → no_dups (filter P rows).
Proof.
  unfold no_dups. induction rows as [|m rows IH]; [done|]. rewrite !filter_cons. destruct (decide (m.2 ≠ None)) as [Hn|Hn].
  - intros [H1 H2]%NoDup_cons. destruct (decide (P m)); [|by apply IH]. rewrite filter_cons, decide_True by done. apply NoDup_cons. split; [|by apply IH].
    intros [_ [_ Hm]%elem_of_list_filter]%elem_of_list_filter. apply H1. by apply elem_of_list_filter.
  - intros Hdd. destruct (decide (P m)); [|by apply IH]. rewrite filter_cons, decide_False by done. by apply IH.
Qed.
Lemma replace_dups rows m : no_dups rows → no_dups (ins_replace rows m).
Proof.
  intros Hd. unfold ins_replace. destruct (clash m rows) eqn:E.
  - apply no_dups_app1; [by apply no_dups_filter|]. intros _ [? _]%elem_of_list_filter. done.
  - apply bool_decide_eq_false in E. apply no_dups_app1; [done|]. tauto.
Qed.
Lemma ignore_dups rows m : no_dups rows → no_dups (ins_ignore rows m).
Proof.
  intros Hd. unfold ins_ignore. destruct (clash m rows) eqn:E; [done|]. apply bool_decide_eq_false in E. apply no_dups_app1; [done|]. tauto.
Qed.
Lemma plain_dups rows l r : no_dups rows → ins_plain rows l = Some r → no_dups r.
Proof.
  revert rows. induction l as [|m l IH]; intros rows Hd; simpl; [congruence|]. destruct (clash m rows) eqn:E; [done|]. apply IH.
  apply bool_decide_eq_false in E. apply no_dups_app1; [done|]. tauto.
Qed.
Lemma foldl_dups (f : list marker → marker → list marker) (Hf : ∀ rows m, no_dups rows → no_dups (f rows m)) l rows : no_dups rows → no_dups (foldl f rows l).
Proof. revert rows. induction l as [|m l IH]; intros rows Hd; simpl; [done|]. by apply IH, Hf. Qed.
Lemma step_dups b t o : mt_unique t = true → no_dups (mt_rows t) → no_dups (mt_rows (mstep b t o)) ∧ mt_unique (mstep b t o) = true.
Proof.
  intros Hu Hd. destruct o as [l|m]; simpl; (split; [|done]).
  - rewrite Hu. destruct b.
    + apply foldl_dups; [apply replace_dups|done].
    + destruct (ins_plain (mt_rows t) l) as [r|] eqn:E; simpl; [by eapply plain_dups|done].
    + apply foldl_dups; [apply ignore_dups|done].
  - by apply no_dups_filter.
Qed.
Lemma run_dups b t ops : mt_unique t = true → no_dups (mt_rows t) → no_dups (mt_rows (foldl (mstep b) t ops)).
Proof.
  revert t. induction ops as [|o ops IH]; intros t Hu Hd; [done|]. simpl. destruct (step_dups b t o Hu Hd). by apply IH.
Qed.
Lemma run_plain b t ops : mt_unique t = false → mt_unique (foldl (mstep b) t ops) = false ∧ mt_oid (foldl (mstep b) t ops) = mt_oid t.
Proof. revert t. induction ops as [|o ops IH]; intros t Hu; [done|]. simpl. destruct (IH (mstep b t o)) as [H1 H2]; [by destruct o|]. split; [done|]. rewrite H2. by destruct o. Qed.
