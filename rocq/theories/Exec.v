(** * Executing statements in the presence of row-level AFTER triggers.

    This is the semantics of the trigger language generated by denorm
    (db/*/triggers.py) on the three databases.  It is part of the trusted base:
    - SQLite and MySQL fire AFTER triggers row by row, PostgreSQL queues them and
      fires them when the statement has changed all its rows;
    - SQLite does not fire a trigger again while it is running (recursive_triggers off);
    - MySQL refuses to update a table already used by the invoking statement;
    - PostgreSQL recurses up to the stack limit ([EDepth]). *)
From Verif Require Import Base Schema TrigSet.

Record env := Env {
  e_be : backend;
  e_pk : string → string;                      (** primary key column of a table *)
  e_trigs : list itrig;                        (** installed triggers *)
  e_rand : nat → Z;                            (** random oracle *)
  e_fks : list (string * string * string);     (** foreign keys: table, column, target table *)
  e_fkimm : bool;                              (** foreign keys are checked immediately *)
  e_depth : nat                                (** nesting limit *)
}.

Inductive chg := ChIns (n : row) | ChUpd (o n : row) | ChDel (o : row).
Record event := Ev { ev_tab : string; ev_key : Z; ev_chg : chg }.

Definition ev_kind (e : event) : evkind :=
  match ev_chg e with ChIns _ => EvIns | ChUpd _ _ => EvUpd | ChDel _ => EvDel end.
Definition ev_row (e : event) (rf : rref) : option row :=
  match ev_chg e, rf with
  | ChIns n, RNew | ChUpd _ n, RNew => Some n
  | ChUpd o _, ROld | ChDel o, ROld => Some o
  | _, _ => None
  end.

(** Value of column [c] in a row with key [k] of a table whose pk column is [pkc]. *)
Definition cell (pkc : string) (k : Z) (r : row) (c : string) : val :=
  if decide (c = pkc) then VInt k else col r c.

(** NEW.c / OLD.c *)
Definition ref_val (E : env) (e : event) (rf : rref) (c : string) : val :=
  match ev_row e rf with
  | Some r => cell (e_pk E (ev_tab e)) (ev_key e) r c
  | None => VNull
  end.

(** SQL [=] used as a condition: unknown counts as false. *)
Definition sql_eq (v w : val) : bool :=
  match v, w with
  | VNull, _ | _, VNull => false
  | _, _ => bool_decide (v = w)
  end.

(** One lookup, e.g. [active__exact=True]. Ordering lookups are modelled on integers. *)
Definition cond1_holds (c : cond1) (v : val) : bool :=
  match c_op c, v, c_val c with
  | LExact, VNull, VNull => true
  | LExact, _, _ => sql_eq v (c_val c)
  | LGt, VInt a, VInt b => bool_decide (b < a)
  | LGte, VInt a, VInt b => bool_decide (b ≤ a)
  | LLt, VInt a, VInt b => bool_decide (a < b)
  | LLte, VInt a, VInt b => bool_decide (a ≤ b)
  | LIsNull, VNull, VInt b => negb (bool_decide (b = 0))
  | LIsNull, _, VInt b => bool_decide (b = 0)
  | _, _, _ => false
  end.

(** [Q( **filter) AND ~Q( **exclude)] (denorms.py:405-415): exclude negates the
    conjunction; an empty exclude adds no condition. *)
Definition passes (flt excl : list cond1) (get : string → val) : bool :=
  forallb (λ c, cond1_holds c (get (c_col c))) flt &&
  (bool_decide (excl = []) || negb (forallb (λ c, cond1_holds c (get (c_col c))) excl)).

(** Trigger conditions. *)
Fixpoint cond_holds (E : env) (e : event) (c : tcond) : bool :=
  match c with
  | CTrue => true
  | CFields fs => existsb (λ f, negb (bool_decide (ref_val E e ROld f = ref_val E e RNew f))) fs
  | CCt rf cf ct => sql_eq (ref_val E e rf cf) (VInt ct)
  | CAnd a b => cond_holds E e a && cond_holds E e b
  | COr a b => cond_holds E e a || cond_holds E e b
  end.

(** SELECT DISTINCT sc FROM t WHERE wc = v. *)
Definition select_col (E : env) (d : db) (t sc wc : string) (v : val) : list val :=
  remove_dups ((λ p, cell (e_pk E t) p.1 p.2 sc) <$>
    filter (λ p : Z * row, sql_eq (cell (e_pk E t) p.1 p.2 wc) v = true) (map_to_list (tab d t))).

Definition where_holds (E : env) (d : db) (e : event) (t : string) (k : Z) (r : row) (w : whr) : bool :=
  match w with
  | WEq c rf rc flt excl =>
      sql_eq (cell (e_pk E t) k r c) (ref_val E e rf rc) && passes flt excl (ref_val E e rf)
  | WIn c t' sc wc rf rc =>
      existsb (λ v, sql_eq (cell (e_pk E t) k r c) v) (select_col E d t' sc wc (ref_val E e rf rc))
  end.

(** [col + delta] on a PositiveIntegerField: NOT NULL, CHECK >= 0. *)
Definition arith (old delta : val) (sgn : Z) : res val :=
  match old, delta with
  | VInt a, VInt b => if decide (a + sgn * b < 0) then Err ECheck else Ok (VInt (a + sgn * b))
  | VNull, _ | _, VNull => Err ENotNull
  | _, _ => Err EType
  end.

Definition expr_val (E : env) (e : event) (x : vexpr) (d : db) (old : val) : res (val * db) :=
  match x with
  | XRand => Ok (VInt (e_rand E (d_rnd d)), tick_rnd d)
  | XInc => let* v := arith old (VInt 1) 1 in Ok (v, d)
  | XDec => let* v := arith old (VInt 1) (-1) in Ok (v, d)
  | XAdd rf c => let* v := arith old (ref_val E e rf c) 1 in Ok (v, d)
  | XSub rf c => let* v := arith old (ref_val E e rf c) (-1) in Ok (v, d)
  end.

(** What a statement does to one row. *)
Inductive change :=
  | CIns (k : Z) (r : row)
  | CUpd (k : Z) (f : db → row → res (row * db))
  | CDel (k : Z).

(** Foreign key checks. *)
Definition fk_row_ok (E : env) (d : db) (t : string) (k : Z) (r : row) : bool :=
  forallb (λ x : string * string * string,
    negb (bool_decide (x.1.1 = t)) ||
    match cell (e_pk E t) k r x.1.2 with
    | VNull => true
    | VInt j => bool_decide (is_Some (getrow d x.2 j))
    | VText _ => false
    end) (e_fks E).
Definition fk_del_ok (E : env) (d : db) (t : string) (k : Z) : bool :=
  forallb (λ x : string * string * string,
    negb (bool_decide (x.2 = t)) ||
    forallb (λ p : Z * row, negb (bool_decide (cell (e_pk E x.1.1) p.1 p.2 x.1.2 = VInt k)))
      (map_to_list (tab d x.1.1))) (e_fks E).

Definition check (b : bool) (e : exn) (d : db) : res db := if b then Ok d else Err e.

(** Apply one row change; the event describes what happened (no event if the row is gone). *)
Definition apply_change (E : env) (t : string) (d : db) (c : change) : res (db * list event) :=
  match c with
  | CIns k r =>
      match getrow d t k with
      | Some _ => Err EIntegrity
      | None =>
          let d' := put_row d t k r in
          if negb (e_fkimm E) || fk_row_ok E d' t k r then Ok (d', [Ev t k (ChIns r)]) else Err EIntegrity
      end
  | CUpd k f =>
      match getrow d t k with
      | None => Ok (d, [])
      | Some o =>
          let* p := f d o in
          let d' := put_row p.2 t k p.1 in
          if negb (e_fkimm E) || fk_row_ok E d' t k p.1 then Ok (d', [Ev t k (ChUpd o p.1)]) else Err EIntegrity
      end
  | CDel k =>
      match getrow d t k with
      | None => Ok (d, [])
      | Some o =>
          let d' := del_row d t k in
          if negb (e_fkimm E) || fk_del_ok E d' t k then Ok (d', [Ev t k (ChDel o)]) else Err EIntegrity
      end
  end.

Definition apply_all (E : env) (t : string) (cs : list change) (d : db) : res (db * list event) :=
  foldM (λ p c, let* q := apply_change E t p.1 c in Ok (q.1, p.2 ++ q.2)) (d, []) cs.

(** Run a statement on table [t] with row changes [cs], firing triggers with [fire]. *)
Definition run_batch (E : env) (fire : db → event → res db) (t : string) (cs : list change) (d : db) : res db :=
  let* p := apply_all E t cs d in foldM fire p.1 p.2.
Definition run_stmt (E : env) (fire : db → event → res db) (t : string) (cs : list change) (d : db) : res db :=
  match e_be E with
  | Postgres => run_batch E fire t cs d
  | _ => foldM (λ d c, run_batch E fire t [c] d) d cs
  end.

(** Row changes of the UPDATE in an [AUpd] action. *)
Definition upd_changes (E : env) (e : event) (d : db) (t c : string) (x : vexpr) (w : whr) : list change :=
  (λ p : Z * row, CUpd p.1 (λ d o,
      let* q := expr_val E e x d (cell (e_pk E t) p.1 o c) in Ok (<[c := q.1]> o, q.2))) <$>
  filter (λ p : Z * row, where_holds E d e t p.1 p.2 w = true) (map_to_list (tab d t)).

(** Active triggers: names and tables of the triggers currently running. *)
Definition actives := list (string * string).

Definition run_action (E : env) (fire : db → event → res db) (act : actives) (e : event) (d : db) (a : action) : res db :=
  match a with
  | AMark ct rf c => Ok (mark d [(ct, to_text (ref_val E e rf c))])
  | AMarkSel ct t sc wc rf rc =>
      Ok (mark d ((λ v, (ct, to_text v)) <$> select_col E d t sc wc (ref_val E e rf rc)))
  | AUpd t c x w =>
      if decide (e_be E = MySQL ∧ t ∈ act.*2) then Err ETableInUse
      else run_stmt E fire t (upd_changes E e d t c x w) d
  end.

Definition trig_applies (E : env) (act : actives) (e : event) (tr : itrig) : bool :=
  bool_decide (i_tab tr = ev_tab e) && bool_decide (i_ev tr = ev_kind e) &&
  negb (bool_decide (e_be E = SQLite) && bool_decide (i_name tr ∈ act.*1)) &&
  cond_holds E e (i_cond tr).

(** Fire all triggers for one row event. *)
Fixpoint fire (E : env) (n : nat) (act : actives) (d : db) (e : event) : res db :=
  match n with
  | O => Err EDepth
  | S n' =>
      foldM (λ d tr,
        if trig_applies E act e tr
        then foldM (run_action E (fire E n' ((i_name tr, i_tab tr) :: act)) ((i_name tr, i_tab tr) :: act) e) d (i_acts tr)
        else Ok d) d (e_trigs E)
  end.

(** A statement issued by a session. *)
Definition exec (E : env) (t : string) (cs : list change) (d : db) : res db :=
  run_stmt E (fire E (e_depth E) []) t cs d.
