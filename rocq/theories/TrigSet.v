(** * Triggers, trigger sets, de-duplication and trigger conditions.
    Models denorm/db/base.py:20-175 and the three backends' Trigger.sql. *)
From Verif Require Import Base Schema.

Inductive rref := RNew | ROld.
#[global] Instance rref_eq_dec : EqDecision rref.
Proof. solve_decision. Defined.

(** Value expressions in [UPDATE ... SET col = expr]:
    RandomBigInt (db/*/triggers.py RandomBigInt), [col + 1], [col - 1]
    (denorms.py:519-527), [col + NEW.f], [col - OLD.f] (denorms.py:469-477). *)
Inductive vexpr := XRand | XInc | XDec | XAdd (rf : rref) (c : string) | XSub (rf : rref) (c : string).
#[global] Instance vexpr_eq_dec : EqDecision vexpr.
Proof. solve_decision. Defined.

(** WHERE clauses of trigger updates. *)
Inductive whr :=
  (** [c = NEW.rc AND filter AND NOT exclude], the filters being on the NEW/OLD row
      (dependencies.py:115-162, denorms.py:395-420). *)
  | WEq (c : string) (rf : rref) (rc : string) (flt excl : list cond1)
  (** [c IN (SELECT DISTINCT sc FROM t WHERE wc = NEW.rc)] (dependencies.py:220-230). *)
  | WIn (c : string) (t sc wc : string) (rf : rref) (rc : string).
#[global] Instance whr_eq_dec : EqDecision whr.
Proof. solve_decision. Defined.

Inductive action :=
  (** TriggerActionInsert into DirtyInstance with VALUES (ct, NEW.c). *)
  | AMark (ct : Z) (rf : rref) (c : string)
  (** TriggerActionInsert with TriggerNestedSelect:
      SELECT DISTINCT ct, sc FROM t WHERE wc = NEW.rc. *)
  | AMarkSel (ct : Z) (t sc wc : string) (rf : rref) (rc : string)
  (** TriggerActionUpdate: UPDATE t SET c = e WHERE w. *)
  | AUpd (t c : string) (e : vexpr) (w : whr).
#[global] Instance action_eq_dec : EqDecision action.
Proof. solve_decision. Defined.

Inductive evkind := EvIns | EvUpd | EvDel.
#[global] Instance evkind_eq_dec : EqDecision evkind.
Proof. solve_decision. Defined.

Definition ev_str (e : evkind) : string :=
  match e with EvIns => "insert" | EvUpd => "update" | EvDel => "delete" end.

(** A Trigger object (db/base.py:67-132); [time] is always "after". *)
Record trigger := Trigger {
  t_tab : string;              (** self.db_table *)
  t_ev : evkind;               (** self.event *)
  t_fields : list string;      (** first components of self.fields *)
  t_ctf : option string;       (** self.content_type_field *)
  t_ct : Z;                    (** self.content_type *)
  t_acts : list action         (** self.actions *)
}.

(** Trigger.name: db/base.py:134-142, overridden in db/sqlite3/triggers.py:54-58
    and db/postgresql/triggers.py:58-62 (not in MySQL). *)
Definition base_name (tr : trigger) : string :=
  "denorm_after_row_" +:+ ev_str (t_ev tr) +:+ "_on_" +:+ t_tab tr.
Definition trig_name (b : backend) (tr : trigger) : string :=
  match b, t_ctf tr with
  | MySQL, _ | _, None => base_name tr
  | _, Some _ => base_name tr +:+ "_" +:+ pretty (t_ct tr)
  end.

(** Trigger.append: db/base.py:127-132. *)
Definition trig_append (tr : trigger) (acts : list action) : trigger :=
  Trigger (t_tab tr) (t_ev tr) (t_fields tr) (t_ctf tr) (t_ct tr) (t_acts tr ++ acts).

(** TriggerSet.triggers: a dict from name to Trigger, in insertion order. *)
Definition tset := list (string * trigger).

(** TriggerSet.append for one trigger: db/base.py:164-169. *)
Fixpoint tset_add (b : backend) (ts : tset) (tr : trigger) : tset :=
  match ts with
  | [] => [(trig_name b tr, tr)]
  | (n, tr0) :: ts' =>
      if decide (n = trig_name b tr) then (n, trig_append tr0 (t_acts tr)) :: ts'
      else (n, tr0) :: tset_add b ts' tr
  end.
(** TriggerSet.append for a list: db/base.py:160-169. *)
Definition tset_append (b : backend) (ts : tset) (l : list trigger) : tset :=
  foldl (tset_add b) ts l.

(** The loop over self.actions in Trigger.sql with [actions_added]
    (db/sqlite3/triggers.py:67-76, same in the other backends): keep the first
    occurrence of each action.  The code compares (sql text, parameters); that
    this identifies the action is proved in P_Render.v. *)
Fixpoint dedup (seen : list action) (l : list action) : list action :=
  match l with
  | [] => []
  | a :: l' => if decide (a ∈ seen) then dedup seen l' else a :: dedup (a :: seen) l'
  end.

(** The condition in front of the actions. *)
Inductive tcond :=
  | CTrue
  | CFields (fs : list string)                       (** some listed field differs, NULL-safe *)
  | CCt (rf : rref) (ctf : string) (ct : Z)          (** NEW.ctf = ct *)
  | CAnd (a b : tcond)
  | COr (a b : tcond).

(** The condition built by the backends' Trigger.sql.
    - SQLite (db/sqlite3/triggers.py:84-98): [(fields) AND ((OLD.ct) OR (NEW.ct))];
    - PostgreSQL (db/postgresql/triggers.py:87-118): the second conjunct is not
      parenthesised, so AND binds first: [((fields) AND OLD.ct) OR NEW.ct];
    - MySQL (db/mysql/triggers.py:80-97): only the fields; no condition if the list is empty.
    An empty field list in an UPDATE trigger yields "()" on SQLite and PostgreSQL,
    which is rejected when the trigger is created ([ESyntax]). *)
Definition trig_cond (b : backend) (tr : trigger) : res tcond :=
  match b, t_ev tr with
  | MySQL, EvUpd => Ok (if decide (t_fields tr = []) then CTrue else CFields (t_fields tr))
  | MySQL, _ => Ok CTrue
  | SQLite, EvUpd =>
      if decide (t_fields tr = []) then Err ESyntax else
      Ok (match t_ctf tr with
          | None => CFields (t_fields tr)
          | Some cf => CAnd (CFields (t_fields tr)) (COr (CCt ROld cf (t_ct tr)) (CCt RNew cf (t_ct tr)))
          end)
  | Postgres, EvUpd =>
      if decide (t_fields tr = []) then Err ESyntax else
      Ok (match t_ctf tr with
          | None => CFields (t_fields tr)
          | Some cf => COr (CAnd (CFields (t_fields tr)) (CCt ROld cf (t_ct tr))) (CCt RNew cf (t_ct tr))
          end)
  | _, EvIns => Ok (match t_ctf tr with None => CTrue | Some cf => CCt RNew cf (t_ct tr) end)
  | _, EvDel => Ok (match t_ctf tr with None => CTrue | Some cf => CCt ROld cf (t_ct tr) end)
  end.

(** A trigger as the database holds it after CREATE TRIGGER. *)
Record itrig := ITrig {
  i_name : string;
  i_tab : string;
  i_ev : evkind;
  i_cond : tcond;
  i_acts : list action
}.

(** Parameters of an action's SQL: the filter values (denorms.py:415, 422-433). *)
Definition act_params (a : action) : list val :=
  match a with
  | AUpd _ _ _ (WEq _ _ _ flt excl) =>
      omap (λ c, match c_op c, c_val c with
                 | LIsNull, _ => None
                 | LExact, VNull => None          (* col=None becomes IS NULL *)
                 | _, v => Some v end) (flt ++ excl)
  | _ => []
  end.

(** Trigger.sql as executed by TriggerSet.install (db/sqlite3/triggers.py:60-131 etc.).
    SQLite rejects bound parameters inside CREATE TRIGGER.  The final name
    (truncation, random suffix) is modelled in Render.v; the semantics of the
    trigger does not depend on it. *)
Definition trig_sql (b : backend) (tr : trigger) : res itrig :=
  let* c := trig_cond b tr in
  let acts := dedup [] (t_acts tr) in
  if decide (b = SQLite) then
    if forallb (λ a, bool_decide (act_params a = [])) acts
    then Ok (ITrig (trig_name b tr) (t_tab tr) (t_ev tr) c acts) else Err ESyntax
  else Ok (ITrig (trig_name b tr) (t_tab tr) (t_ev tr) c acts).

(** TriggerSet.install on an empty catalogue (Install.v models catalogues). *)
Definition tset_sql (b : backend) (ts : tset) : res (list itrig) :=
  mapM_res (λ p, trig_sql b p.2) ts.
