(** * The complete SQL text of a trigger, and the command that prints it.
    Models Trigger.sql of the three backends (db/sqlite3/triggers.py:60-102,
    db/postgresql/triggers.py:64-131, db/mysql/triggers.py:49-104) and
    management/commands/denorm_sql.py. *)
From Verif Require Import Base Schema TrigSet Exec Render.
From Coq Require Import Ascii.
Open Scope list_scope.

(** [sep.join(l)] *)
Fixpoint sjoin (sep : string) (l : list string) : string :=
  match l with [] => "" | [s] => s | s :: l' => s +:+ sep +:+ sjoin sep l' end.
Definition ev_upper (e : evkind) : string := match e with EvIns => "INSERT" | EvUpd => "UPDATE" | EvDel => "DELETE" end.

(** The comparison of one field in an UPDATE trigger: db/sqlite3/triggers.py:86,
    db/postgresql/triggers.py:92-100, db/mysql/triggers.py:82-85.  [ut f]: the field has no
    native type (db_type() is None) and is compared as text on PostgreSQL. *)
Definition field_sql (ut : string → bool) (b : backend) (f : string) : string :=
  match b with
  | SQLite => "(OLD." +:+ qn b f +:+ " IS NOT NEW." +:+ qn b f +:+ ")"
  | Postgres =>
      if ut f then "(OLD." +:+ qn b f +:+ "::text IS DISTINCT FROM NEW." +:+ qn b f +:+ "::text)"
      else "(OLD." +:+ qn b f +:+ " IS DISTINCT FROM NEW." +:+ qn b f +:+ ")"
  | MySQL => "(NOT(OLD." +:+ qn b f +:+ " <=> NEW." +:+ qn b f +:+ "))"
  end.
(** db/sqlite3/triggers.py:86, db/postgresql/triggers.py:102, db/mysql/triggers.py:88. *)
Definition fields_sql (ut : string → bool) (b : backend) (fs : list string) : string :=
  match b with
  | SQLite => "(" +:+ sjoin "OR" (field_sql ut b <$> fs) +:+ ")"
  | Postgres => "(" +:+ sjoin " OR " (field_sql ut b <$> fs) +:+ ")"
  | MySQL => sjoin " OR " (field_sql ut b <$> fs)
  end.
(** db/sqlite3/triggers.py:87-94, db/postgresql/triggers.py:104-110. *)
Definition ct_sql (b : backend) (ev : evkind) (cf : string) (ct : Z) : string :=
  let o := "OLD." +:+ qn b cf in let n := "NEW." +:+ qn b cf in
  match b, ev with
  | SQLite, EvDel => "(" +:+ o +:+ " == " +:+ pretty ct +:+ ")"
  | SQLite, EvIns => "(" +:+ n +:+ " == " +:+ pretty ct +:+ ")"
  | SQLite, EvUpd => "((" +:+ o +:+ " == " +:+ pretty ct +:+ ") OR (" +:+ n +:+ " == " +:+ pretty ct +:+ "))"
  | _, EvUpd => "(" +:+ o +:+ " = " +:+ pretty ct +:+ ") OR (" +:+ n +:+ " = " +:+ pretty ct +:+ ")"
  | _, EvIns => "(" +:+ n +:+ " = " +:+ pretty ct +:+ ")"
  | _, EvDel => "(" +:+ o +:+ " = " +:+ pretty ct +:+ ")"
  end.
(** The condition, joined with "AND", " AND "; [""]: none.  On MySQL the content type is not
    checked and an empty list of fields gives no condition. *)
Definition cond_text (ut : string → bool) (b : backend) (tr : trigger) : string :=
  let fs := match t_ev tr with EvUpd => [fields_sql ut b (t_fields tr)] | _ => [] end in
  let cs := match t_ctf tr with Some cf => [ct_sql b (t_ev tr) cf (t_ct tr)] | None => [] end in
  match b with
  | SQLite => sjoin "AND" (fs ++ cs)
  | Postgres => sjoin " AND " (fs ++ cs)
  | MySQL => match t_ev tr with EvUpd => fields_sql ut b (t_fields tr) | _ => "" end
  end.

(** ["\n<ind>".join(lines)] of a text of several lines. *)
Fixpoint indent (ind s : string) : string :=
  match s with
  | EmptyString => ""
  | String c s' => if decide (c = "010"%char) then nl +:+ ind +:+ indent ind s' else String c (indent ind s')
  end.
(** The statements: a semicolon is added to each (no text of an action ends with one);
    [acts]: with their way of quoting, duplicates dropped. *)
Definition body_text (nu : string → bool) (b : backend) (acts : list (bool * action)) : string :=
  sjoin nl ((λ p : bool * action, action_sql nu b p.1 p.2 +:+ ";") <$> dedup_sql nu b [] acts).
Definition trig_params (nu : string → bool) (b : backend) (acts : list (bool * action)) : list val :=
  concat ((λ p : bool * action, act_params p.2) <$> dedup_sql nu b [] acts).

Definition sp8 : string := "        ".
Definition sp12 : string := "            ".
(** Trigger.sql()[0]; [n]: the final name. *)
Definition trig_text (nu ut : string → bool) (b : backend) (n : string) (tr : trigger) (acts : list (bool * action)) : string :=
  let cond := cond_text ut b tr in
  let body := body_text nu b acts in
  let on := nl +:+ "    AFTER " +:+ ev_upper (t_ev tr) +:+ " ON " +:+ t_tab tr +:+ nl +:+ "    FOR EACH ROW " in
  match b with
  | SQLite =>
      nl +:+ "CREATE TRIGGER " +:+ n +:+ on +:+
      (if decide (cond = "") then "" else "WHEN(" +:+ cond +:+ ")") +:+ " BEGIN" +:+ nl +:+ sp8 +:+ indent sp8 body +:+ nl +:+ "    END;" +:+ nl
  | MySQL =>
      nl +:+ "CREATE TRIGGER " +:+ n +:+ on +:+ "BEGIN" +:+ nl +:+ sp8 +:+
      (if decide (cond = "") then indent sp8 body
       else nl +:+ sp8 +:+ "IF " +:+ cond +:+ " THEN" +:+ nl +:+ sp12 +:+ indent sp12 body +:+ nl +:+ sp8 +:+ "END IF;" +:+ nl +:+ sp12) +:+
      nl +:+ "    END;" +:+ nl
  | Postgres =>
      nl +:+ "CREATE OR REPLACE FUNCTION func_" +:+ n +:+ "()" +:+ nl +:+ "    RETURNS TRIGGER AS $$" +:+ nl +:+ "    BEGIN" +:+ nl +:+ sp8 +:+
      (if decide (cond = "") then indent sp8 body
       else "IF " +:+ cond +:+ " THEN" +:+ nl +:+ sp12 +:+ indent sp12 body +:+ nl +:+ sp8 +:+ "END IF;") +:+
      nl +:+ sp8 +:+ "RETURN NULL;" +:+ nl +:+ "    END;" +:+ nl +:+ "$$ LANGUAGE plpgsql;" +:+ nl +:+
      "CREATE TRIGGER " +:+ n +:+ on +:+ "EXECUTE PROCEDURE func_" +:+ n +:+ "();" +:+ nl
  end.

(** ** denorm_sql *)
(** [text % params] of Python; [str] formats one parameter.  [None]: TypeError or
    ValueError (too few or too many parameters, another conversion than s). *)
Fixpoint pyformat (str : val → string) (s : string) (ps : list val) : option string :=
  match s with
  | EmptyString => match ps with [] => Some "" | _ => None end
  | String c s' =>
      if decide (c = "%"%char) then
        match s' with
        | String d s'' =>
            if decide (d = "s"%char) then match ps with v :: ps' => (λ t, str v +:+ t) <$> pyformat str s'' ps' | [] => None end
            else if decide (d = "%"%char) then String "%" <$> pyformat str s'' ps else None
        | EmptyString => None
        end
      else String c <$> pyformat str s' ps
  end.
(** str(v); None prints as None, but is never a parameter. *)
Definition py_str (v : val) : string := match v with VNull => "None" | VInt z => pretty z | VText s => s end.
(** What management/commands/denorm_sql.py:9-14 prints for one trigger. *)
Definition denorm_sql (nu ut : string → bool) (b : backend) (n : string) (tr : trigger) (acts : list (bool * action)) : option string :=
  pyformat py_str (trig_text nu ut b n tr acts) (trig_params nu b acts).
