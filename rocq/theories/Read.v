(** * Reading SQL (specification side).
    A reader for the part of the three dialects that a trigger text may use: characters to
    tokens, parameters put in place, tokens to statements with the usual precedence (NOT
    before AND before OR), and the three-valued meaning of conditions.  Nothing here is
    taken from django-denorm; the names that may not be used unquoted are those reserved in
    at least one of the three databases (not the complete lists). *)
From Verif Require Import Base Schema TrigSet Exec.
From Coq Require Import Ascii.
Open Scope list_scope.

(** ** Tokens *)
Inductive tok := TId (s : string) | TQ (s : string) | TPar | TSym (c : ascii) | TVal (v : val).
Inductive mode := MN | MW (s : string) | MQ (s : string) | MC | MP | MD.
Definition code (c : ascii) : N := N_of_ascii c.
Definition newline : ascii := "010".
Definition word_char (c : ascii) : bool :=
  (((48 <=? code c) && (code c <=? 57)) || ((65 <=? code c) && (code c <=? 90)) || ((97 <=? code c) && (code c <=? 122)) || (code c =? 95))%N.
Definition is_space (c : ascii) : bool := ((code c =? 32) || (code c =? 10))%N.
Definition is_quote (c : ascii) : bool := ((code c =? 34) || (code c =? 96))%N.
(** Between tokens. *)
Definition fresh_step (c : ascii) : list tok * mode :=
  if is_space c then ([], MN) else if word_char c then ([], MW (String c "")) else if is_quote c then ([], MQ "")
  else if ascii_dec c "%" then ([], MP) else if ascii_dec c "-" then ([], MD) else ([TSym c], MN).
(** Words, quoted names, the parameter mark %s and comments from -- to the end of the line. *)
Definition lex_step (m : mode) (c : ascii) : list tok * mode :=
  match m with
  | MN => fresh_step c
  | MW w => if word_char c then ([], MW (w +:+ String c "")) else (TId w :: (fresh_step c).1, (fresh_step c).2)
  | MQ w => if is_quote c then ([TQ w], MN) else if ascii_dec c newline then ([TSym c], MN) else ([], MQ (w +:+ String c ""))
  | MC => if ascii_dec c newline then ([], MN) else ([], MC)
  | MP => if ascii_dec c "s" then ([TPar], MN) else (TSym "%" :: (fresh_step c).1, (fresh_step c).2)
  | MD => if ascii_dec c "-" then ([], MC) else (TSym "-" :: (fresh_step c).1, (fresh_step c).2)
  end.
Definition lex_end (m : mode) : list tok :=
  match m with MN | MC => [] | MW w => [TId w] | MQ _ => [TSym newline] | MP => [TSym "%"] | MD => [TSym "-"] end.
Fixpoint lex (m : mode) (s : string) : list tok :=
  match s with
  | EmptyString => lex_end m
  | String c s' => (lex_step m c).1 ++ lex (lex_step m c).2 s'
  end.
(** Parameters are put in place of the marks, in order; their numbers must agree. *)
Fixpoint bind (ts : list tok) (ps : list val) : option (list tok) :=
  match ts with
  | [] => match ps with [] => Some [] | _ => None end
  | TPar :: ts' => match ps with v :: ps' => cons (TVal v) <$> bind ts' ps' | [] => None end
  | t :: ts' => cons t <$> bind ts' ps
  end.

(** ** Names and numbers *)
Definition up_char (c : ascii) : ascii := if ((97 <=? code c) && (code c <=? 122))%N then ascii_of_N (code c - 32) else c.
Definition low_char (c : ascii) : ascii := if ((65 <=? code c) && (code c <=? 90))%N then ascii_of_N (code c + 32) else c.
Fixpoint map_str (f : ascii → ascii) (s : string) : string := match s with EmptyString => "" | String c s' => String (f c) (map_str f s') end.
Definition upper (s : string) : string := map_str up_char s.
Definition reserved_words : list string :=
  ["ALL"; "AND"; "AS"; "BEGIN"; "BETWEEN"; "BY"; "CASE"; "CHECK"; "COLUMN"; "CREATE"; "DEFAULT"; "DELETE"; "DESC"; "DISTINCT"; "ELSE"; "END"; "EXCEPTION"; "EXISTS"; "FOR"; "FOREIGN";
   "FROM"; "FUNCTION"; "GRANT"; "GROUP"; "HAVING"; "IF"; "IN"; "INDEX"; "INSERT"; "INTO"; "IS"; "JOIN"; "KEY"; "LIKE"; "LIMIT"; "NEW"; "NOT"; "NULL"; "OLD"; "ON"; "OR"; "ORDER"; "PRIMARY"; "RANDOM";
   "REFERENCES"; "REPLACE"; "RETURN"; "SELECT"; "SET"; "TABLE"; "THEN"; "TO"; "TRIGGER"; "UNION"; "UNIQUE"; "UPDATE"; "USER"; "USING"; "VALUES"; "WHEN"; "WHERE"; "WITH"].
Definition reserved (w : string) : bool := existsb (String.eqb (upper w)) reserved_words.
(** PostgreSQL folds names that are not quoted. *)
Definition folded (b : backend) (w : string) : string := match b with Postgres => map_str low_char w | _ => w end.
Fixpoint digits (acc : N) (s : string) : option N :=
  match s with
  | EmptyString => Some acc
  | String c s' => if ((48 <=? code c) && (code c <=? 57))%N then digits (10 * acc + (code c - 48)) s' else None
  end.
Definition number (w : string) : option Z := match w with EmptyString => None | _ => Z.of_N <$> digits 0 w end.

(** ** Expressions *)
Inductive opd := OCol (c : string) | ORef (rf : rref) (c : string) | OVal (v : val) | OText (o : opd).
Inductive bexp :=
  | BEq (a o : opd) | BLt (a o : opd) | BLe (a o : opd) | BDiff (a o : opd)
  | BNull (a : opd)
  | BIn (a : opd) (sc t wc : string) (rf : rref) (rc : string)
  | BNot (p : bexp) | BAnd (p q : bexp) | BOr (p q : bexp).
Inductive xexp := ERand | EPlus (a o : opd) | EMinus (a o : opd).
Inductive pstmt :=
  | PMark (ct : Z) (rf : rref) (c : string)
  | PMarkSel (ct : Z) (t sc wc : string) (rf : rref) (rc : string)
  | PUpd (t c : string) (x : xexp) (w : bexp).
Record ptrig := PTrig { pt_name : string; pt_tab : string; pt_ev : evkind; pt_cond : option bexp; pt_stmts : list pstmt }.

Definition kw (k : string) (ts : list tok) : option (list tok) :=
  match ts with TId w :: r => if String.eqb (upper w) k then Some r else None | _ => None end.
Definition sym (c : ascii) (ts : list tok) : option (list tok) :=
  match ts with TSym x :: r => if ascii_dec x c then Some r else None | _ => None end.
Fixpoint kws (l : list string) (ts : list tok) : option (list tok) :=
  match l with [] => Some ts | k :: l' => r ← kw k ts; kws l' r end.
Fixpoint syms (l : list ascii) (ts : list tok) : option (list tok) :=
  match l with [] => Some ts | k :: l' => r ← sym k ts; syms l' r end.
Definition name (b : backend) (ts : list tok) : option (string * list tok) :=
  match ts with
  | TQ w :: r => Some (w, r)
  | TId w :: r => if reserved w then None else match number w with Some _ => None | None => Some (folded b w, r) end
  | _ => None
  end.
Definition num (ts : list tok) : option (Z * list tok) :=
  match ts with TId w :: r => z ← number w; Some (z, r) | TVal (VInt z) :: r => Some (z, r) | _ => None end.
Definition reference (b : backend) (ts : list tok) : option ((rref * string) * list tok) :=
  match kws ["NEW"] ts, kws ["OLD"] ts with
  | Some r, _ => r ← sym "." r; p ← name b r; Some ((RNew, p.1), p.2)
  | None, Some r => r ← sym "." r; p ← name b r; Some ((ROld, p.1), p.2)
  | None, None => None
  end.
(** Operands: parameters, references to the changed row with an optional cast to text,
    numbers, columns. *)
Definition operand (b : backend) (ts : list tok) : option (opd * list tok) :=
  match ts with
  | TVal v :: r => Some (OVal v, r)
  | TQ c :: r => Some (OCol c, r)
  | TSym _ :: r => r ← sym "-" ts; p ← num r; Some (OVal (VInt (- p.1)), p.2)
  | _ =>
    match reference b ts with
    | Some ((rf, c), r) =>
        match syms [":"%char; ":"%char] r with
        | Some r' => r'' ← kw "TEXT" r'; Some (OText (ORef rf c), r'')
        | None => Some (ORef rf c, r)
        end
    | None =>
      match num ts with
      | Some (z, r) => Some (OVal (VInt z), r)
      | None => p ← name b ts; Some (OCol p.1, p.2)
      end
    end
  end.
(** What follows the left operand of a comparison. *)
Definition compare (b : backend) (a : opd) (ts : list tok) : option (bexp * list tok) :=
  let rhs f r := (p ← operand b r; Some (f p.1, p.2)) in
  match kw "IS" ts with
  | Some r =>
      match kws ["NOT"; "NULL"] r, kw "NOT" r, kw "NULL" r, kws ["DISTINCT"; "FROM"] r with
      | Some r', _, _, _ => Some (BNot (BNull a), r')
      | _, Some r', _, _ => rhs (BDiff a) r'
      | _, _, Some r', _ => Some (BNull a, r')
      | _, _, _, Some r' => rhs (BDiff a) r'
      | _, _, _, _ => None
      end
  | None =>
  match kw "IN" ts with
  | Some r =>
      r ← sym "(" r; r ← kws ["SELECT"; "DISTINCT"] r; p ← name b r; r ← kw "FROM" p.2; q ← name b r; r ← kw "WHERE" q.2;
      w ← name b r; r ← sym "=" w.2; f ← reference b r; r ← sym ")" f.2; Some (BIn a p.1 q.1 w.1 f.1.1 f.1.2, r)
  | None =>
  match syms ["<"; "="; ">"]%char ts, syms ["<"; "="]%char ts, sym "<" ts with
  | Some r, _, _ => p ← operand b r; Some (BNot (BDiff a p.1), p.2)
  | _, Some r, _ => rhs (BLe a) r
  | _, _, Some r => rhs (BLt a) r
  | _, _, _ =>
  match syms [">"; "="]%char ts, sym ">" ts with
  | Some r, _ => p ← operand b r; Some (BLe p.1 a, p.2)
  | _, Some r => p ← operand b r; Some (BLt p.1 a, p.2)
  | _, _ =>
  match syms ["="; "="]%char ts, sym "=" ts with
  | Some r, _ | None, Some r => rhs (BEq a) r
  | _, _ => None
  end end end end end.
Definition comparison (b : backend) (ts : list tok) : option (bexp * list tok) :=
  p ← operand b ts; compare b p.1 p.2.
(** Precedence: a parenthesised condition, NOT, AND, OR. *)
Fixpoint p_or (b : backend) (n : nat) (ts : list tok) : option (bexp * list tok) :=
  match n with O => None | S n =>
    p ← p_and b n ts;
    match kw "OR" p.2 with Some r => q ← p_or b n r; Some (BOr p.1 q.1, q.2) | None => Some p end end
with p_and (b : backend) (n : nat) (ts : list tok) : option (bexp * list tok) :=
  match n with O => None | S n =>
    p ← p_not b n ts;
    match kw "AND" p.2 with Some r => q ← p_and b n r; Some (BAnd p.1 q.1, q.2) | None => Some p end end
with p_not (b : backend) (n : nat) (ts : list tok) : option (bexp * list tok) :=
  match n with O => None | S n =>
    match kw "NOT" ts with
    | Some r => p ← p_not b n r; Some (BNot p.1, p.2)
    | None =>
      match sym "(" ts with
      | Some r => p ← p_or b n r; r' ← sym ")" p.2; Some (p.1, r')
      | None => comparison b ts
      end
    end end.

(** ** Statements *)
(** The random number of each database (its value is the subject of Keys.v). *)
Definition rand_toks (b : backend) : list tok :=
  let fix w l := match l with [] => [] | s :: l' => (match s with String c "" => if word_char c then TId s else TSym c | _ => TId s end) :: w l' end in
  match b with
  | SQLite => w ["RANDOM"; "("; ")"]
  | Postgres => w ["("; "9223372036854775806"; ":"; ":"; "INT8"; "*"; "("; "("; "RANDOM"; "("; ")"; "-"; "0"; "."; "5"; ")"; "*"; "2"; "."; "0"; ")"; ")"; ":"; ":"; "INT8"]
  | MySQL => w ["("; "9223372036854775806"; "*"; "("; "("; "RAND"; "("; ")"; "-"; "0"; "."; "5"; ")"; "*"; "2"; "."; "0"; ")"; ")"]
  end.
#[global] Instance tok_eq_dec : EqDecision tok.
Proof. solve_decision. Defined.
Fixpoint exactly (l ts : list tok) : option (list tok) :=
  match l, ts with [], _ => Some ts | x :: l', y :: ts' => if decide (x = y) then exactly l' ts' else None | _, [] => None end.
Definition value (b : backend) (ts : list tok) : option (xexp * list tok) :=
  match exactly (rand_toks b) ts with
  | Some r => Some (ERand, r)
  | None =>
      p ← operand b ts;
      match sym "+" p.2, sym "-" p.2 with
      | Some r, _ => q ← operand b r; Some (EPlus p.1 q.1, q.2)
      | None, Some r => q ← operand b r; Some (EMinus p.1 q.1, q.2)
      | None, None => None
      end
  end.
Definition p_select (b : backend) (ts : list tok) : option (pstmt * list tok) :=
  r ← kws ["SELECT"; "DISTINCT"] ts; z ← num r; r ← sym "," z.2; c ← name b r; r ← kw "FROM" c.2; t ← name b r; r ← kw "WHERE" t.2;
  w ← name b r; r ← sym "=" w.2; f ← reference b r; Some (PMarkSel z.1 t.1 c.1 w.1 f.1.1 f.1.2, f.2).
Definition p_values (b : backend) (ts : list tok) : option (pstmt * list tok) :=
  match kw "VALUES" ts, sym "(" ts with
  | Some r, _ => r ← sym "(" r; z ← num r; r ← sym "," z.2; f ← reference b r; r ← sym ")" f.2; Some (PMark z.1 f.1.1 f.1.2, r)
  | None, Some r => p ← p_select b r; r ← sym ")" p.2; Some (p.1, r)
  | None, None => p_select b ts
  end.
(** How an existing marker is met: SQLite replaces it, MySQL keeps it, PostgreSQL catches
    the error.  (There is no unique constraint, so none is met.) *)
Definition p_insert (b : backend) (ts : list tok) : option (pstmt * list tok) :=
  r ← kws (match b with SQLite => ["INSERT"; "OR"; "REPLACE"; "INTO"] | Postgres => ["BEGIN"; "INSERT"; "INTO"] | MySQL => ["INSERT"; "IGNORE"; "INTO"] end) ts;
  t ← name b r; if decide (t.1 = "denorm_dirtyinstance") then
    r ← sym "(" t.2; c ← name b r; r ← sym "," c.2; d ← name b r; r ← sym ")" d.2;
    if decide (c.1 = "content_type_id" ∧ d.1 = "object_id") then
      p ← p_values b r;
      match b with
      | Postgres => r ← sym ";" p.2; r ← kws ["EXCEPTION"; "WHEN"; "UNIQUE_VIOLATION"; "THEN"; "END"] r; Some (p.1, r)
      | _ => Some p
      end
    else None
  else None.
Definition p_update (b : backend) (n : nat) (ts : list tok) : option (pstmt * list tok) :=
  r ← kw "UPDATE" ts; t ← name b r; r ← kw "SET" t.2; c ← name b r; r ← sym "=" c.2; x ← value b r; r ← kw "WHERE" x.2;
  w ← p_or b n r; Some (PUpd t.1 c.1 x.1 w.1, w.2).
Definition p_stmt (b : backend) (n : nat) (ts : list tok) : option (pstmt * list tok) :=
  p ← match kw "UPDATE" ts with Some _ => p_update b n ts | None => p_insert b ts end; r ← sym ";" p.2; Some (p.1, r).
(** Statements up to END or RETURN. *)
Fixpoint p_stmts (b : backend) (n : nat) (ts : list tok) : option (list pstmt * list tok) :=
  match n with O => None | S n =>
    match kw "END" ts, kw "RETURN" ts with
    | None, None => p ← p_stmt b n ts; q ← p_stmts b n p.2; Some (p.1 :: q.1, q.2)
    | _, _ => Some ([], ts)
    end end.
(** IF condition THEN statements END IF; *)
Definition p_block (b : backend) (n : nat) (ts : list tok) : option ((option bexp * list pstmt) * list tok) :=
  match kw "IF" ts with
  | Some r => c ← p_or b n r; r ← kw "THEN" c.2; q ← p_stmts b n r; r ← kws ["END"; "IF"] q.2; r ← sym ";" r; Some ((Some c.1, q.1), r)
  | None => q ← p_stmts b n ts; Some ((None, q.1), q.2)
  end.
Definition p_event (ts : list tok) : option (evkind * list tok) :=
  match kw "INSERT" ts, kw "UPDATE" ts, kw "DELETE" ts with
  | Some r, _, _ => Some (EvIns, r) | _, Some r, _ => Some (EvUpd, r) | _, _, Some r => Some (EvDel, r) | _, _, _ => None end.
Definition p_head (b : backend) (ts : list tok) : option ((string * (evkind * string)) * list tok) :=
  r ← kws ["CREATE"; "TRIGGER"] ts; n ← name b r; r ← kw "AFTER" n.2; e ← p_event r; r ← kw "ON" e.2; t ← name b r; r ← kws ["FOR"; "EACH"; "ROW"] t.2;
  Some ((n.1, (e.1, t.1)), r).
Definition p_trigger (b : backend) (n : nat) (ts : list tok) : option ptrig :=
  match b with
  | SQLite =>
      h ← p_head b ts;
      c ← match kw "WHEN" h.2 with Some r => p ← p_or b n r; Some (Some p.1, p.2) | None => Some (None, h.2) end;
      r ← kw "BEGIN" c.2; q ← p_stmts b n r; r ← kw "END" q.2; r ← sym ";" r;
      match r with [] => Some (PTrig h.1.1 h.1.2.2 h.1.2.1 c.1 q.1) | _ => None end
  | MySQL =>
      h ← p_head b ts; r ← kw "BEGIN" h.2; q ← p_block b n r; r ← kw "END" q.2; r ← sym ";" r;
      match r with [] => Some (PTrig h.1.1 h.1.2.2 h.1.2.1 q.1.1 q.1.2) | _ => None end
  | Postgres =>
      r ← kws ["CREATE"; "OR"; "REPLACE"; "FUNCTION"] ts; f ← name b r; r ← syms ["("; ")"]%char f.2; r ← kws ["RETURNS"; "TRIGGER"; "AS"] r;
      r ← syms ["$"; "$"]%char r; r ← kw "BEGIN" r; q ← p_block b n r; r ← kws ["RETURN"; "NULL"] q.2; r ← sym ";" r; r ← kw "END" r;
      r ← syms [";"; "$"; "$"]%char r; r ← kws ["LANGUAGE"; "PLPGSQL"] r; r ← sym ";" r;
      h ← p_head b r; r ← kws ["EXECUTE"; "PROCEDURE"] h.2; g ← name b r; r ← syms ["("; ")"; ";"]%char g.2;
      if decide (f.1 = g.1) then match r with [] => Some (PTrig h.1.1 h.1.2.2 h.1.2.1 q.1.1 q.1.2) | _ => None end else None
  end.
(** A text with its parameters.  SQLite accepts no parameters in CREATE TRIGGER. *)
Definition read (b : backend) (text : string) (ps : list val) : option ptrig :=
  ts ← bind (lex MN text) ps;
  if decide (b = SQLite ∧ ps ≠ []) then None else p_trigger b (4 * length ts + 8)%nat ts.

(** ** Meaning *)
Section meaning.
Context (E : env) (e : event) (d : db).
Definition opd_val (get : string → val) : opd → val :=
  fix go o := match o with
  | OCol c => get c
  | ORef rf c => ref_val E e rf c
  | OVal v => v
  | OText o => match to_text (go o) with Some s => VText s | None => VNull end
  end.
Definition not3 (x : option bool) : option bool := negb <$> x.
Definition and3 (x y : option bool) : option bool :=
  match x, y with Some false, _ | _, Some false => Some false | Some true, Some true => Some true | _, _ => None end.
Definition or3 (x y : option bool) : option bool :=
  match x, y with Some true, _ | _, Some true => Some true | Some false, Some false => Some false | _, _ => None end.
(** A comparison with NULL is unknown; integers are ordered, other values are not. *)
Definition cmp3 (f : Z → Z → bool) (v w : val) : option bool :=
  match v, w with VNull, _ | _, VNull => None | VInt a, VInt b => Some (f a b) | _, _ => Some false end.
Definition eq3 (v w : val) : option bool := match v, w with VNull, _ | _, VNull => None | _, _ => Some (bool_decide (v = w)) end.
Definition in3 (v : val) (l : list val) : option bool := foldr (λ w r, or3 (eq3 v w) r) (Some false) l.
Fixpoint eval3 (get : string → val) (p : bexp) : option bool :=
  match p with
  | BEq a o => eq3 (opd_val get a) (opd_val get o)
  | BLt a o => cmp3 (λ x y, bool_decide (x < y)) (opd_val get a) (opd_val get o)
  | BLe a o => cmp3 (λ x y, bool_decide (x ≤ y)) (opd_val get a) (opd_val get o)
  | BDiff a o => Some (negb (bool_decide (opd_val get a = opd_val get o)))
  | BNull a => Some (bool_decide (opd_val get a = VNull))
  | BIn a sc t wc rf rc => in3 (opd_val get a) (select_col E d t sc wc (ref_val E e rf rc))
  | BNot p => not3 (eval3 get p)
  | BAnd p q => and3 (eval3 get p) (eval3 get q)
  | BOr p q => or3 (eval3 get p) (eval3 get q)
  end.
(** WHEN, IF and WHERE go by: true. *)
Definition holds (get : string → val) (p : bexp) : bool := bool_decide (eval3 get p = Some true).
(** The assigned value; the column is NOT NULL and CHECKed to be at least 0. *)
Definition assigned (get : string → val) (x : xexp) : res (val * db) :=
  match x with
  | ERand => Ok (VInt (e_rand E (d_rnd d)), tick_rnd d)
  | EPlus a o => let* v := arith (opd_val get a) (opd_val get o) 1 in Ok (v, d)
  | EMinus a o => let* v := arith (opd_val get a) (opd_val get o) (-1) in Ok (v, d)
  end.
End meaning.
(** Running a statement; [act] as in Exec.v. *)
Definition run_read (E : env) (fire : db → event → res db) (act : actives) (e : event) (d : db) (p : pstmt) : res db :=
  match p with
  | PMark ct rf c => Ok (mark d [(ct, to_text (ref_val E e rf c))])
  | PMarkSel ct t sc wc rf rc => Ok (mark d ((λ v, (ct, to_text v)) <$> select_col E d t sc wc (ref_val E e rf rc)))
  | PUpd t c x w =>
      if decide (e_be E = MySQL ∧ t ∈ act.*2) then Err ETableInUse
      else run_stmt E fire t
        ((λ p : Z * row, CUpd p.1 (λ d' o, let* q := assigned E e d' (cell (e_pk E t) p.1 o) x in Ok (<[c := q.1]> o, q.2))) <$>
         filter (λ p : Z * row, holds E e d (cell (e_pk E t) p.1 p.2) w = true) (map_to_list (tab d t))) d
  end.
(** Does a trigger run for an event of its table and kind?  There are no columns outside
    the changed row. *)
Definition read_cond (E : env) (e : event) (d : db) (p : ptrig) : bool :=
  match pt_cond p with None => true | Some c => holds E e d (λ _, VNull) c end.
(** Running a whole trigger. *)
Definition run_ptrig (E : env) (fire : db → event → res db) (act : actives) (e : event) (d : db) (p : ptrig) : res db :=
  if read_cond E e d p then foldM (run_read E fire act e) d (pt_stmts p) else Ok d.
