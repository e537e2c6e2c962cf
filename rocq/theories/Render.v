(** * SQL text of trigger actions and the final trigger names.
    Models db/{sqlite3,postgresql,mysql}/triggers.py (RandomBigInt, TriggerNestedSelect,
    TriggerActionInsert, TriggerActionUpdate, the name handling in Trigger.sql) and the
    textual de-duplication of actions. *)
From Verif Require Import Base BaseLemmas Schema TrigSet Exec Conditions.
From Coq Require Import Ascii.
Open Scope list_scope.

(** ** Identifiers *)
Definition is_ident_char (c : ascii) : bool :=
  let n := Ascii.N_of_ascii c in
  (((48 <=? n) && (n <=? 57)) || ((65 <=? n) && (n <=? 90)) || ((97 <=? n) && (n <=? 122)) || (n =? 95))%N.
Fixpoint all_chars (P : ascii → bool) (s : string) : bool :=
  match s with EmptyString => true | String c s' => P c && all_chars P s' end.
Definition ident (s : string) : Prop := s ≠ "" ∧ all_chars is_ident_char s = true.
Definition dq : string := String "034"%char "".
Definition nl : string := String "010"%char "".

(** connection.ops.quote_name for names that are not quoted yet (Django). *)
Definition qn (b : backend) (s : string) : string :=
  match b with MySQL => "`" +:+ s +:+ "`" | _ => dq +:+ s +:+ dq end.
(** Some places quote a column name and some do not. *)
Definition qif (b : backend) (q : bool) (s : string) : string := if q then qn b s else s.
Definition ref_str (rf : rref) : string := match rf with RNew => "NEW." | ROld => "OLD." end.

(** RandomBigInt.sql: db/sqlite3/triggers.py:10-12, db/postgresql/triggers.py:6-8,
    db/mysql/triggers.py:6-8. *)
Definition rand_sql (b : backend) : string :=
  match b with
  | SQLite => "RANDOM()"
  | Postgres => "(9223372036854775806::INT8 * ((RANDOM()-0.5)*2.0) )::INT8"
  | MySQL => "(9223372036854775806 * ((RAND()-0.5)*2.0) )"
  end.

(** TriggerNestedSelect.sql (the same text in all backends; db/sqlite3/triggers.py:15-21):
    one WHERE term, its left side not quoted (dependencies.py:296, 325, 404). *)
Definition select_sql (b : backend) (cols t wc : string) (rf : rref) (rc : string) : string :=
  "SELECT DISTINCT " +:+ cols +:+ " FROM " +:+ t +:+ " WHERE " +:+ wc +:+ " = " +:+ ref_str rf +:+ qn b rc.

(** One lookup of filter/exclude as Django's compiler renders it: denorms.py:405-415. *)
Inductive ckind := KNull | KNotNull | KEq | KGt | KGe | KLt | KLe.
Definition kind_of (c : cond1) : ckind :=
  match c_op c, c_val c with
  | LExact, VNull => KNull
  | LExact, _ => KEq
  | LGt, _ => KGt
  | LGte, _ => KGe
  | LLt, _ => KLt
  | LLte, _ => KLe
  | LIsNull, VInt 0 => KNotNull
  | LIsNull, _ => KNull
  end.
Definition kind_sql (k : ckind) : string :=
  match k with
  | KNull => " IS NULL" | KNotNull => " IS NOT NULL" | KEq => " = %s"
  | KGt => " > %s" | KGe => " >= %s" | KLt => " < %s" | KLe => " <= %s"
  end.
(** [nu c]: column c is nullable.  Under a negation Django adds IS NOT NULL to a
    comparison of a nullable column (Query.build_filter). *)
Definition notnull_sql (nu : string → bool) (b : backend) (rf : rref) (c : cond1) : string :=
  match kind_of c with
  | KNull | KNotNull => ""
  | _ => if nu (c_col c) then " AND " +:+ ref_str rf +:+ qn b (c_col c) +:+ " IS NOT NULL" else ""
  end.
Definition cond_sql (nu : string → bool) (b : backend) (rf : rref) (c : cond1) : string :=
  ref_str rf +:+ qn b (c_col c) +:+ kind_sql (kind_of c) +:+ notnull_sql nu b rf c.
(** The terms in front of which an AND is put: denorms.py:405-427. *)
Fixpoint conds_sql (nu : string → bool) (b : backend) (rf : rref) (l : list cond1) : string :=
  match l with [] => "" | c :: l' => " AND " +:+ cond_sql nu b rf c +:+ conds_sql nu b rf l' end.
Definition excl_sql (nu : string → bool) (b : backend) (rf : rref) (l : list cond1) : string :=
  match l with [] => "" | c :: l' => " AND NOT (" +:+ cond_sql nu b rf c +:+ conds_sql nu b rf l' +:+ ")" end.
Definition strip5 (s : string) : string := match s with String _ (String _ (String _ (String _ (String _ s')))) => s' | _ => "" end.
Definition many (flt excl : list cond1) : bool := match flt, excl with _ :: _ :: _, _ | _ :: _, _ :: _ => true | _, _ => false end.
(** [' AND '.join(inc_where)] after the join condition (denorms.py:417-427); Django's
    WhereNode.as_sql puts parentheses around more than one term. *)
Definition filter_sql (nu : string → bool) (b : backend) (rf : rref) (flt excl : list cond1) : string :=
  let s := conds_sql (λ _, false) b rf flt +:+ excl_sql nu b rf excl in
  if many flt excl then " AND (" +:+ strip5 s +:+ ")" else s.

(** The WHERE clauses: dependencies.py:115-118, 143-146, 186-189, 219-229; denorms.py:394-397. *)
Definition where_sql (nu : string → bool) (b : backend) (w : whr) : string :=
  match w with
  | WEq c rf rc flt excl => qn b c +:+ " = " +:+ ref_str rf +:+ qn b rc +:+ filter_sql nu b rf flt excl
  | WIn c t sc wc rf rc => c +:+ " IN (" +:+ select_sql b sc t wc rf rc +:+ ")"
  end.
(** Value expressions: RandomBigInt; denorms.py:469-477, 519-527. *)
Definition expr_sql (b : backend) (c : string) (x : vexpr) : string :=
  match x with
  | XRand => rand_sql b
  | XInc => qn b c +:+ " + 1"
  | XDec => qn b c +:+ " - 1"
  | XAdd rf f => qn b c +:+ " + " +:+ ref_str rf +:+ qn b f
  | XSub rf f => qn b c +:+ " - " +:+ ref_str rf +:+ qn b f
  end.

(** The INSERT around the inserted values: db/sqlite3/triggers.py:24-36,
    db/postgresql/triggers.py:20-40, db/mysql/triggers.py:20-33. *)
Definition insert_sql (b : backend) (values : string) : string :=
  match b with
  | SQLite => "INSERT OR REPLACE INTO denorm_dirtyinstance (content_type_id, object_id) " +:+ values
  | Postgres => "BEGIN" +:+ nl +:+ "    INSERT INTO denorm_dirtyinstance (content_type_id, object_id) " +:+ values +:+ ";" +:+ nl +:+
      "EXCEPTION WHEN unique_violation THEN" +:+ nl +:+ "    -- do nothing" +:+ nl +:+ "END"
  | MySQL => "INSERT IGNORE INTO denorm_dirtyinstance (content_type_id, object_id) " +:+ values
  end.
(** action.sql(), first component; [q]: is the marked column quoted?  It is for the
    row's own key and for m2m columns (denorms.py:196, dependencies.py:349-361), and not for
    the old value of a backward ForeignKey and for selected ForeignKeys and keys
    (dependencies.py:295, 323, 333). *)
Definition action_sql (nu : string → bool) (b : backend) (q : bool) (a : action) : string :=
  match a with
  | AMark ct rf c => insert_sql b ((match b with SQLite => "VALUES(" | _ => "VALUES (" end) +:+ pretty ct +:+ ", " +:+ ref_str rf +:+ qif b q c +:+ ")")
  | AMarkSel ct t sc wc rf rc =>
      let s := select_sql b (pretty ct +:+ ", " +:+ qif b q sc) t wc rf rc in
      insert_sql b (match b with SQLite => s | _ => "(" +:+ s +:+ ")" end)
  | AUpd t c x w => "UPDATE " +:+ t +:+ " SET " +:+ c +:+ " = " +:+ expr_sql b c x +:+ " WHERE " +:+ where_sql nu b w
  end.

(** What [actions_added] compares: text and parameters (db/sqlite3/triggers.py:68-75). *)
Definition action_key (nu : string → bool) (b : backend) (p : bool * action) : string * list val := (action_sql nu b p.1 p.2, act_params p.2).
Fixpoint dedup_sql (nu : string → bool) (b : backend) (seen : list (string * list val)) (l : list (bool * action)) : list (bool * action) :=
  match l with
  | [] => []
  | p :: l' => if decide (action_key nu b p ∈ seen) then dedup_sql nu b seen l' else p :: dedup_sql nu b (action_key nu b p :: seen) l'
  end.

(** ** Final names *)
(** django.db.backends.utils.truncate_name(name, 63 - 5) with its 4-digit digest
    (db/postgresql/triggers.py:67); MySQL: 45 characters and 5 random ones
    (db/mysql/triggers.py:55-59).  [digest] and [rnd] are oracles. *)
Definition pg_name (digest : string → string) (n : string) : string :=
  if decide (String.length n ≤ 58)%nat then n else String.substring 0 54 n +:+ digest n.
Definition my_name (rnd : string) (n : string) : string :=
  if decide (50 < String.length n)%nat then String.substring 0 45 n +:+ rnd else n.
Definition final_name (b : backend) (digest : string → string) (rnd : string) (tr : trigger) : string :=
  match b with
  | SQLite => trig_name b tr
  | Postgres => pg_name digest (trig_name b tr)
  | MySQL => my_name rnd (trig_name b tr)
  end.

(** ** Ordinary identifiers and lookups *)
Definition cond_ok (c : cond1) : Prop :=
  ident (c_col c) ∧ match c_op c with LExact => True | LIsNull => ∃ z, c_val c = VInt z | _ => ∃ z, c_val c = VInt z end.
Definition act_ok (a : action) : Prop :=
  match a with
  | AMark _ _ c => ident c
  | AMarkSel _ t sc wc _ rc => ident t ∧ ident sc ∧ ident wc ∧ ident rc
  | AUpd t c x w => ident t ∧ ident c ∧
      match x with XAdd _ f | XSub _ f => ident f | _ => True end ∧
      match w with
      | WEq c' _ rc flt excl => ident c' ∧ ident rc ∧ Forall cond_ok flt ∧ Forall cond_ok excl
      | WIn c' t' sc wc _ rc => ident c' ∧ ident t' ∧ ident sc ∧ ident wc ∧ ident rc
      end
  end.

(** ** Lemmas *)
Ltac sx H := rewrite ?str_app_cons, ?str_app_nil in H.
Lemma str_cancel s s1 s2 : s +:+ s1 = s +:+ s2 → s1 = s2.
Proof. apply str_app_inj_l. Qed.
(** The first character after an identifier. *)
Definition stops (P : ascii → bool) (s : string) : Prop := match s with EmptyString => True | String c _ => P c = false end.
Lemma chars_split P s1 : ∀ s2 r1 r2, all_chars P s1 = true → all_chars P s2 = true → stops P r1 → stops P r2 →
  s1 +:+ r1 = s2 +:+ r2 → s1 = s2 ∧ r1 = r2.
Proof.
  induction s1 as [|c s1 IH]; intros [|c2 s2] r1 r2 H1 H2 S1 S2 H; sx H; simpl in H1, H2.
  - done.
  - exfalso. subst r1. simpl in S1. apply andb_prop in H2 as [H2 _]. congruence.
  - exfalso. subst r2. simpl in S2. apply andb_prop in H1 as [H1 _]. congruence.
  - injection H as -> H. apply andb_prop in H1 as [_ H1]. apply andb_prop in H2 as [_ H2]. destruct (IH s2 r1 r2) as [-> ->]; try done.
Qed.
Lemma ident_split s1 s2 r1 r2 : ident s1 → ident s2 → stops is_ident_char r1 → stops is_ident_char r2 →
  s1 +:+ r1 = s2 +:+ r2 → s1 = s2 ∧ r1 = r2.
Proof. intros [_ H1] [_ H2]. by apply chars_split. Qed.
Definition is_num_char (c : ascii) : bool := let n := Ascii.N_of_ascii c in (((48 <=? n) && (n <=? 57)) || (n =? 45))%N.

Lemma pretty_N_go_num n s : all_chars is_num_char s = true → all_chars is_num_char (pretty_N_go n s) = true.
Proof.
  revert s. induction (N.lt_wf_0 n) as [n _ IH]; intros s Hs.
  destruct (decide (0 < n)%N) as [Hn|Hn].
  - rewrite pretty_N_go_step by done. apply IH.
    + apply N.div_lt; [done|]. by vm_compute.
    + simpl. apply andb_true_intro. split; [|done]. unfold pretty_N_char. repeat case_match; reflexivity.
  - assert (n = 0%N) as -> by lia. by rewrite pretty_N_go_0.
Qed.
Lemma pretty_num (z : Z) : all_chars is_num_char (pretty z) = true.
Proof.
  assert (HN : ∀ n : N, all_chars is_num_char (pretty n) = true).
  { intros n. unfold pretty, pretty_N. case_decide; [reflexivity|]. by apply pretty_N_go_num. }
  unfold pretty, pretty_Z. destruct z; simpl; [reflexivity|apply (HN (N.pos p))|apply (HN (N.pos p))].
Qed.
Lemma num_split (z1 z2 : Z) r1 r2 : stops is_num_char r1 → stops is_num_char r2 → pretty z1 +:+ r1 = pretty z2 +:+ r2 → z1 = z2 ∧ r1 = r2.
Proof. intros S1 S2 H. apply (chars_split is_num_char) in H as [H ->]; [|apply pretty_num..|done|done]. split; [|done]. by apply pretty_Z_inj'. Qed.
Lemma ref_split rf1 rf2 r1 r2 : ref_str rf1 +:+ r1 = ref_str rf2 +:+ r2 → rf1 = rf2 ∧ r1 = r2.
Proof. destruct rf1, rf2; intros H; cbn [ref_str] in H; sx H; injection H as H; done. Qed.
Lemma qn_app b s r : qn b s +:+ r = match b with MySQL => String "`" (s +:+ String "`" r) | _ => String "034" (s +:+ String "034" r) end.
Proof. unfold qn, dq. destruct b; by rewrite !str_app_assoc, !str_app_cons, !str_app_nil. Qed.
Lemma qn_split b s1 s2 r1 r2 : ident s1 → ident s2 → qn b s1 +:+ r1 = qn b s2 +:+ r2 → s1 = s2 ∧ r1 = r2.
Proof.
  intros H1 H2. rewrite !qn_app. destruct b; intros [= H]; (apply ident_split in H as [-> H]; [|done|done|reflexivity|reflexivity]); by injection H as ->.
Qed.
Lemma ident_head b s1 s2 r1 r2 : ident s2 → qn b s1 +:+ r1 ≠ s2 +:+ r2.
Proof. intros [H1 H2]. rewrite qn_app. destruct s2 as [|c s2]; [done|]. rewrite str_app_cons. destruct b; intros [= <- _]; done. Qed.
Lemma qif_split b q1 q2 s1 s2 r1 r2 : ident s1 → ident s2 → stops is_ident_char r1 → stops is_ident_char r2 →
  qif b q1 s1 +:+ r1 = qif b q2 s2 +:+ r2 → q1 = q2 ∧ s1 = s2 ∧ r1 = r2.
Proof.
  intros I1 I2 S1 S2. destruct q1, q2; cbn [qif]; intros H.
  - apply qn_split in H as [-> ->]; done.
  - by apply ident_head in H.
  - symmetry in H. by apply ident_head in H.
  - apply ident_split in H as [-> ->]; done.
Qed.
Lemma kind_split k1 k2 r1 r2 : kind_sql k1 +:+ r1 = kind_sql k2 +:+ r2 → k1 = k2 ∧ r1 = r2.
Proof. destruct k1, k2; intros H; cbn [kind_sql] in H; sx H; injection H as H; done. Qed.

(** Conditions with the same text. *)
Definition same_kind (c c' : cond1) : Prop := c_col c = c_col c' ∧ kind_of c = kind_of c'.
Definition no_cond (r : string) : Prop := ∀ rf s, r ≠ " AND " +:+ ref_str rf +:+ s.
Lemma cond_split nu b rf c c' r r' : cond_ok c → cond_ok c' → cond_sql nu b rf c +:+ r = cond_sql nu b rf c' +:+ r' → same_kind c c' ∧ r = r'.
Proof.
  intros [I1 _] [I2 _]. unfold cond_sql. rewrite !str_app_assoc. intros H. apply ref_split in H as [_ H].
  apply qn_split in H as [Hc H]; [|done|done]. apply kind_split in H as [Hk H]. split; [done|].
  assert (He : notnull_sql nu b rf c = notnull_sql nu b rf c') by (unfold notnull_sql; by rewrite Hk, Hc). rewrite He in H. by apply str_cancel in H.
Qed.
Lemma conds_split nu b rf l : ∀ l' r r', Forall cond_ok l → Forall cond_ok l' → no_cond r → no_cond r' →
  conds_sql nu b rf l +:+ r = conds_sql nu b rf l' +:+ r' → Forall2 same_kind l l' ∧ r = r'.
Proof.
  induction l as [|c l IH]; intros [|c' l'] r r' F1 F2 N1 N2 H; cbn [conds_sql] in H.
  - done.
  - exfalso. rewrite str_app_nil, !str_app_assoc in H. unfold cond_sql in H. rewrite !str_app_assoc in H. by apply N1 in H.
  - exfalso. rewrite str_app_nil, !str_app_assoc in H. unfold cond_sql in H. rewrite !str_app_assoc in H. symmetry in H. by apply N2 in H.
  - rewrite !str_app_assoc in H. apply str_cancel in H. apply Forall_cons in F1 as [F1 F1']. apply Forall_cons in F2 as [F2 F2'].
    apply cond_split in H as [Hc H]; [|done|done]. destruct (IH l' r r') as [Hf ->]; try done. split; [|done]. by constructor.
Qed.
Lemma no_cond_excl nu b rf l : no_cond (excl_sql nu b rf l).
Proof. intros rf' s. destruct l; cbn [excl_sql]; [by destruct rf'|]. destruct rf'; cbn [ref_str]; intros H; sx H; done. Qed.
Lemma excl_split nu b rf l l' : Forall cond_ok l → Forall cond_ok l' → excl_sql nu b rf l = excl_sql nu b rf l' → Forall2 same_kind l l'.
Proof.
  intros F1 F2. destruct l as [|c l], l' as [|c' l']; cbn [excl_sql]; intros H; [constructor|by sx H|by sx H|].
  apply str_cancel in H. apply Forall_cons in F1 as [F1 F1']. apply Forall_cons in F2 as [F2 F2'].
  apply cond_split in H as [Hc H]; [|done|done]. apply conds_split in H as [Hf _]; [|done|done| |]; [by constructor| |]; intros rf' s Hr; by destruct rf'; sx Hr.
Qed.
Lemma strip5_and s : strip5 (" AND " +:+ s) = s.
Proof. done. Qed.
Lemma str_app_tail (s t t' : string) : t +:+ s = t' +:+ s → t = t'.
Proof.
  assert (Hl : ∀ w : string, String.length (w +:+ s) = (String.length w + String.length s)%nat) by (induction w; [done|rewrite str_app_cons; simpl; by rewrite IHw]).
  revert t'. induction t as [|c w IH]; intros [|c' w'] H; [done| | |].
  - exfalso. assert (Hx := f_equal String.length H). rewrite !Hl in Hx. simpl in Hx. lia.
  - exfalso. assert (Hx := f_equal String.length H). rewrite !Hl in Hx. simpl in Hx. lia.
  - rewrite !str_app_cons in H. injection H as -> H. by rewrite (IH _ H).
Qed.
(** What the terms start with. *)
Lemma terms_head nu b rf flt excl : ∃ s, conds_sql (λ _, false) b rf flt +:+ excl_sql nu b rf excl =
  match flt, excl with [], [] => "" | [], _ => " AND " +:+ "NOT (" +:+ s | _, _ => " AND " +:+ ref_str rf +:+ s end.
Proof.
  destruct flt as [|c flt]; [destruct excl as [|x excl]|]; cbn [conds_sql excl_sql]; [by exists ""|eexists; reflexivity|].
  rewrite !str_app_assoc. unfold cond_sql. rewrite !str_app_assoc. eexists; reflexivity.
Qed.
Lemma filter_split nu b rf flt flt' excl excl' : Forall cond_ok flt → Forall cond_ok flt' → Forall cond_ok excl → Forall cond_ok excl' →
  filter_sql nu b rf flt excl = filter_sql nu b rf flt' excl' → Forall2 same_kind flt flt' ∧ Forall2 same_kind excl excl'.
Proof.
  intros F1 F2 X1 X2 H. assert (Hfull : conds_sql (λ _, false) b rf flt +:+ excl_sql nu b rf excl = conds_sql (λ _, false) b rf flt' +:+ excl_sql nu b rf excl').
  { unfold filter_sql in H. destruct (terms_head nu b rf flt excl) as [s Hs], (terms_head nu b rf flt' excl') as [s' Hs'].
    destruct (many flt excl) eqn:M1, (many flt' excl') eqn:M2.
    - apply str_cancel in H. apply str_app_tail in H. rewrite Hs, Hs' in *.
      destruct flt, excl; [done|done|..]; (destruct flt', excl'; [done|done|..]); rewrite ?strip5_and in H; by rewrite H.
    - exfalso. rewrite Hs' in H. destruct flt', excl'; destruct rf; cbn [ref_str] in H; sx H; done.
    - exfalso. rewrite Hs in H. destruct flt, excl; destruct rf; cbn [ref_str] in H; sx H; done.
    - done. }
  apply conds_split in Hfull as [Hf Hx]; [|done|done|apply no_cond_excl..]. split; [done|]. by apply excl_split in Hx.
Qed.

(** Same text and same parameters: same meaning. *)
Definition same_cond (c c' : cond1) : Prop := c_col c = c_col c' ∧ ∀ v, cond1_holds c v = cond1_holds c' v.
Definition cparam (c : cond1) : option val := match c_op c, c_val c with LIsNull, _ => None | LExact, VNull => None | _, v => Some v end.
Lemma cparam_kind c : is_Some (cparam c) ↔ match kind_of c with KNull | KNotNull => False | _ => True end.
Proof.
  destruct c as [c o v]. unfold cparam, kind_of. simpl.
  destruct o, v as [|z|]; simpl; try (destruct z); split; try done; by intros [? ?].
Qed.
Lemma kinds_same c c' : cond_ok c → cond_ok c' → same_kind c c' → cparam c = cparam c' → same_cond c c'.
Proof.
  intros [_ O1] [_ O2] [Hc Hk] Hp. split; [done|]. intros v. destruct c as [c o w], c' as [c' o' w']. unfold kind_of, cparam, cond1_holds in *. simpl in *.
  destruct o, o'; simpl in *; repeat match goal with H : ∃ z, _ = _ |- _ => destruct H as [? ->] end;
    repeat case_match; simplify_eq; try done; repeat case_bool_decide; simplify_eq; try done; try lia; simpl in *; try congruence.
Qed.
Lemma params_same l l' : Forall cond_ok l → Forall cond_ok l' → Forall2 same_kind l l' → omap cparam l = omap cparam l' → Forall2 same_cond l l'.
Proof.
  intros F1 F2 Hk. induction Hk as [|c c' l l' Hc Hl IH]; [constructor|]. apply Forall_cons in F1 as [F1 F1']. apply Forall_cons in F2 as [F2 F2']. csimpl.
  intros H. assert (Hq := cparam_kind c). assert (Hq' := cparam_kind c'). destruct Hc as [Hc1 Hc2]. rewrite Hc2 in Hq. rewrite <- Hq' in Hq.
  destruct (cparam c) as [v|] eqn:P1, (cparam c') as [v'|] eqn:P2.
  - injection H as -> H. constructor; [apply kinds_same; [done..|congruence]|by apply IH].
  - exfalso. destruct Hq as [Hq _]. destruct Hq; done.
  - exfalso. destruct Hq as [_ Hq]. destruct Hq; done.
  - constructor; [apply kinds_same; [done..|congruence]|by apply IH].
Qed.
Lemma same_kind_params l l' m m' : Forall2 same_kind l l' → omap cparam (l ++ m) = omap cparam (l' ++ m') → omap cparam l = omap cparam l' ∧ omap cparam m = omap cparam m'.
Proof.
  intros Hk. induction Hk as [|c c' l l' Hc Hl IH]; [done|]. csimpl. intros H.
  assert (Hq := cparam_kind c). assert (Hq' := cparam_kind c'). destruct Hc as [Hc1 Hc2]. rewrite Hc2 in Hq. rewrite <- Hq' in Hq.
  destruct (cparam c) as [v|] eqn:P1, (cparam c') as [v'|] eqn:P2.
  - injection H as -> H. destruct (IH H) as [-> ->]. done.
  - exfalso. destruct Hq as [Hq _]. destruct Hq; done.
  - exfalso. destruct Hq as [_ Hq]. destruct Hq; done.
  - by apply IH.
Qed.
Lemma passes_same f f' x x' get : Forall2 same_cond f f' → Forall2 same_cond x x' → passes f x get = passes f' x' get.
Proof.
  intros Hf Hx. unfold passes.
  assert (Hall : ∀ l l', Forall2 same_cond l l' → forallb (λ c, cond1_holds c (get (c_col c))) l = forallb (λ c, cond1_holds c (get (c_col c))) l').
  { induction 1 as [|c c' l l' [H1 H2] _ IH]; simpl; [done|]. by rewrite IH, H1, H2. }
  rewrite (Hall _ _ Hf), (Hall _ _ Hx). f_equal. f_equal. apply bool_decide_ext. destruct Hx; done.
Qed.
