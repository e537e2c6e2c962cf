(** * Installing and dropping triggers.
    Models denorms.py:569-579 (drop_triggers, install_triggers) and TriggerSet.drop/install
    of the three backends (db/sqlite3/triggers.py:105-137, db/postgresql/triggers.py:134-171,
    db/mysql/triggers.py:107-126) over a database catalogue. *)
From Verif Require Import Base BaseLemmas Schema TrigSet Gen GenLemmas Conditions Names Render RenderProps Resolve.
From Coq Require Import Ascii.
Open Scope list_scope.

(** ** The catalogue *)
(** What a trigger executes: its own statements (SQLite, MySQL), a function (PostgreSQL),
    or something django-denorm did not create. *)
Inductive tbody := TInline (it : itrig) | TCalls (fn : string) | TForeign (n : nat).
Record centry := CEntry { ce_sch : string; ce_tab : string; ce_name : string; ce_body : tbody }.
(** Tables and triggers of all schemas, the search path (PostgreSQL; one schema otherwise),
    and the trigger functions by name. *)
Record catalog := Catalog { ct_tabs : list (string * string); ct_path : list string; ct_trigs : list centry; ct_funs : gmap string itrig }.
Definition set_trigs (c : catalog) (l : list centry) : catalog := Catalog (ct_tabs c) (ct_path c) l (ct_funs c).
(** The statements a trigger executes. *)
Definition runs (c : catalog) (e : centry) : option itrig :=
  match ce_body e with TInline it => Some it | TCalls f => ct_funs c !! f | TForeign _ => None end.
(** The table an unqualified name means: the first schema of the search path that has it. *)
Definition find_table (c : catalog) (t : string) : option string := head (filter (λ s, (s, t) ∈ ct_tabs c) (ct_path c)).

(** ** LIKE *)
Definition chars (s : string) : list ascii := String.list_ascii_of_string s.
Fixpoint tails (l : list ascii) : list (list ascii) := match l with [] => [[]] | _ :: l' => l :: tails l' end.
Definition same_char (ci : bool) (a b : ascii) : bool := if ci then bool_decide (lower_char a = lower_char b) else bool_decide (a = b).
(** [_] matches one character and [%] any number; SQLite ignores the case of ASCII
    letters ([ci]), PostgreSQL does not. *)
Fixpoint like (ci : bool) (p s : list ascii) : bool :=
  match p with
  | [] => match s with [] => true | _ => false end
  | c :: p' =>
      if decide (c = "%"%char) then existsb (like ci p') (tails s)
      else match s with
           | [] => false
           | x :: s' => (if decide (c = "_"%char) then true else same_char ci c x) && like ci p' s'
           end
  end.
(** The triggers drop() takes for its own.  The SQL is executed without parameters, so the
    pattern has two percent signs: db/sqlite3/triggers.py:110, db/postgresql/triggers.py:138,
    db/mysql/triggers.py:117 (str.startswith). *)
Definition selected (b : backend) (n : string) : bool :=
  match b with
  | SQLite => like true (chars "denorm_%%") (chars n)
  | Postgres => like false (chars "denorm_%%") (chars n)
  | MySQL => String.prefix "denorm_" n
  end.

(** ** DROP TRIGGER and CREATE TRIGGER *)
(** What identifies a trigger: its name; on PostgreSQL together with its table. *)
Definition ckey (b : backend) (e : centry) : string * string * string :=
  match b with
  | Postgres => (ce_sch e, ce_tab e, ce_name e)
  | SQLite => ("", "", lower (ce_name e))
  | MySQL => ("", "", ce_name e)
  end.
(** DROP TRIGGER name [ON table]: the table is not qualified by its schema
    (db/postgresql/triggers.py:139-140). *)
Definition drop_one (b : backend) (c : catalog) (e : centry) : option catalog :=
  let k := match b with
           | Postgres => (λ s, (s, ce_tab e, ce_name e)) <$> find_table c (ce_tab e)
           | _ => Some (ckey b e)
           end in
  match k with
  | None => None
  | Some k => if decide (k ∈ ckey b <$> ct_trigs c) then Some (set_trigs c (filter (λ e', ckey b e' ≠ k) (ct_trigs c))) else None
  end.
Fixpoint drop_go (b : backend) (c : catalog) (l : list centry) : option catalog :=
  match l with [] => Some c | e :: l' => match drop_one b c e with None => None | Some c' => drop_go b c' l' end end.
(** TriggerSet.drop: the result and whether it succeeded.  A failure is rolled back
    (transaction.atomic; on MySQL every listed trigger exists, so nothing fails). *)
Definition drop (b : backend) (c : catalog) : catalog * bool :=
  match drop_go b c (filter (λ e, selected b (ce_name e) = true) (ct_trigs c)) with Some c' => (c', true) | None => (c, false) end.

(** PostgreSQL folds identifiers that are not quoted; neither the name nor the table is
    (db/postgresql/triggers.py:121-130). *)
Definition fold (b : backend) (s : string) : string := match b with Postgres => lower s | _ => s end.
Definition new_entry (b : backend) (digest : string → string) (rnd : string) (tr : trigger) (s : string) (it : itrig) : centry :=
  let n := fold b (final_name b digest rnd tr) in
  CEntry s (fold b (t_tab tr)) n (match b with Postgres => TCalls ("func_" +:+ n) | _ => TInline it end).
(** Trigger.sql and its execution: fails if the SQL cannot be built, the table does not
    exist or the name is taken; CREATE OR REPLACE FUNCTION never fails. *)
Definition create (b : backend) (digest : string → string) (rnd : string) (tr : trigger) (c : catalog) : option catalog :=
  match trig_sql b tr, find_table c (fold b (t_tab tr)) with
  | Ok it, Some s =>
      let e := new_entry b digest rnd tr s it in
      if decide (ckey b e ∈ ckey b <$> ct_trigs c) then None
      else Some (Catalog (ct_tabs c) (ct_path c) (ct_trigs c ++ [e])
             (match b with Postgres => <["func_" +:+ ce_name e := it]> (ct_funs c) | _ => ct_funs c end))
  | _, _ => None
  end.
(** TriggerSet.install_atomic; [rnd i]: the random characters of the i-th trigger. *)
Fixpoint install_go (b : backend) (digest : string → string) (rnd : nat → string) (i : nat) (ts : tset) (c : catalog) : catalog * bool :=
  match ts with
  | [] => (c, true)
  | p :: ts' => match create b digest (rnd i) p.2 c with
                | None => (c, false)
                | Some c' => install_go b digest rnd (Datatypes.S i) ts' c'
                end
  end.
(** TriggerSet.install: atomic, except on MySQL. *)
Definition install (b : backend) (digest : string → string) (rnd : nat → string) (ts : tset) (c : catalog) : catalog * bool :=
  let r := install_go b digest rnd 0 ts c in
  match b with MySQL => r | _ => if r.2 then r else (c, false) end.

(** The same for any database: [transaction.atomic()] is called without [using], so that it
    opens a transaction of the default database only ([dflt]: --database is the default
    database); elsewhere every statement is committed by itself
    (db/sqlite3/triggers.py:118-124, 133-139, db/postgresql/triggers.py:143-149, 160-166). *)
Fixpoint drop_stop (b : backend) (c : catalog) (l : list centry) : catalog * bool :=
  match l with [] => (c, true) | e :: l' => match drop_one b c e with None => (c, false) | Some c' => drop_stop b c' l' end end.
Definition drop_on (dflt : bool) (b : backend) (c : catalog) : catalog * bool :=
  if dflt then drop b c else drop_stop b c (filter (λ e, selected b (ce_name e) = true) (ct_trigs c)).
Definition install_on (dflt : bool) (b : backend) (digest : string → string) (rnd : nat → string) (ts : tset) (c : catalog) : catalog * bool :=
  if dflt then install b digest rnd ts c else install_go b digest rnd 0 ts c.

(** ** Conditions of the theorems *)
(** No two triggers have one identity, and on PostgreSQL the tables of the selected
    triggers are found through the search path. *)
Definition cat_ok (b : backend) (c : catalog) : Prop :=
  NoDup (ckey b <$> ct_trigs c) ∧
  (b = Postgres → ∀ e, e ∈ ct_trigs c → selected b (ce_name e) = true → find_table c (ce_tab e) = Some (ce_sch e)).
(** Names as the database compares them. *)
Definition name_of (b : backend) (digest : string → string) (rnd : nat → string) (i : nat) (p : string * trigger) : string :=
  match b with MySQL => final_name b digest (rnd i) p.2 | _ => lower (final_name b digest (rnd i) p.2) end.

(** ** Lemmas *)
Lemma tails_in l : l ∈ tails l.
Proof. destruct l; [left|left]. Qed.
Lemma tails_nil l : [] ∈ tails l.
Proof. induction l as [|x l IH]; [left|right; done]. Qed.
Lemma existsb_elem {A} (f : A → bool) l : existsb f l = true ↔ ∃ x, x ∈ l ∧ f x = true.
Proof. rewrite existsb_exists. split; intros (x & H & Hx); exists x; (split; [|done]); by apply elem_of_list_In. Qed.
Lemma like_any ci s : like ci ["%"%char; "%"%char] s = true.
Proof.
  assert (H : ∀ s, like ci ["%"%char] s = true).
  { intros s'. cbn [like]. rewrite decide_True by done. apply existsb_elem. exists []. split; [apply tails_nil|done]. }
  cbn [like]. rewrite decide_True by done. apply existsb_elem. exists s. split; [apply tails_in|apply H].
Qed.
Definition begins (ci : bool) (n : string) : Prop := ∃ p c r, n = p +:+ String c r ∧ (if ci then lower p else p) = "denorm".
Lemma like_lit ci c p s : c ≠ "%"%char → c ≠ "_"%char → like ci (c :: p) s = true ↔ ∃ x s', s = x :: s' ∧ same_char ci c x = true ∧ like ci p s' = true.
Proof.
  intros H1 H2. cbn [like]. rewrite decide_False by done. destruct s as [|x s']; [split; [done|]; by intros (? & ? & ? & _)|].
  rewrite decide_False by done. rewrite andb_true_iff. split; [eauto|]. by intros (? & ? & [= -> ->] & ?).
Qed.
Lemma like_one ci c p s : like ci ("_"%char :: p) (c :: s) = like ci p s.
Proof. reflexivity. Qed.
Lemma chars_inj s t : chars s = chars t → s = t.
Proof. intros H. rewrite <- (String.string_of_list_ascii_of_string s), <- (String.string_of_list_ascii_of_string t). unfold chars in H. by rewrite H. Qed.
Lemma like_denorm ci n : like ci (chars "denorm_%%") (chars n) = true ↔ begins ci n.
Proof.
  change (chars "denorm_%%") with ["d"; "e"; "n"; "o"; "r"; "m"; "_"; "%"; "%"]%char. split.
  - intros H. do 6 (apply like_lit in H as (? & ? & ? & ? & H); [|done|done]). cbn [like] in H. rewrite decide_False in H by done.
    match type of H with context [match ?s with _ => _ end] => destruct s as [|c r]; [done|] end. clear H.
    match goal with H : chars n = ?x1 :: ?l1, H1 : ?l1 = ?x2 :: ?l2, H2 : ?l2 = ?x3 :: ?l3, H3 : ?l3 = ?x4 :: ?l4, H4 : ?l4 = ?x5 :: ?l5, H5 : ?l5 = ?x6 :: _ |- _ =>
      subst; exists (String x1 (String x2 (String x3 (String x4 (String x5 (String x6 "")))))), c, (String.string_of_list_ascii r) end.
    split.
    + apply chars_inj. match goal with H : chars n = _ |- _ => rewrite H end. rewrite !str_app_cons, str_app_nil. simpl. unfold chars. by rewrite String.list_ascii_of_string_of_list_ascii.
    + unfold same_char in *. destruct ci; repeat match goal with H : bool_decide _ = true |- _ => apply bool_decide_eq_true in H end.
      * cbn [lower]. repeat match goal with H : lower_char _ = lower_char _ |- _ => rewrite <- H; clear H end. reflexivity.
      * by subst.
  - intros (p & c & r & -> & Hp).
    assert (Hl : ∃ x1 x2 x3 x4 x5 x6, p = String x1 (String x2 (String x3 (String x4 (String x5 (String x6 ""))))) ∧
      same_char ci "d" x1 = true ∧ same_char ci "e" x2 = true ∧ same_char ci "n" x3 = true ∧ same_char ci "o" x4 = true ∧ same_char ci "r" x5 = true ∧ same_char ci "m" x6 = true).
    { destruct ci; [|subst; by do 6 eexists].
      do 6 (destruct p as [|? p]; [cbn [lower] in Hp; simplify_eq|]). destruct p; [|cbn [lower] in Hp; simplify_eq].
      cbn [lower] in Hp. injection Hp as H1 H2 H3 H4 H5 H6. do 6 eexists. split; [done|]. unfold same_char. rewrite !bool_decide_eq_true. rewrite H1, H2, H3, H4, H5, H6. done. }
    destruct Hl as (x1 & x2 & x3 & x4 & x5 & x6 & -> & ? & ? & ? & ? & ? & ?). rewrite !str_app_cons, str_app_nil. unfold chars. cbn [String.list_ascii_of_string].
    do 6 (apply like_lit; [done|done|do 2 eexists; split; [done|]; split; [done|]]). rewrite like_one. apply like_any.
Qed.
Lemma lower_idem_char c : lower_char (lower_char c) = lower_char c.
Proof. destruct c as [[] [] [] [] [] [] [] []]; reflexivity. Qed.
Lemma prefix_app p s : String.prefix p (p +:+ s) = true.
Proof. induction p as [|c p IH]; [by destruct s|]. rewrite str_app_cons. simpl. destruct (Ascii.ascii_dec c c); [done|done]. Qed.
Lemma prefix_split p s : String.prefix p s = true → ∃ r, s = p +:+ r.
Proof.
  revert s. induction p as [|c p IH]; intros s H; [exists s; by rewrite str_app_nil|].
  destruct s as [|c' s]; [done|]. simpl in H. destruct (Ascii.ascii_dec c c') as [->|]; [|done]. destruct (IH _ H) as [r ->]. exists r. by rewrite str_app_cons.
Qed.
(** All names of django-denorm are selected. *)
Lemma ours_selected b digest rnd tr s it : selected b (ce_name (new_entry b digest rnd tr s it)) = true.
Proof.
  destruct (final_prefix b digest rnd tr) as [r Hr]. cbn [ce_name new_entry]. rewrite Hr.
  destruct b; cbn [selected fold].
  - apply like_denorm. exists "denorm", "_"%char, ("after_row_" +:+ ev_str (t_ev tr) +:+ "_on_" +:+ r). split; [|done]. by rewrite !str_app_cons, !str_app_nil.
  - apply like_denorm. rewrite lower_app. exists "denorm", "_"%char, ("after_row_" +:+ lower (ev_str (t_ev tr) +:+ "_on_" +:+ r)). split; [|done].
    cbn [lower]. by rewrite !str_app_cons, !str_app_nil.
  - change "denorm_after_row_" with ("denorm_" +:+ "after_row_"). rewrite str_app_assoc. apply prefix_app.
Qed.

Lemma NoDup_fmap_filter {A B} (f : A → B) (P : A → Prop) `{!∀ x, Decision (P x)} l : NoDup (f <$> l) → NoDup (f <$> filter P l).
Proof.
  induction l as [|x l IH]; [done|]. csimpl. intros [Hx Hl]%NoDup_cons. destruct (decide (P x)).
  - rewrite filter_cons_True by done. csimpl. apply NoDup_cons. split; [|by apply IH]. intros (y & Hy & [_ Hin]%elem_of_list_filter)%elem_of_list_fmap.
    apply Hx. rewrite Hy. by apply elem_of_list_fmap_1.
  - rewrite filter_cons_False by done. by apply IH.
Qed.
Lemma filter_ext_elem {A} (P Q : A → Prop) `{!∀ x, Decision (P x), !∀ x, Decision (Q x)} (l : list A) : (∀ x, x ∈ l → P x ↔ Q x) → filter P l = filter Q l.
Proof.
  induction l as [|x l IH]; [done|]. intros HH. assert (Hx := HH x ltac:(left)). assert (IH' := IH ltac:(intros; apply HH; by right)).
  destruct (decide (P x)).
  - rewrite !filter_cons_True by tauto. by rewrite IH'.
  - rewrite !filter_cons_False by tauto. done.
Qed.
Lemma drop_go_spec b l : ∀ c, NoDup (ckey b <$> ct_trigs c) → NoDup (ckey b <$> l) → (∀ e, e ∈ l → e ∈ ct_trigs c) →
  (b = Postgres → ∀ e, e ∈ l → find_table c (ce_tab e) = Some (ce_sch e)) →
  drop_go b c l = Some (set_trigs c (filter (λ e, ckey b e ∉ ckey b <$> l) (ct_trigs c))).
Proof.
  induction l as [|e l IH]; intros c Hc Hl Hin Hf; simpl.
  - f_equal. destruct c as [ta pa tr fu]. unfold set_trigs. simpl. f_equal. symmetry.
    clear. induction tr as [|x tr IH]; [done|]. rewrite filter_cons_True by apply not_elem_of_nil. by rewrite IH.
  - assert (Hk : match b with Postgres => (λ s, (s, ce_tab e, ce_name e)) <$> find_table c (ce_tab e) | _ => Some (ckey b e) end = Some (ckey b e)).
    { destruct b; try done. rewrite Hf by (done || left). done. }
    unfold drop_one. rewrite Hk. rewrite decide_True by (apply elem_of_list_fmap; exists e; split; [done|apply Hin; left]).
    csimpl in Hl. apply NoDup_cons in Hl as [Hn Hl]. rewrite IH.
    + f_equal. unfold set_trigs. simpl. f_equal. rewrite list_filter_filter. apply list_filter_iff. intros x. csimpl. rewrite not_elem_of_cons. tauto.
    + simpl. by apply NoDup_fmap_filter.
    + done.
    + intros e' He'. simpl. apply elem_of_list_filter. split; [|apply Hin; by right]. intros Hq. apply Hn. rewrite <- Hq. by apply elem_of_list_fmap_1.
    + intros Hb e' He'. change (find_table (set_trigs c _) (ce_tab e')) with (find_table c (ce_tab e')). apply Hf; [done|by right].
Qed.
(** Dropping removes exactly the selected triggers. *)
Lemma drop_exact b c : cat_ok b c → drop b c = (set_trigs c (filter (λ e, selected b (ce_name e) = false) (ct_trigs c)), true).
Proof.
  intros [Hnd Hf]. unfold drop. rewrite drop_go_spec; [| done| | |].
  - f_equal. f_equal. apply filter_ext_elem. intros e He. rewrite elem_of_list_fmap. split.
    + intros Hn. destruct (selected b (ce_name e)) eqn:Es; [|done]. exfalso. apply Hn. exists e. split; [done|]. by apply elem_of_list_filter.
    + intros Hs (e' & Hk & [Hs' He']%elem_of_list_filter).
      assert (e = e') as -> by (eapply NoDup_fmap_eq; eauto). congruence.
  - by apply NoDup_fmap_filter.
  - intros e [_ ?]%elem_of_list_filter. done.
  - intros Hb e [Hs He]%elem_of_list_filter. by apply Hf.
Qed.

Lemma create_ok b digest rnd tr c it s : trig_sql b tr = Ok it → find_table c (fold b (t_tab tr)) = Some s →
  ckey b (new_entry b digest rnd tr s it) ∉ ckey b <$> ct_trigs c →
  create b digest rnd tr c = Some (Catalog (ct_tabs c) (ct_path c) (ct_trigs c ++ [new_entry b digest rnd tr s it])
     (match b with Postgres => <["func_" +:+ ce_name (new_entry b digest rnd tr s it) := it]> (ct_funs c) | _ => ct_funs c end)).
Proof. intros H1 H2 H3. unfold create. rewrite H1, H2. by rewrite decide_False. Qed.

(** The entries [install] adds, in order. *)
Fixpoint new_entries (b : backend) (digest : string → string) (rnd : nat → string) (i : nat) (ts : tset) (c : catalog) : list centry :=
  match ts with
  | [] => []
  | p :: ts' => match trig_sql b p.2, find_table c (fold b (t_tab p.2)) with
                | Ok it, Some s => new_entry b digest (rnd i) p.2 s it :: new_entries b digest rnd (Datatypes.S i) ts' c
                | _, _ => []
                end
  end.
Lemma new_entries_tabs b digest rnd ts : ∀ i c c', ct_tabs c = ct_tabs c' → ct_path c = ct_path c' → new_entries b digest rnd i ts c = new_entries b digest rnd i ts c'.
Proof.
  induction ts as [|p ts IH]; intros i c c' H1 H2; [done|]. simpl. assert (find_table c (fold b (t_tab p.2)) = find_table c' (fold b (t_tab p.2))) as ->.
  { unfold find_table. by rewrite H1, H2. }
  destruct (trig_sql b p.2); [|done]. destruct (find_table c' (fold b (t_tab p.2))); [|done]. by rewrite (IH _ c c').
Qed.
Definition names_from (b : backend) (digest : string → string) (rnd : nat → string) (i : nat) (ts : tset) : list string :=
  imap (λ j p, name_of b digest rnd (i + j) p) ts.
Lemma names_from_cons b digest rnd i p ts : names_from b digest rnd i (p :: ts) = name_of b digest rnd i p :: names_from b digest rnd (Datatypes.S i) ts.
Proof. unfold names_from. simpl. rewrite Nat.add_0_r. f_equal. apply imap_ext. intros j x _. simpl. f_equal. lia. Qed.
Definition key_name (b : backend) (k : string * string * string) : string := k.2.
Lemma ckey_name b e : key_name b (ckey b e) = match b with SQLite => lower (ce_name e) | _ => ce_name e end.
Proof. by destruct b. Qed.
Lemma new_key_name b digest rnd i p s it : key_name b (ckey b (new_entry b digest (rnd i) p.2 s it)) = name_of b digest rnd i p.
Proof. rewrite ckey_name. by destruct b. Qed.

Lemma install_go_spec b digest rnd ts : ∀ i c its, tset_sql b ts = Ok its → (∀ p, p ∈ ts → is_Some (find_table c (fold b (t_tab p.2)))) →
  NoDup (names_from b digest rnd i ts) → (∀ n, n ∈ names_from b digest rnd i ts → n ∉ key_name b ∘ ckey b <$> ct_trigs c) →
  ∃ fu, install_go b digest rnd i ts c = (Catalog (ct_tabs c) (ct_path c) (ct_trigs c ++ new_entries b digest rnd i ts c) fu, true) ∧
    (∀ f, f ∉ (λ n, "func_" +:+ n) <$> names_from b digest rnd i ts → fu !! f = ct_funs c !! f) ∧
    Forall2 (λ it e, ce_tab e = fold b (i_tab it) ∧ find_table c (ce_tab e) = Some (ce_sch e) ∧
       match ce_body e with TInline it' => it' = it | TCalls f => fu !! f = Some it | TForeign _ => False end) its (new_entries b digest rnd i ts c).
Proof.
  induction ts as [|p ts IH]; intros i c its Hs Ht Hn Hf.
  { injection Hs as <-. exists (ct_funs c). simpl. rewrite app_nil_r. destruct c; split; [done|]. split; [done|constructor]. }
  unfold tset_sql in Hs. simpl in Hs. destruct (trig_sql b p.2) as [it|] eqn:Eit; [|done]. simpl in Hs.
  destruct (mapM_res (λ p, trig_sql b p.2) ts) as [its'|] eqn:Eits; [|done]. injection Hs as <-.
  destruct (Ht p ltac:(left)) as [s Hsch]. rewrite names_from_cons in Hn, Hf. apply NoDup_cons in Hn as [Hn1 Hn2].
  cbn [install_go new_entries]. rewrite Eit, Hsch.
  set (e := new_entry b digest (rnd i) p.2 s it).
  rewrite (create_ok b digest (rnd i) p.2 c it s Eit Hsch).
  2: { intros (e' & Hk & He')%elem_of_list_fmap. apply (Hf (name_of b digest rnd i p)); [left|].
       apply elem_of_list_fmap. exists e'. split; [|done]. simpl. rewrite <- Hk. symmetry. apply new_key_name. }
  fold e. set (c' := Catalog _ _ _ _).
  destruct (IH (Datatypes.S i) c' its') as (fu & H1 & H2 & H3).
  - done.
  - intros q Hq. apply (Ht q). by right.
  - done.
  - intros n Hin. change (ct_trigs c') with (ct_trigs c ++ [e]). rewrite fmap_app, not_elem_of_app. split; [apply Hf; by right|].
    csimpl. rewrite elem_of_list_singleton. intros ->. apply Hn1. unfold e in Hin. simpl in Hin. rewrite new_key_name in Hin. done.
  - assert (Htab : new_entries b digest rnd (Datatypes.S i) ts c' = new_entries b digest rnd (Datatypes.S i) ts c) by (by apply new_entries_tabs).
    rewrite Htab in H1, H3. exists fu. split; [|split].
    + rewrite H1. unfold c'. cbn [ct_tabs ct_path ct_trigs]. by rewrite <- app_assoc.
    + intros f Hnf. rewrite names_from_cons in Hnf. csimpl in Hnf. apply not_elem_of_cons in Hnf as [Hnf1 Hnf2]. rewrite H2 by done. unfold c'. cbn [ct_funs].
      destruct b; try done. apply lookup_insert_ne. intros Hq. apply Hnf1. rewrite <- Hq. f_equal.
    + constructor; [|done]. split; [|split].
      * unfold e. simpl. unfold trig_sql in Eit. destruct (trig_cond b p.2); [|done]. simpl in Eit. repeat case_decide; try case_match; by simplify_eq.
      * exact Hsch.
      * unfold e. simpl. destruct b; try done. rewrite H2.
        -- unfold c'. cbn [ct_funs]. apply lookup_insert.
        -- intros (n & Hq & Hin)%elem_of_list_fmap. apply str_app_inj_l in Hq. apply Hn1. rewrite <- Hq in Hin. exact Hin.
Qed.

(** Short lower-case names are told apart. *)
Lemma keys_names b S ts n tr : build_triggerset b S = Ok ts → (n, tr) ∈ ts → n = trig_name b tr.
Proof.
  intros H Hin. destruct (build_gen _ _ _ H) as (l & Hl & [_ _ Hso]). destruct (Hso _ _ Hin) as [(t1 & _ & <- & Hh1) _].
  by rewrite (trig_name_same_head b _ _ Hh1).
Qed.
Lemma short_names_nodup b S ts digest rnd : build_triggerset b S = Ok ts →
  (∀ p, p ∈ ts → (String.length p.1 ≤ 50)%nat ∧ (b ≠ MySQL → lower p.1 = p.1)) → NoDup (names_from b digest rnd 0 ts).
Proof.
  intros H Hs. destruct (build_gen _ _ _ H) as (l & _ & [Hnd _ _]).
  assert (Hq : names_from b digest rnd 0 ts = ts.*1).
  { unfold names_from. assert (Hg : ∀ ts0 i, (∀ p, p ∈ ts0 → p ∈ ts) → imap (λ j p, name_of b digest rnd (i + j) p) ts0 = ts0.*1).
    { induction ts0 as [|[n tr] ts0 IH]; intros i Hin; [done|]. simpl. f_equal.
      - destruct (Hs (n, tr) ltac:(apply Hin; left)) as [Hlen Hlow]. simpl in Hlen, Hlow. assert (Hk := keys_names b S ts n tr H ltac:(apply Hin; left)).
        assert (Hfin : final_name b digest (rnd (i + 0)%nat) tr = n).
        { rewrite Hk in Hlen |- *. destruct b; cbn [final_name]; [done| |]; unfold pg_name, my_name; [rewrite decide_True; [done|lia]|rewrite decide_False; [done|lia]]. }
        unfold name_of. cbn [snd]. rewrite Hfin. destruct b; [by apply Hlow..|done].
      - etransitivity; [|apply (IH (Datatypes.S i)); intros; apply Hin; by right]. apply imap_ext. intros j x _. simpl. f_equal. lia. }
    apply Hg. done. }
  by rewrite Hq.
Qed.
Lemma find_table_set c l t : find_table (set_trigs c l) t = find_table c t.
Proof. done. Qed.
Lemma drop_install b digest rnd ts its c : cat_ok b c → tset_sql b ts = Ok its →
  (∀ p, p ∈ ts → is_Some (find_table c (fold b (t_tab p.2)))) → NoDup (names_from b digest rnd 0 ts) →
  ∃ c1 c2 l, drop b c = (c1, true) ∧ install b digest rnd ts c1 = (c2, true) ∧
    ct_trigs c2 = filter (λ e, selected b (ce_name e) = false) (ct_trigs c) ++ l ∧ ct_tabs c2 = ct_tabs c ∧ ct_path c2 = ct_path c ∧
    Forall2 (λ it e, ce_tab e = fold b (i_tab it) ∧ find_table c (ce_tab e) = Some (ce_sch e) ∧ runs c2 e = Some it) its l ∧
    l = new_entries b digest rnd 0 ts c.
Proof.
  intros Hc Hs Ht Hn. rewrite (drop_exact _ _ Hc). set (c1 := set_trigs c _).
  destruct (install_go_spec b digest rnd ts 0 c1 its) as (fu & H1 & H2 & H3); [done|done|done| |].
  { intros n Hin (e & Hk & He)%elem_of_list_fmap. unfold c1 in He. cbn [set_trigs ct_trigs] in He. apply elem_of_list_filter in He as [He _].
    simpl in Hk. rewrite ckey_name in Hk.
    assert (Hex : ∃ i p, n = name_of b digest rnd i p).
    { unfold names_from in Hin. apply elem_of_lookup_imap in Hin as (j & p & -> & _). eauto. }
    destruct Hex as (i & p & ->). destruct (final_prefix b digest (rnd i) p.2) as [r Hr].
    unfold name_of in Hk. rewrite Hr in Hk.
    destruct b; cbn [selected] in He.
    - apply not_true_iff_false in He. apply He, like_denorm. rewrite lower_app in Hk. cbn [lower] in Hk.
      destruct (ce_name e) as [|x1 [|x2 [|x3 [|x4 [|x5 [|x6 [|x7 s]]]]]]]; cbn [lower] in Hk; rewrite ?str_app_cons in Hk; try done.
      injection Hk as K1 K2 K3 K4 K5 K6 _ _. exists (String x1 (String x2 (String x3 (String x4 (String x5 (String x6 "")))))), x7, s.
      split; [by rewrite !str_app_cons, str_app_nil|]. cbn [lower]. rewrite <- K1, <- K2, <- K3, <- K4, <- K5, <- K6. reflexivity.
    - apply not_true_iff_false in He. apply He, like_denorm. rewrite <- Hk, lower_app.
      exists "denorm", "_"%char, ("after_row_" +:+ lower (ev_str (t_ev p.2) +:+ "_on_" +:+ r)). split; [|done]. cbn [lower]. by rewrite !str_app_cons, !str_app_nil.
    - apply not_true_iff_false in He. apply He. rewrite <- Hk. change "denorm_after_row_" with ("denorm_" +:+ "after_row_"). rewrite str_app_assoc. apply prefix_app. }
  exists c1, (Catalog (ct_tabs c1) (ct_path c1) (ct_trigs c1 ++ new_entries b digest rnd 0 ts c1) fu), (new_entries b digest rnd 0 ts c1).
  split; [done|]. split.
  { unfold install. rewrite H1. by destruct b. }
  split; [done|]. split; [done|]. split; [done|]. split; [|by apply new_entries_tabs].
  eapply Forall2_impl; [exact H3|]. intros it e (A1 & A2 & A3). split; [done|]. split; [exact A2|]. unfold runs. cbn [ct_funs]. destruct (ce_body e); [by rewrite A3|done|done].
Qed.
