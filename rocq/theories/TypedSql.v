(** * Columns of different types compared by the triggers.

    A GenericForeignKey may keep the key of its target in a text column (Django's
    documentation recommends it for models with several kinds of keys), while
    CacheKeyDependOnRelated compares that column with the primary key
    ([WHERE id = NEW.object_id], dependencies.py:175-209).  What this means depends on the
    database: PostgreSQL has no operator [integer = text] and raises, SQLite and MySQL
    convert the text to a number.  This file repeats the engine of Exec.v with the types of
    the columns. *)
From Verif Require Import Base BaseLemmas Schema TrigSet Gen Exec Orm Flush Spec Engine GenLemmas Marking Conditions Invariant Settle Sessions KeyDraw KeyObs.

(** ** The engine with types *)
Inductive cty := CInt | CTxt.
#[global] Instance cty_eq_dec : EqDecision cty.
Proof. solve_decision. Defined.
(** The type of a column of a table, as created by Django. *)
Definition types := string → string → cty.

(** The number [z] and the text [s] are equal if [s] is the decimal notation of [z], as Django
    writes it (other notations such as "01" are left out). *)
Definition text_eq (v w : val) : bool :=
  match to_text v, to_text w with Some s, Some s' => bool_decide (s = s') | _, _ => false end.
(** SQL [=] between columns of types [a] and [c] where it does not raise. *)
Definition eq_typed (a c : cty) (v w : val) : bool := if decide (a = c) then sql_eq v w else text_eq v w.
(** PostgreSQL: "operator does not exist: integer = text", whatever the values are, when the
    statement in the trigger function is planned. *)
Definition clash (b : backend) (a c : cty) : bool := bool_decide (b = Postgres ∧ a ≠ c).

(** As [select_col], [where_holds], [upd_changes], [run_action], [fire] and [exec] in Exec.v. *)
Definition select_typed (ty : types) (E : env) (d : db) (t sc wc : string) (tv : cty) (v : val) : list val :=
  remove_dups ((λ p, cell (e_pk E t) p.1 p.2 sc) <$>
    filter (λ p : Z * row, eq_typed (ty t wc) tv (cell (e_pk E t) p.1 p.2 wc) v = true) (map_to_list (tab d t))).
Definition where_typed (ty : types) (E : env) (d : db) (e : event) (t : string) (k : Z) (r : row) (w : whr) : bool :=
  match w with
  | WEq c rf rc flt excl =>
      eq_typed (ty t c) (ty (ev_tab e) rc) (cell (e_pk E t) k r c) (ref_val E e rf rc) && passes flt excl (ref_val E e rf)
  | WIn c t' sc wc rf rc =>
      existsb (λ v, eq_typed (ty t c) (ty t' sc) (cell (e_pk E t) k r c) v)
        (select_typed ty E d t' sc wc (ty (ev_tab e) rc) (ref_val E e rf rc))
  end.
Definition where_clash (ty : types) (b : backend) (te t : string) (w : whr) : bool :=
  match w with
  | WEq c _ rc _ _ => clash b (ty t c) (ty te rc)
  | WIn c t' sc wc _ rc => clash b (ty t c) (ty t' sc) || clash b (ty t' wc) (ty te rc)
  end.
Definition changes_typed (ty : types) (E : env) (e : event) (d : db) (t c : string) (x : vexpr) (w : whr) : list change :=
  (λ p : Z * row, CUpd p.1 (λ d o,
      let* q := expr_val E e x d (cell (e_pk E t) p.1 o c) in Ok (<[c := q.1]> o, q.2))) <$>
  filter (λ p : Z * row, where_typed ty E d e t p.1 p.2 w = true) (map_to_list (tab d t)).
Definition action_typed (ty : types) (E : env) (fire : db → event → res db) (act : actives) (e : event) (d : db) (a : action) : res db :=
  match a with
  | AMark ct rf c => Ok (mark d [(ct, to_text (ref_val E e rf c))])
  | AMarkSel ct t sc wc rf rc =>
      if clash (e_be E) (ty t wc) (ty (ev_tab e) rc) then Err EType
      else Ok (mark d ((λ v, (ct, to_text v)) <$> select_typed ty E d t sc wc (ty (ev_tab e) rc) (ref_val E e rf rc)))
  | AUpd t c x w =>
      if where_clash ty (e_be E) (ev_tab e) t w then Err EType
      else if decide (e_be E = MySQL ∧ t ∈ act.*2) then Err ETableInUse
      else run_stmt E fire t (changes_typed ty E e d t c x w) d
  end.
Fixpoint fire_typed (ty : types) (E : env) (n : nat) (act : actives) (d : db) (e : event) : res db :=
  match n with
  | O => Err EDepth
  | Datatypes.S n' =>
      foldM (λ d tr,
        if trig_applies E act e tr
        then foldM (action_typed ty E (fire_typed ty E n' ((i_name tr, i_tab tr) :: act)) ((i_name tr, i_tab tr) :: act) e) d (i_acts tr)
        else Ok d) d (e_trigs E)
  end.
Definition exec_typed (ty : types) (E : env) (t : string) (cs : list change) (d : db) : res db :=
  run_stmt E (fire_typed ty E (e_depth E) []) t cs d.
(** As [run_op]; single statements only. *)
Definition run_typed (ty : types) (E : env) (o : op) (d : db) : res db :=
  match o with
  | OSave _ _ _ => Err ENotImplemented
  | OInsert t rows => exec_typed ty E t ((λ p : Z * row, CIns p.1 p.2) <$> rows) d
  | OUpdate t ks g => exec_typed ty E t ((λ k : Z, CUpd k (λ (d0 : db) (o0 : row), Ok (g o0, d0))) <$> remove_dups ks) d
  | ODelete t ks => exec_typed ty E t (CDel <$> remove_dups ks) d
  end.

(** ** Specification *)
(** Whatever the triggers compare has one type: keys and the columns that refer to them are
    integers.  Object ids of generic relations may be texts unless a cache key depends on them. *)
Record one_type (S : schema) (ty : types) : Prop := OneType {
  ot_pk : ∀ m, m ∈ s_models S → ty (m_table m) (m_pk m) = CInt;
  ot_dep : ∀ m f dp o, m ∈ s_models S → f ∈ m_fields m → dp ∈ field_deps f → find_model S (dep_other dp) = Some o →
    match dep_rel dp with
    | RelForward fk => ty (m_table m) fk = CInt
    | RelBackward fk => ty (m_table o) fk = CInt
    | RelM2M t c rc => ty t c = CInt ∧ ty t rc = CInt
    | RelGenForward _ oidc => (∀ ds, f_kind f = KCacheKey ds → ty (m_table o) oidc = CInt)
    | RelGenBackward _ _ => True
    end;
  ot_agg : ∀ m f a rel, m ∈ s_models S → f ∈ m_fields m → f_kind f = KAgg a → find_model S (ag_rel a) = Some rel →
    ty (m_table rel) (ag_fk a) = CInt
}.
(** The statement [o] writes one row, [j] of table [t], which was [old] and becomes [new]. *)
Definition writes (o : op) (t : string) (j : Z) (d : db) (old new : option row) : Prop :=
  match o with
  | OSave _ _ _ => False
  | OInsert t' rows => t' = t ∧ ∃ r : row, rows = [(j, r)] ∧ old = None ∧ new = Some r
  | OUpdate t' ks g => t' = t ∧ ks = [j] ∧ ∃ r : row, getrow d t j = Some r ∧ old = Some r ∧ new = Some (g r)
  | ODelete t' ks => t' = t ∧ ks = [j] ∧ ∃ r : row, getrow d t j = Some r ∧ old = Some r ∧ new = None
  end.
(** An update changes a column that the triggers look at. *)
Definition noticed (S : schema) (om : model) (old new : option row) : Prop :=
  match old, new with Some r, Some r' => ∃ c, tracked S om c ∧ col r c ≠ col r' c | _, _ => True end.

(** ** Where types agree nothing changes *)
Lemma eq_typed_same a v w : eq_typed a a v w = sql_eq v w.
Proof. unfold eq_typed. by rewrite decide_True. Qed.
Lemma clash_same b a : clash b a a = false.
Proof. unfold clash. apply bool_decide_eq_false. by intros []. Qed.
Lemma select_same ty E d t sc wc v : select_typed ty E d t sc wc (ty t wc) v = select_col E d t sc wc v.
Proof.
  unfold select_typed, select_col. f_equal. f_equal. apply list_filter_iff. intros p. by rewrite eq_typed_same.
Qed.
Definition act_one (ty : types) (te : string) (a : action) : Prop :=
  match a with
  | AMark _ _ _ => True
  | AMarkSel _ t _ wc _ rc => ty te rc = ty t wc
  | AUpd t _ _ (WEq c _ rc _ _) => ty te rc = ty t c
  | AUpd t _ _ (WIn c t' sc wc _ rc) => ty t' sc = ty t c ∧ ty te rc = ty t' wc
  end.
Lemma action_same ty E fr fr' act e d a : (∀ d e, fr d e = fr' d e) → act_one ty (ev_tab e) a →
  action_typed ty E fr act e d a = run_action E fr' act e d a.
Proof.
  intros Hfr Ha.
  assert (Hst : ∀ t cs d, run_stmt E fr t cs d = run_stmt E fr' t cs d).
  { assert (Hf : ∀ evs d, foldM fr d evs = foldM fr' d evs).
    { induction evs as [|e1 evs IH]; intros x; [done|]. simpl. rewrite Hfr. destruct (fr' x e1); [apply IH|done]. }
    assert (Hb : ∀ t cs d, run_batch E fr t cs d = run_batch E fr' t cs d).
    { intros. unfold run_batch. destruct (apply_all _ _ _ _); [|done]. apply Hf. }
    intros t cs d0. unfold run_stmt.
    assert (Hs : foldM (λ d c, run_batch E fr t [c] d) d0 cs = foldM (λ d c, run_batch E fr' t [c] d) d0 cs).
    { revert d0. induction cs as [|c cs IH]; intros x; [done|]. cbn [foldM]. rewrite Hb. destruct (run_batch E fr' t [c] x); [apply IH|done]. }
    destruct (e_be E); auto. }
  destruct a as [|ct t sc wc rf rc|t c x w]; simpl in *; [done| |].
  - rewrite Ha, clash_same, select_same. done.
  - assert (where_clash ty (e_be E) (ev_tab e) t w = false) as ->.
    { destruct w; simpl in *; [by rewrite Ha, clash_same|]. destruct Ha as [-> ->]. by rewrite !clash_same. }
    rewrite Hst. case_decide; [done|]. f_equal. unfold changes_typed, upd_changes. f_equal. apply list_filter_iff. intros p.
    destruct w; simpl in *; [by rewrite Ha, eq_typed_same|]. destruct Ha as [Ha1 Ha2]. rewrite Ha1, Ha2, select_same.
    assert (∀ l, existsb (λ v, eq_typed (ty t c0) (ty t c0) (cell (e_pk E t) p.1 p.2 c0) v) l = existsb (λ v, sql_eq (cell (e_pk E t) p.1 p.2 c0) v) l) as ->; [|done].
    { induction l as [|v l IH]; [done|]. simpl. by rewrite IH, eq_typed_same. }
Qed.
Lemma fire_same ty E n : (∀ tr a, tr ∈ e_trigs E → a ∈ i_acts tr → act_one ty (i_tab tr) a) →
  ∀ act d e, fire_typed ty E n act d e = fire E n act d e.
Proof.
  intros Hall. induction n as [|n IH]; intros act d e; [done|]. simpl.
  assert (Hgo : ∀ l, (∀ tr, tr ∈ l → tr ∈ e_trigs E) → ∀ d,
    foldM (λ d tr, if trig_applies E act e tr
      then foldM (action_typed ty E (fire_typed ty E n ((i_name tr, i_tab tr) :: act)) ((i_name tr, i_tab tr) :: act) e) d (i_acts tr) else Ok d) d l =
    foldM (λ d tr, if trig_applies E act e tr
      then foldM (run_action E (fire E n ((i_name tr, i_tab tr) :: act)) ((i_name tr, i_tab tr) :: act) e) d (i_acts tr) else Ok d) d l); [|by apply Hgo].
  clear d. induction l as [|tr l IHl]; intros Hin d; [done|]. cbn [foldM].
  assert (Hhead : (if trig_applies E act e tr
     then foldM (action_typed ty E (fire_typed ty E n ((i_name tr, i_tab tr) :: act)) ((i_name tr, i_tab tr) :: act) e) d (i_acts tr) else Ok d) =
    (if trig_applies E act e tr
     then foldM (run_action E (fire E n ((i_name tr, i_tab tr) :: act)) ((i_name tr, i_tab tr) :: act) e) d (i_acts tr) else Ok d)).
  { destruct (trig_applies E act e tr) eqn:Happ; [|done].
    assert (Htab : i_tab tr = ev_tab e).
    { unfold trig_applies in Happ. apply andb_true_iff in Happ as [Happ _].
      apply andb_true_iff in Happ as [Happ _]. apply andb_true_iff in Happ as [Happ _]. by apply bool_decide_eq_true in Happ. }
    assert (Ha : ∀ a, a ∈ i_acts tr → act_one ty (ev_tab e) a).
    { intros a Ha. rewrite <- Htab. apply Hall; [apply Hin; by left|done]. }
    revert d Ha. clear -IH. induction (i_acts tr) as [|a acts IHa]; intros d Ha; [done|]. cbn [foldM].
    rewrite (action_same ty E _ (fire E n ((i_name tr, i_tab tr) :: act))); [|intros; apply IH|apply Ha; by left].
    destruct (run_action _ _ _ _ _ _); [|done]. apply IHa. intros a' Ha'. apply Ha. by right. }
  rewrite Hhead. match goal with |- rbind ?x _ = _ => destruct x end; [|done]. apply IHl. intros tr' Htr'. apply Hin. by right.
Qed.

Section typed.
Context (b : backend) (S : schema) (rand : nat → Z) (imm : bool) (depth : nat) (E : env).
Context (HE : mk_env b S rand imm depth = Ok E) (Hwf : wf_schema S) (Hna : names_apart S) (ty : types).

Ltac cases_in H :=
  repeat (apply elem_of_cons in H as [->|H]); try (by apply elem_of_nil in H); simpl in *.

Lemma one_type_acts : one_type S ty → ∀ tr a, tr ∈ e_trigs E → a ∈ i_acts tr → act_one ty (i_tab tr) a.
Proof.
  intros [Hpk Hdep Hagg] tr a Htr Ha. destruct (mk_env_gen _ _ _ _ _ _ HE) as [l Hl].
  assert (Hn : names_ok b l) by by eapply names_apart_ok.
  destruct (io_sound _ _ _ (E_inst b S rand imm depth E l HE Hl) _ Htr) as (tr1 & Htr1 & _ & Htab & _ & _ & _ & Hacts).
  destruct (Hacts _ Ha) as (tr2 & Htr2 & Hnm & Hin).
  assert (Htb : t_tab tr2 = i_tab tr) by (rewrite Htab; by apply (Hn _ _ Htr2 Htr1)). rewrite <- Htb.
  clear tr1 Htr1 Htab Hacts Hnm Htb tr Htr Ha. apply (origin_spec S l Hwf Hl) in Htr2.
  destruct Htr2 as [m f fn ds sk Hm Hf Hk Hb Htr|m f fn ds sk dp o Hm Hf Hk Hdp Hfo Htr|m f ds dp o Hm Hf Hk Hdp Hfo Htr|m f ag rel Hm Hf Hk Hfo Htr].
  - unfold cb_self_triggers in Htr. cases_in Htr; cases_in Hin; done.
  - assert (Hd : dp ∈ field_deps f) by (unfold field_deps; by rewrite Hk). pose proof (Hdep _ _ _ _ Hm Hf Hd Hfo) as Ht.
    destruct (find_model_in _ _ _ Hfo) as [Ho _]. pose proof (Hpk _ Ho) as Hpo. pose proof (Hpk _ Hm) as Hpm.
    unfold cb_dep_triggers in Htr. destruct (dep_rel dp); cases_in Htr; cases_in Hin; try done; try congruence; destruct Ht; congruence.
  - assert (Hd : dp ∈ field_deps f) by (unfold field_deps; by rewrite Hk). pose proof (Hdep _ _ _ _ Hm Hf Hd Hfo) as Ht.
    destruct (find_model_in _ _ _ Hfo) as [Ho _]. pose proof (Hpk _ Ho) as Hpo. pose proof (Hpk _ Hm) as Hpm.
    unfold ck_dep_triggers in Htr. destruct (dep_rel dp); cases_in Htr; cases_in Hin; try done; try congruence;
      first [specialize (Ht _ Hk); congruence|destruct Ht; split; congruence|destruct Ht; congruence].
  - pose proof (Hagg _ _ _ _ Hm Hf Hk Hfo) as Ht. pose proof (Hpk _ Hm) as Hpm.
    unfold agg_triggers in Htr. cases_in Htr; cases_in Hin; congruence.
Qed.
Lemma typed_as_untyped o t d : one_type S ty → is_statement o t → run_typed ty E o d = run_op E S o d.
Proof.
  intros Hot Hst. pose proof (fire_same ty E (e_depth E) (one_type_acts Hot)) as Hf.
  assert (Hx : ∀ t cs d, exec_typed ty E t cs d = exec E t cs d).
  { clear d t Hst. intros t cs d0. unfold exec_typed, exec, run_stmt.
    assert (Hfm : ∀ evs d, foldM (fire_typed ty E (e_depth E) []) d evs = foldM (fire E (e_depth E) []) d evs).
    { induction evs as [|e1 evs IH]; intros x; [done|]. cbn [foldM]. rewrite Hf. destruct (fire E (e_depth E) [] x e1); [apply IH|done]. }
    assert (Hb : ∀ t cs d, run_batch E (fire_typed ty E (e_depth E) []) t cs d = run_batch E (fire E (e_depth E) []) t cs d).
    { intros. unfold run_batch. destruct (apply_all _ _ _ _); [|done]. apply Hfm. }
    assert (Hs : foldM (λ d c, run_batch E (fire_typed ty E (e_depth E) []) t [c] d) d0 cs = foldM (λ d c, run_batch E (fire E (e_depth E) []) t [c] d) d0 cs).
    { revert d0. induction cs as [|c cs IH]; intros x; [done|]. cbn [foldM]. rewrite Hb. destruct (run_batch E (fire E (e_depth E) []) t [c] x); [apply IH|done]. }
    destruct (e_be E); auto. }
  destruct o; simpl; [done|apply Hx..].
Qed.

(** ** Cache keys and text object ids *)
Context (m : model) (f : field) (ds : list dep) (dp : dep) (om : model) (ctc oidc : string).
Context (Hm : m ∈ s_models S) (Hf : f ∈ m_fields m) (Hk : f_kind f = KCacheKey ds).
Context (Hdp : dp ∈ ds) (Hfo : find_model S (dep_other dp) = Some om) (Hrl : dep_rel dp = RelGenForward ctc oidc).
Context (Hct : tracked S om ctc) (Hoid : tracked S om oidc).
Context (Hti : ty (m_table m) (m_pk m) = CInt) (Htt : ty (m_table om) oidc = CTxt).
Notation tm := (m_table m).
Notation fc := (f_name f).
Notation act rf := (AUpd tm fc XRand (WEq (m_pk m) rf oidc [] [])).

Lemma related_due e rf (r : row) : ev_tab e = m_table om → ev_row e rf = Some r → col r ctc = VInt (m_ct m) →
  noticed S om (ev_row e ROld) (ev_row e RNew) → act_due E e (act rf).
Proof.
  intros Het Her Hc Hno. destruct (mk_env_gen _ _ _ _ _ _ HE) as [l Hl].
  assert (Hn : names_ok b l) by by eapply names_apart_ok. destruct (find_model_in _ _ _ Hfo) as [Ho _].
  assert (Hpk1 : ctc ≠ e_pk E (m_table om)) by by eapply tracked_not_pk.
  assert (Hrv : ∀ rf (r : row) c, ev_row e rf = Some r → c ≠ e_pk E (m_table om) → ref_val E e rf c = col r c).
  { intros rf' r' c' He' Hp. unfold ref_val, cell. rewrite He', Het. by rewrite decide_False. }
  assert (Hg : ∀ tr, tr ∈ ck_dep_triggers m om fc dp → tr ∈ l) by (intros; by eapply (kdep_gen S l Hwf Hl m f ds)).
  unfold ck_dep_triggers in Hg. rewrite Hrl in Hg.
  pose proof (act_due_intro b S rand imm depth E l HE Hl Hn) as Hdue.
  assert (Hv : ref_val E e rf ctc = VInt (m_ct m)) by by erewrite Hrv.
  unfold ev_row in Her, Hno. destruct (ev_chg e) as [n0|o0 n0|o0] eqn:Hch.
  - destruct rf; [|done]. eapply (Hdue e (gen_trigger om ctc (m_ct m) EvIns [act RNew])).
    + apply Hg. right. left.
    + by left.
    + done.
    + unfold ev_kind. by rewrite Hch.
    + intros cf [= <-]. exact Hv.
    + done.
  - eapply (Hdue e (gen_trigger om ctc (m_ct m) EvUpd [act RNew; act ROld])).
    + apply Hg. left.
    + simpl. destruct rf; [left|right; left].
    + done.
    + unfold ev_kind. by rewrite Hch.
    + intros cf [= <-]. simpl. destruct rf; [by right|by left].
    + intros _. destruct Hno as (c & Htc & Hne). exists c.
      assert (c ≠ e_pk E (m_table om)) by by eapply tracked_not_pk.
      split; [|intros tr' H1 H2 H3; by eapply (tracked_fields S l Hwf Hl om)].
      rewrite (Hrv ROld o0), (Hrv RNew n0) by (unfold ev_row; by rewrite ?Hch). done.
  - destruct rf; [done|]. eapply (Hdue e (gen_trigger om ctc (m_ct m) EvDel [act ROld])).
    + apply Hg. right. right. left.
    + by left.
    + done.
    + unfold ev_kind. by rewrite Hch.
    + intros cf [= <-]. exact Hv.
    + done.
Qed.

(** The single event of a statement writing one row. *)
Lemma writes_event o t j d old new d' k : writes o t j d old new → run_typed ty E o d = Ok d' →
  ∃ c d1 e, apply_change E t d c = Ok (d1, [e]) ∧ fire_typed ty E (e_depth E) [] d1 e = Ok d' ∧
    ev_tab e = t ∧ ev_row e ROld = old ∧ ev_row e RNew = new ∧ (spares o tm k [fc] → key_ch E tm fc k t c).
Proof.
  intros Hw H. set (fr := fire_typed ty E (e_depth E) []).
  assert (Hb : ∀ c, exec_typed ty E t [c] d = Ok d' → ∃ d1 evs, apply_change E t d c = Ok (d1, evs) ∧ foldM fr d1 evs = Ok d').
  { intros c Hc. assert (Hone : run_batch E fr t [c] d = Ok d').
    { unfold exec_typed, run_stmt in Hc. cbn [foldM] in Hc. fold fr in Hc. destruct (e_be E); [|done|];
        (destruct (run_batch E fr t [c] d); [by injection Hc as <-|done]). }
    unfold run_batch in Hone. apply rbind_ok in Hone as ([d1 evs] & Ha & Hf1).
    rewrite apply_all_cons in Ha. apply rbind_ok in Ha as ([d2 e2] & Ha & Hb). cbn [fst snd] in *. simpl in Hb. injection Hb as <- <-.
    rewrite app_nil_r in Hf1. eauto. }
  assert (Hr1 : ∀ x : Z, remove_dups [x] = [x]) by done.
  assert (Hfire : ∀ d1 e, foldM fr d1 [e] = Ok d' → fr d1 e = Ok d').
  { intros d1 e Hx. cbn [foldM] in Hx. destruct (fr d1 e); [exact Hx|done]. }
  destruct o as [|t' rows|t' ks g|t' ks]; simpl in Hw; [done| | |].
  - destruct Hw as (-> & r & -> & -> & ->). destruct (Hb _ H) as (d1 & evs & Ha & Hf1). clear Hb H.
    exists (CIns j r). simpl in Ha. simpl. destruct (getrow d t j); [done|]. case_match; [|done]. injection Ha as <- <-.
    eexists _, _. split_and!; [done|by apply Hfire|done..].
  - destruct Hw as (-> & -> & r & Hg & -> & ->). simpl in H. destruct (Hb _ H) as (d1 & evs & Ha & Hf1). clear Hb H.
    exists (CUpd j (λ (d0 : db) (o0 : row), Ok (g o0, d0))). simpl in Ha. rewrite Hg in Ha. simpl in Ha. case_match eqn:Hfk; [|done]. injection Ha as <- <-.
    eexists _, _. split_and!; [simpl; rewrite Hg; simpl; by rewrite Hfk|by apply Hfire|done..|].
    intros Hsp. split; [by intros ??? [= <-]|]. intros d0 o0 p [= <-]. simpl. split; [done|]. intros -> ->. left.
    apply Hsp; [done|by left|by left].
  - destruct Hw as (-> & -> & r & Hg & -> & ->). simpl in H. destruct (Hb _ H) as (d1 & evs & Ha & Hf1). clear Hb H.
    exists (CDel j). simpl in Ha. simpl. rewrite Hg in *. case_match; [|done]. injection Ha as <- <-.
    eexists _, _. split_and!; [done|by apply Hfire|done..|].
    intros Hsp. split; [done|]. destruct (decide (t = tm)) as [->|]; [|by left]. right. intros ->. apply (Hsp eq_refl). by left.
Qed.

Lemma fold_raises {A B} (g : A → B → res A) l x : x ∈ l → (∀ a a', g a x ≠ Ok a') → ∀ a a', foldM g a l ≠ Ok a'.
Proof.
  intros Hx Hg. induction l as [|y l IH]; intros a a' H; [by apply elem_of_nil in Hx|]. cbn [foldM] in H.
  apply rbind_ok in H as (a1 & H1 & H). apply elem_of_cons in Hx as [->|Hx]; [by eapply Hg|by eapply IH].
Qed.
Lemma env_be : e_be E = b.
Proof. unfold mk_env in HE. apply rbind_ok in HE as (x & _ & H). by injection H as <-. Qed.
Lemma applies_top e it : i_tab it = ev_tab e → i_ev it = ev_kind e → cond_holds E e (i_cond it) = true → trig_applies E [] e it = true.
Proof.
  intros H1 H2 H3. unfold trig_applies. rewrite !bool_decide_true by done. rewrite H3. simpl. rewrite andb_true_r.
  apply negb_true_iff, andb_false_iff. by right.
Qed.

(** PostgreSQL raises. *)
Lemma pg_raises o j d old new (r : row) : b = Postgres → writes o (m_table om) j d old new → noticed S om old new →
  old = Some r ∨ new = Some r → col r ctc = VInt (m_ct m) → ∀ d', run_typed ty E o d ≠ Ok d'.
Proof.
  intros Hpg Hw Hno Hr Hc d' H. destruct (writes_event o _ _ _ _ _ d' 0 Hw H) as (c & d1 & e & _ & Hfire & Het & Eo & En & _).
  rewrite <- Eo, <- En in Hno, Hr.
  assert (∃ rf, ev_row e rf = Some r) as [rf Hrf] by (destruct Hr; eauto).
  destruct (related_due e rf r Het Hrf Hc Hno) as (it & Hit & H1 & H2 & H3 & Ha).
  destruct (e_depth E) as [|n]; [done|]. simpl in Hfire. revert Hfire.
  apply (fold_raises _ _ it Hit). intros a a'. rewrite (applies_top e it H1 H2 H3).
  apply (fold_raises _ _ _ Ha). intros x x'. simpl. rewrite Het, Hti, Htt, env_be, Hpg. done.
Qed.

(** The others select the row whose key the text denotes. *)
Lemma text_where e rf d k (r : row) : ev_tab e = m_table om →
  where_typed ty E d e tm k r (WEq (m_pk m) rf oidc [] []) = true ↔ to_text (ref_val E e rf oidc) = Some (pretty k).
Proof.
  intros Het. destruct (mk_env_gen _ _ _ _ _ _ HE) as [l Hl]. cbn [where_typed]. rewrite Het, Hti, Htt.
  rewrite (pk_table b S rand imm depth E l Hwf HE Hl m Hm). unfold cell. rewrite decide_True by done.
  unfold eq_typed. rewrite decide_False by done. unfold text_eq. cbn [to_text].
  destruct (to_text (ref_val E e rf oidc)) as [s|]; simpl; rewrite ?andb_true_r; [|done].
  rewrite bool_decide_eq_true. naive_solver.
Qed.

(** They redraw the key. *)
Section redraw.
  Context (k : Z) (n0 : nat).
  Notation R := (kR E tm fc k n0).
  Notation N := (redrawn (e_rand E) n0 tm fc k).
  Let Honly : ∀ it x w, it ∈ e_trigs E → AUpd tm fc x w ∈ i_acts it → x = XRand.
  Proof.
    destruct (mk_env_gen _ _ _ _ _ _ HE) as [l Hl]. intros. eapply (key_only b S rand imm depth E l); eauto. by eapply names_apart_ok.
  Qed.
  Lemma changes_typed_key tr e d t c x w ch : tr ∈ e_trigs E → AUpd t c x w ∈ i_acts tr →
    ch ∈ changes_typed ty E e d t c x w → key_ch E tm fc k t ch.
  Proof.
    intros Htr Ha Hin. apply elem_of_list_fmap in Hin as ([k' r] & -> & _). split.
    - simpl. intros d1 o p H. apply rbind_ok in H as ([v d2] & H0 & H). injection H as <-. simpl.
      by apply expr_val_db in H0 as [-> | ->].
    - simpl. intros d1 o p H. apply rbind_ok in H as ([v d2] & H0 & H). injection H as <-. simpl in *.
      split; [apply expr_val_db in H0 as [-> | ->]; simpl; lia|].
      intros -> ->. destruct (decide (c = fc)) as [->|Hc].
      + right. pose proof (Honly _ _ _ Htr Ha) as ->. simpl in H0. injection H0 as <- <-. rewrite col_insert_eq. simpl. split; [done|lia].
      + left. by rewrite col_insert_ne.
  Qed.
  Lemma action_typed_R fr acts e tr a : tr ∈ e_trigs E → a ∈ i_acts tr → (∀ d e d', fr d e = Ok d' → R d d') →
    ∀ d d', action_typed ty E fr acts e d a = Ok d' → R d d'.
  Proof.
    intros Htr Ha Hfr d d' H. destruct a; simpl in H.
    - injection H as <-. apply kR_mark.
    - destruct (clash _ _ _); [done|]. injection H as <-. apply kR_mark.
    - destruct (where_clash _ _ _ _ _); [done|]. case_decide; [done|].
      eapply (run_stmt_rel E R); [apply kR_refl|apply kR_trans|exact Hfr| |exact H].
      intros d1 ch d2 evs Hch Hap. eapply key_apply; [exact Honly| |exact Hap]. by eapply changes_typed_key.
  Qed.
  Lemma fire_typed_R n : ∀ acts d e d', fire_typed ty E n acts d e = Ok d' → R d d'.
  Proof.
    induction n as [|n IH]; intros acts d e d' H; [done|]. simpl in H.
    eapply (foldM_rel R); [apply kR_refl|apply kR_trans| |exact H].
    intros d1 tr d2 Htr H2. simpl in H2. case_match; [|injection H2 as <-; apply kR_refl].
    eapply (foldM_rel R); [apply kR_refl|apply kR_trans| |exact H2]. intros d3 a d4 Ha H4.
    eapply action_typed_R; [exact Htr|exact Ha| |exact H4]. intros. by eapply IH.
  Qed.
  Lemma redraws o j d old new (r : row) d' : b ≠ Postgres → writes o (m_table om) j d old new → noticed S om old new →
    old = Some r ∨ new = Some r → col r ctc = VInt (m_ct m) → col r oidc = VText (pretty k) →
    spares o tm k [fc] → is_Some (getrow d tm k) → n0 = d_rnd d →
    run_typed ty E o d = Ok d' → N d'.
  Proof.
    intros Hpg Hw Hno Hr Hc Hid Hsp Hrow Hn0 H.
    destruct (writes_event o _ _ _ _ _ d' k Hw H) as (c & d1 & e & Hap & Hfire & Het & Eo & En & Hkc). specialize (Hkc Hsp).
    rewrite <- Eo, <- En in Hno, Hr. destruct (mk_env_gen _ _ _ _ _ _ HE) as [l Hl].
    assert (∃ rf, ev_row e rf = Some r) as [rf Hrf] by (destruct Hr; eauto).
    destruct (related_due e rf r Het Hrf Hc Hno) as (it & Hit & H1 & H2 & H3 & Ha).
    assert (J1 : kJ tm k n0 d1).
    { apply (key_apply E tm fc k n0 Honly _ _ _ _ _ Hkc Hap). split; [subst; lia|done]. }
    destruct (e_depth E) as [|n]; [done|]. simpl in Hfire.
    destruct (λ Hs, foldM_elem R _ _ it (kR_refl E tm fc k n0) (kR_trans E tm fc k n0) Hs Hit _ _ Hfire) as (x & x' & Rx & Hx & Rx').
    { intros y tr' y' Htr' H4. simpl in H4. case_match; [|injection H4 as <-; apply kR_refl].
      eapply (foldM_rel R); [apply kR_refl|apply kR_trans| |exact H4]. intros z a z' Ha' H5.
      eapply action_typed_R; [exact Htr'|exact Ha'| |exact H5]. intros. by eapply fire_typed_R. }
    cbv beta in Hx. rewrite (applies_top e it H1 H2 H3) in Hx.
    destruct (λ Hs, foldM_elem R _ _ _ (kR_refl E tm fc k n0) (kR_trans E tm fc k n0) Hs Ha _ _ Hx) as (y & y' & Ry & Hy & Ry').
    { intros z a z' Ha' H5. eapply action_typed_R; [exact Hit|exact Ha'| |exact H5]. intros. by eapply fire_typed_R. }
    assert (Jy : kJ tm k n0 y) by (apply Ry, Rx, J1).
    cbn [action_typed] in Hy. destruct (where_clash _ _ _ _ _); [done|]. case_decide; [done|].
    destruct Jy as [Jy [ry Hry]].
    assert (Hwh : where_typed ty E y e tm k ry (WEq (m_pk m) rf oidc [] []) = true).
    { apply text_where; [done|]. unfold ref_val. rewrite Hrf. unfold cell. rewrite decide_False; [by rewrite Hid|].
      rewrite Het. destruct (find_model_in _ _ _ Hfo) as [Ho _]. by eapply tracked_not_pk. }
    destruct (draws_stmt E tm fc k n0 Honly (fire_typed ty E n ((i_name it, i_tab it) :: []))
      (changes_typed ty E e y tm fc XRand (WEq (m_pk m) rf oidc [] [])) y y') as [Jy' Ny'].
    - apply Forall_forall. intros. by eapply changes_typed_key.
    - eexists. split.
      + apply elem_of_list_fmap. exists (k, ry). split; [reflexivity|]. apply elem_of_list_filter.
        split; [done|]. by apply elem_of_map_to_list.
      + eexists. split; [reflexivity|]. simpl. intros ??? [= <-]. simpl. rewrite col_insert_eq. split; [done|lia].
    - intros. by eapply fire_typed_R.
    - done.
    - split; [done|by eexists].
    - destruct (Ry' Jy') as [J2 N2]. destruct (Rx' J2) as [_ N3]. auto.
  Qed.
End redraw.
End typed.
Lemma text_redraw b S rand imm depth E ty m f ds dp om ctc oidc o j d old new (r : row) k d' :
  b ≠ Postgres → mk_env b S rand imm depth = Ok E → wf_schema S → names_apart S →
  m ∈ s_models S → f ∈ m_fields m → f_kind f = KCacheKey ds →
  dp ∈ ds → find_model S (dep_other dp) = Some om → dep_rel dp = RelGenForward ctc oidc → tracked S om ctc → tracked S om oidc →
  ty (m_table m) (m_pk m) = CInt → ty (m_table om) oidc = CTxt →
  writes o (m_table om) j d old new → noticed S om old new →
  old = Some r ∨ new = Some r → col r ctc = VInt (m_ct m) → col r oidc = VText (pretty k) →
  spares o (m_table m) k [f_col f] → is_Some (getrow d (m_table m) k) →
  run_typed ty E o d = Ok d' → redrawn rand (d_rnd d) (m_table m) (f_col f) k d'.
Proof.
  intros Hpg HE Hwf Hna Hm Hf Hk Hdp Hfo Hrl Hct Hoid Hti Htt Hw Hno Hr Hc Hid Hsp Hrow H.
  rewrite (key_col S Hwf m f ds Hm Hf Hk) in *.
  assert (e_rand E = rand) as <-.
  { unfold mk_env in HE. apply rbind_ok in HE as (x & _ & HE). by injection HE as <-. }
  by eapply (redraws b S (e_rand E) imm depth E HE Hwf Hna ty m f ds dp om ctc oidc Hm Hf Hk Hdp Hfo Hrl Hct Hoid Hti Htt k (d_rnd d) o j d old new r d').
Qed.
