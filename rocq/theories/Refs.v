(** * The tables and columns a trigger text refers to.

    The database resolves these names when the trigger is created (MySQL) or when it
    fires (SQLite, PostgreSQL); a name that does not exist is an error, so the statement
    that fired the trigger fails.  Everything is stated on the trigger as it is read from
    its text (Read.v), not on the action objects of the model. *)
From Verif Require Import Base BaseLemmas Schema TrigSet Gen GenLemmas Exec Spec SpecAgg Conditions Names Render RenderProps Text Read ReadProps ReadStmt ReadTrig ReadMeans ReadGen Marking Silent.
Open Scope list_scope.

(** ** The specification *)
(** The columns of the tables Django creates: primary key and local fields under their
    column names, and the link tables of ManyToManyFields. *)
Inductive has_column (S : schema) : string → string → Prop :=
  | hc_pk m : m ∈ s_models S → has_column S (m_table m) (m_pk m)
  | hc_field m f : m ∈ s_models S → f ∈ m_fields m → f_owner f = m_name m → has_column S (m_table m) (f_col f)
  | hc_link m mm c : m ∈ s_models S → mm ∈ m_m2m m → c ∈ ["id"; mm_col mm; mm_rev mm] → has_column S (mm_table mm) c.

(** References of operands, conditions and statements of a trigger on table [T]:
    NEW.c and OLD.c are columns of [T], bare columns belong to the table [t] of the statement. *)
Fixpoint opd_refs (T t : string) (o : opd) : list (string * string) :=
  match o with OCol c => [(t, c)] | ORef _ c => [(T, c)] | OVal _ => [] | OText o => opd_refs T t o end.
Fixpoint bexp_refs (T t : string) (e : bexp) : list (string * string) :=
  match e with
  | BEq a o | BLt a o | BLe a o | BDiff a o => opd_refs T t a ++ opd_refs T t o
  | BNull a => opd_refs T t a
  | BIn a sc t' wc _ rc => opd_refs T t a ++ [(t', sc); (t', wc); (T, rc)]
  | BNot p => bexp_refs T t p
  | BAnd p q | BOr p q => bexp_refs T t p ++ bexp_refs T t q
  end.
Definition xexp_refs (T t : string) (x : xexp) : list (string * string) :=
  match x with ERand => [] | EPlus a o | EMinus a o => opd_refs T t a ++ opd_refs T t o end.
Definition stmt_refs (T : string) (s : pstmt) : list (string * string) :=
  match s with
  | PMark _ _ c => [(T, c)]
  | PMarkSel _ t sc wc _ rc => [(t, sc); (t, wc); (T, rc)]
  | PUpd t c x w => (t, c) :: xexp_refs T t x ++ bexp_refs T t w
  end.
Definition pt_refs (pt : ptrig) : list (string * string) :=
  match pt_cond pt with Some e => bexp_refs (pt_tab pt) (pt_tab pt) e | None => [] end ++
  concat (stmt_refs (pt_tab pt) <$> pt_stmts pt).

(** The rows NEW and OLD a trigger refers to: an INSERT has no OLD row, a DELETE no NEW row. *)
Fixpoint opd_rows (o : opd) : list rref :=
  match o with OCol _ | OVal _ => [] | ORef rf _ => [rf] | OText o => opd_rows o end.
Fixpoint bexp_rows (e : bexp) : list rref :=
  match e with
  | BEq a o | BLt a o | BLe a o | BDiff a o => opd_rows a ++ opd_rows o
  | BNull a => opd_rows a
  | BIn a _ _ _ rf _ => opd_rows a ++ [rf]
  | BNot p => bexp_rows p
  | BAnd p q | BOr p q => bexp_rows p ++ bexp_rows q
  end.
Definition xexp_rows (x : xexp) : list rref :=
  match x with ERand => [] | EPlus a o | EMinus a o => opd_rows a ++ opd_rows o end.
Definition stmt_rows (s : pstmt) : list rref :=
  match s with PMark _ rf _ => [rf] | PMarkSel _ _ _ _ rf _ => [rf] | PUpd _ _ x w => xexp_rows x ++ bexp_rows w end.
Definition pt_rows (pt : ptrig) : list rref :=
  match pt_cond pt with Some e => bexp_rows e | None => [] end ++ concat (stmt_rows <$> pt_stmts pt).
Definition row_exists (e : evkind) (rf : rref) : Prop :=
  match e, rf with EvIns, ROld | EvDel, RNew => False | _, _ => True end.

(** The ManyToManyField of every m2m dependency exists, in either direction. *)
Definition m2m_exists (S : schema) : Prop := ∀ m f dp t c rc,
  m ∈ s_models S → f ∈ m_fields m → dp ∈ field_deps f → dep_rel dp = RelM2M t c rc →
  ∃ m' mm, m' ∈ s_models S ∧ mm ∈ m_m2m m' ∧ mm_table mm = t ∧ ((mm_col mm = c ∧ mm_rev mm = rc) ∨ (mm_col mm = rc ∧ mm_rev mm = c)).

(** ** References of the model's actions and triggers *)
Definition whr_refs (T t : string) (w : whr) : list (string * string) :=
  match w with
  | WEq c _ rc flt excl => (t, c) :: (T, rc) :: ((λ x, (T, c_col x)) <$> flt ++ excl)
  | WIn c t' sc wc _ rc => [(t, c); (t', sc); (t', wc); (T, rc)]
  end.
Definition vexpr_refs (T : string) (x : vexpr) : list (string * string) :=
  match x with XAdd _ c | XSub _ c => [(T, c)] | _ => [] end.
Definition act_refs (T : string) (a : action) : list (string * string) :=
  match a with
  | AMark _ _ c => [(T, c)]
  | AMarkSel _ t sc wc _ rc => [(t, sc); (t, wc); (T, rc)]
  | AUpd t c x w => (t, c) :: vexpr_refs T x ++ whr_refs T t w
  end.
Definition whr_row (w : whr) : rref := match w with WEq _ rf _ _ _ | WIn _ _ _ _ rf _ => rf end.
Definition act_rows (a : action) : list rref :=
  match a with
  | AMark _ rf _ => [rf] | AMarkSel _ _ _ _ rf _ => [rf]
  | AUpd _ _ x w => match x with XAdd rf _ | XSub rf _ => [rf] | _ => [] end ++ [whr_row w]
  end.

(** Both at once. *)
Section good.
Context (P : string * string → Prop) (Q : rref → Prop) (T t : string).
Definition goodb (e : bexp) : Prop := Forall P (bexp_refs T t e) ∧ Forall Q (bexp_rows e).
Lemma good_and p q : goodb p → goodb q → goodb (BAnd p q).
Proof. intros [] []. split; by apply Forall_app. Qed.
Lemma good_or p q : goodb p → goodb q → goodb (BOr p q).
Proof. intros [] []. split; by apply Forall_app. Qed.
Lemma good_ands p l : goodb p.2 → Forall (λ q : list tok * bexp, goodb q.2) l → goodb (and_exp p l).
Proof. revert p. induction l as [|q l IH]; intros p Hp Hl; cbn [and_exp]; [done|]. apply Forall_cons in Hl as [Hq Hl]. apply good_and; [done|by apply IH]. Qed.
Lemma good_ors p l : goodb p.2 → Forall (λ q : list tok * bexp, goodb q.2) l → goodb (or_exp p l).
Proof. revert p. induction l as [|q l IH]; intros p Hp Hl; cbn [or_exp]; [done|]. apply Forall_cons in Hl as [Hq Hl]. apply good_or; [done|by apply IH]. Qed.
Lemma good_atoms nu rf c : P (T, c_col c) → Q rf → Forall (λ q : list tok * bexp, goodb q.2) (atoms nu rf c).
Proof.
  intros Hp Hq. unfold atoms. constructor.
  - unfold goodb. cbn [snd]. destruct (kind_of c); cbn; (split; repeat constructor; done).
  - destruct (has_null nu c); [|constructor]. constructor; [|constructor]. split; by repeat constructor.
Qed.
Lemma good_latoms nu rf l : Forall (λ c, P (T, c_col c)) l → Q rf → Forall (λ q : list tok * bexp, goodb q.2) (latoms nu rf l).
Proof.
  intros Hl Hq. induction Hl as [|c l Hc Hl IH]; [constructor|]. unfold latoms. cbn [fmap list_fmap concat]. apply Forall_app. split; [by apply good_atoms|done].
Qed.
Lemma good_filter nu rf flt excl : Forall (λ c, P (T, c_col c)) (flt ++ excl) → Q rf → Forall (λ q : list tok * bexp, goodb q.2) (filter_terms nu rf flt excl).
Proof.
  intros [Hf He]%Forall_app Hq. assert (Ha : Forall (λ q : list tok * bexp, goodb q.2) (all_terms nu rf flt excl)).
  { unfold all_terms. apply Forall_app. split; [by apply good_latoms|]. unfold excl_terms. pose proof (good_latoms nu rf excl He Hq) as H. destruct (latoms nu rf excl) as [|p m]; [constructor|].
    apply Forall_cons in H as [Hp Hm]. constructor; [|constructor]. cbn [snd]. exact (good_ands p m Hp Hm). }
  unfold filter_terms. destruct (all_terms nu rf flt excl) as [|p [|q m]]; [done|done|]. apply Forall_cons in Ha as [Hp Hm]. constructor; [|constructor]. by apply good_ands.
Qed.
Lemma good_where nu w : Forall P (whr_refs T t w) → Q (whr_row w) → goodb (where_exp nu w).
Proof.
  destruct w as [c rf rc flt excl|c t' sc wc rf rc]; cbn [whr_refs whr_row where_exp]; intros H Hq.
  - apply Forall_cons in H as [H1 H]. apply Forall_cons in H as [H2 H]. apply good_ands.
    + split; repeat constructor; done.
    + apply good_filter; [|done]. rewrite Forall_fmap in H. exact H.
  - split; [exact H|]. repeat constructor; done.
Qed.
Lemma good_fs ut b fs : Forall (λ f, P (T, f)) fs → Q ROld → Q RNew → goodb (fs_exp ut b fs).
Proof.
  intros Hf H1 H2. unfold fs_exp. destruct fs as [|f fs]; [repeat constructor|]. assert (Hc : ∀ g, P (T, g) → goodb (fcmp_exp ut b g)).
  { intros g Hg. unfold fcmp_exp. destruct b; [|destruct (ut g)|]; (split; repeat constructor; done). }
  apply Forall_cons in Hf as [Hf Hs]. apply good_ors; [by apply Hc|]. apply Forall_fmap. eapply Forall_impl; [exact Hs|]. intros g Hg. by apply Hc.
Qed.
End good.
Lemma good_act P Q T nu a : Forall P (act_refs T a) → Forall Q (act_rows a) → Forall P (stmt_refs T (act_ast nu a)) ∧ Forall Q (stmt_rows (act_ast nu a)).
Proof.
  destruct a as [ct rf c|ct t sc wc rf rc|t c x w]; cbn [act_refs act_rows act_ast stmt_refs stmt_rows]; [done|done|].
  intros [Hc [Hx Hw]%Forall_app]%Forall_cons [Qx Qw]%Forall_app. apply Forall_cons in Qw as [Qw _].
  destruct (good_where P Q T t nu w Hw Qw) as [G1 G2]. split.
  - constructor; [done|]. apply Forall_app. split; [|done]. destruct x; cbn in *; repeat constructor; try done; by apply Forall_cons in Hx as [? _].
  - apply Forall_app. split; [|done]. destruct x; cbn in *; repeat constructor; try done; by apply Forall_cons in Qx as [? _].
Qed.
(** A trigger whose watched columns, content type column and actions are good. *)
Definition good_trig (P : string → string * string → Prop) (tr : trigger) : Prop :=
  (t_ev tr = EvUpd → Forall (λ f, P (t_tab tr) (t_tab tr, f)) (t_fields tr)) ∧
  (∀ cf, t_ctf tr = Some cf → P (t_tab tr) (t_tab tr, cf)) ∧
  ∀ a, a ∈ t_acts tr → Forall (P (t_tab tr)) (act_refs (t_tab tr) a) ∧ Forall (row_exists (t_ev tr)) (act_rows a).
Lemma good_ast P nu ut b n tr l : good_trig (λ _, P) tr → (∀ p, p ∈ l → p.2 ∈ t_acts tr) →
  Forall P (pt_refs (trig_ast nu ut b n tr l)) ∧ Forall (row_exists (t_ev tr)) (pt_rows (trig_ast nu ut b n tr l)).
Proof.
  intros (Hf & Hc & Ha) Hl. unfold pt_refs, pt_rows, trig_ast. cbn [pt_cond pt_tab pt_stmts].
  assert (Hw : match whole_exp ut b tr with Some e => goodb P (row_exists (t_ev tr)) (t_tab tr) (t_tab tr) e | None => True end).
  { unfold whole_exp. destruct (t_ev tr) eqn:He.
    - destruct b; [| |done]; (destruct (t_ctf tr) as [cf|]; [|done]); (split; repeat constructor; by apply Hc).
    - pose proof (good_fs P (row_exists EvUpd) (t_tab tr) (t_tab tr) ut b (t_fields tr) (Hf eq_refl) I I) as Hg.
      assert (Hx : ∀ rf cf, t_ctf tr = Some cf → goodb P (row_exists EvUpd) (t_tab tr) (t_tab tr) (ct_exp rf cf (t_ct tr))).
      { intros rf cf Hcf. split; cbn; (constructor; [|constructor]); [by apply Hc|by destruct rf]. }
      destruct b; [| |destruct (t_fields tr); [done|exact Hg]]; (destruct (t_ctf tr) as [cf|]; [|exact Hg]).
      + apply good_and; [done|]. apply good_or; by apply Hx.
      + apply good_or; [apply good_and; [done|]|]; by apply Hx.
    - destruct b; [| |done]; (destruct (t_ctf tr) as [cf|]; [|done]); (split; repeat constructor; by apply Hc). }
  assert (Hs : Forall P (concat (stmt_refs (t_tab tr) <$> ((λ p : bool * action, act_ast nu p.2) <$> l))) ∧ Forall (row_exists (t_ev tr)) (concat (stmt_rows <$> ((λ p : bool * action, act_ast nu p.2) <$> l)))).
  { clear Hw. induction l as [|p l IH]; [by split; constructor|]. cbn [fmap list_fmap concat]. destruct IH as [I1 I2]; [intros; apply Hl; by right|].
    destruct (Ha p.2 (Hl p ltac:(left))) as [A1 A2]. destruct (good_act P (row_exists (t_ev tr)) (t_tab tr) nu p.2 A1 A2). split; by apply Forall_app. }
  destruct Hs as [S1 S2]. destruct (whole_exp ut b tr); [destruct Hw as [W1 W2]; split; by apply Forall_app|done].
Qed.

(** ** The generated triggers are good *)
Section gen.
Context (S : schema) (HS : wf_schema S) (Hm2 : m2m_exists S) (Hag : all_agg S).
Notation hc := (has_column S).
Notation HC := (λ p : string * string, hc p.1 p.2).
Lemma column_hc m c : m ∈ s_models S → column_of m c → hc (m_table m) c.
Proof. intros Hm (f & Hf & <- & _). apply hc_field; [done..|]. by apply (wf_owner _ _ (wf_models _ HS _ Hm)). Qed.
Lemma fields_hc m : m ∈ s_models S → Forall (λ f, hc (m_table m) f) (m_pk m :: (f_att <$> filter (λ f, f_owner f = m_name m) (m_fields m))).
Proof.
  intros Hm. constructor; [by apply hc_pk|]. apply Forall_fmap, Forall_forall. intros f [Ho Hf]%elem_of_list_filter. cbn.
  rewrite (wf_att _ _ (wf_models _ HS _ Hm) _ Hf). by apply hc_field.
Qed.
Definition acts_good (T : string) (e : evkind) (acts : list action) : Prop := ∀ a, a ∈ acts → Forall HC (act_refs T a) ∧ Forall (row_exists e) (act_rows a).
Lemma good_model m ct sk e acts : m ∈ s_models S → acts_good (m_table m) e acts → good_trig (λ _, HC) (model_trigger m ct sk e acts).
Proof. intros Hm Ha. split_and!; [|done|done]. intros _. cbn [model_trigger t_fields t_tab]. unfold model_tfields. apply Forall_filt. by apply fields_hc. Qed.
Lemma good_m2m t c rc ct e acts : hc t c → hc t rc → acts_good t e acts → good_trig (λ _, HC) (m2m_trigger t c rc ct e acts).
Proof. intros H1 H2 Ha. split_and!; [|done|done]. intros _. by repeat constructor. Qed.
Lemma good_gen m ctc ct e acts : m ∈ s_models S → hc (m_table m) ctc → acts_good (m_table m) e acts → good_trig (λ _, HC) (gen_trigger m ctc ct e acts).
Proof. intros Hm Hc Ha. split_and!; [intros _; by apply fields_hc|by intros cf [= <-]|done]. Qed.
Lemma link_hc m f dp t c rc : m ∈ s_models S → f ∈ m_fields m → dp ∈ field_deps f → dep_rel dp = RelM2M t c rc → hc t c ∧ hc t rc.
Proof.
  intros Hm Hf Hd Hr. destruct (Hm2 _ _ _ _ _ _ Hm Hf Hd Hr) as (m' & mm & Hm' & Hmm & <- & Hc).
  destruct Hc as [[<- <-]|[<- <-]]; split; apply (hc_link S m' mm _ Hm' Hmm); set_solver.
Qed.
Ltac act := intros ? ?; mem; cbn; split; repeat constructor; cbn; first [done | by apply hc_pk | by apply column_hc].
Lemma good_cb_dep m f dp o tr : m ∈ s_models S → f ∈ m_fields m → dp ∈ field_deps f → find_model S (dep_other dp) = Some o →
  tr ∈ cb_dep_triggers m o dp → good_trig (λ _, HC) tr.
Proof.
  intros Hm Hf Hd Ho Hin. pose proof (proj1 (find_model_in _ _ _ Ho)) as Hom. pose proof (wf_deps _ HS _ _ _ Hm Hf Hd o Ho) as Hw.
  pose proof (link_hc m f dp) as Hl. unfold cb_dep_triggers in Hin. destruct (dep_rel dp) as [fk|fk|t c rc|ctc oidc|ctc oidc].
  - mem; (apply good_model; [done|act]).
  - mem; (apply good_model; [done|act]).
  - destruct (Hl t c rc) as [L1 L2]; try done. mem; first [apply good_model | apply good_m2m]; try done; act.
  - destruct Hw as [W1 W2]. mem; (apply good_gen; [done|by apply column_hc|act]).
  - destruct Hw as [W1 W2]. mem; (apply good_gen; [done|by apply column_hc|act]).
Qed.
Lemma good_ck_dep m f dp o fname tr : m ∈ s_models S → f ∈ m_fields m → dp ∈ field_deps f → find_model S (dep_other dp) = Some o →
  hc (m_table m) fname → tr ∈ ck_dep_triggers m o fname dp → good_trig (λ _, HC) tr.
Proof.
  intros Hm Hf Hd Ho Hn Hin. pose proof (proj1 (find_model_in _ _ _ Ho)) as Hom. pose proof (wf_deps _ HS _ _ _ Hm Hf Hd o Ho) as Hw.
  pose proof (link_hc m f dp) as Hl. unfold ck_dep_triggers in Hin. destruct (dep_rel dp) as [fk|fk|t c rc|ctc oidc|ctc oidc].
  - mem; (apply good_model; [done|act]).
  - mem; (apply good_model; [done|act]).
  - destruct (Hl t c rc) as [L1 L2]; try done. mem; first [apply good_model | apply good_m2m]; try done; act.
  - destruct Hw as [W1 W2]. mem; (apply good_gen; [done|by apply column_hc|act]).
  - destruct Hw as [W1 W2]. mem; (apply good_gen; [done|by apply column_hc|act]).
Qed.
Lemma good_agg m f a rel tr : agg_field S m f a rel → hc (m_table m) (f_name f) → tr ∈ agg_triggers m rel (f_name f) a → good_trig (λ _, HC) tr.
Proof.
  intros Ha Hn Hin. pose proof (af_model _ _ _ _ _ Ha) as Hm. pose proof (proj1 (find_model_in _ _ _ (af_rel _ _ _ _ _ Ha))) as Hr.
  assert (Hc : ∀ c, c ∈ agg_cols a → hc (m_table rel) c) by (intros c Hc; apply column_hc; [done|]; by apply (af_cols _ _ _ _ _ Ha)).
  assert (Hfl : Forall HC ((λ x, (m_table rel, c_col x)) <$> ag_filter a ++ ag_exclude a)).
  { apply Forall_fmap, Forall_forall. intros x Hx. cbn. apply Hc. unfold agg_cols. right. apply elem_of_app in Hx as [Hx|Hx].
    - apply elem_of_app. left. apply elem_of_list_fmap. by exists x.
    - apply elem_of_app. right. apply elem_of_app. left. apply elem_of_list_fmap. by exists x. }
  assert (Hfk : hc (m_table rel) (ag_fk a)) by (apply Hc; left).
  assert (Hsum : ∀ c, ag_sum a = Some c → hc (m_table rel) c).
  { intros c E. apply Hc. unfold agg_cols. rewrite E. right. apply elem_of_app. right. apply elem_of_app. right. left. }
  unfold agg_triggers in Hin. mem; (apply good_model; [done|]); intros ? ?; mem; cbn; destruct (ag_sum a) as [c|]; cbn; (split; repeat constructor; cbn; first [done | by apply hc_pk | by apply Hsum]).
Qed.
Lemma name_hc m f : m ∈ s_models S → f ∈ m_fields m → ¬ plain_or_callback f → hc (m_table m) (f_name f).
Proof.
  intros Hm Hf Hp. destruct (wf_name _ _ (wf_models _ HS _ Hm) _ Hf) as [?|Hn]; [done|]. rewrite Hn. apply hc_field; [done..|]. by apply (wf_owner _ _ (wf_models _ HS _ Hm)).
Qed.
Lemma good_field m f l tr : m ∈ s_models S → f ∈ m_fields m → field_triggers S m f = Ok l → tr ∈ l → good_trig (λ _, HC) tr.
Proof.
  intros Hm Hf Hl Hin. pose proof (good_cb_dep m f) as Hcb. pose proof (good_ck_dep m f) as Hck. pose proof (Hag m f) as Hagf. pose proof (name_hc m f Hm Hf) as Hnm.
  unfold field_triggers in Hl. unfold field_deps in *. unfold plain_or_callback in Hnm. destruct (f_kind f) as [| |fn ds sk|a|ds].
  - injection Hl as <-. by apply elem_of_nil in Hin.
  - injection Hl as <-. by apply elem_of_nil in Hin.
  - destruct (deps_triggers S m cb_dep_triggers ds) as [l0|] eqn:H; [|done]. injection Hl as <-. apply elem_of_app in Hin as [Hin|Hin].
    + destruct (s_bulk_unsafe S); [by apply elem_of_nil in Hin|]. unfold cb_self_triggers in Hin. mem; (apply good_model; [done|act]).
    + destruct (deps_triggers_spec _ _ _ _ _ H) as [_ Hs]. destruct (Hs _ Hin) as (dp & o & Hdp & Ho & Htr). by apply (Hcb dp o tr).
  - destruct (Hagf a Hm Hf eq_refl) as (rel & Ha). unfold with_model in Hl. rewrite (af_rel _ _ _ _ _ Ha) in Hl. injection Hl as <-. apply (good_agg m f a rel); try done. apply Hnm; intros [].
  - destruct (deps_triggers_spec _ _ _ _ _ Hl) as [_ Hs]. destruct (Hs _ Hin) as (dp & o & Hdp & Ho & Htr). apply (Hck dp o (f_name f) tr); try done. apply Hnm; intros [].
Qed.
Lemma good_merged b ts n tr : names_apart S → build_triggerset b S = Ok ts → (n, tr) ∈ ts → good_trig (λ _, HC) tr.
Proof.
  intros Hna Hts Hin. destruct (build_gen _ _ _ Hts) as (l & Hl & Hok).
  assert (Hg : ∀ tr', tr' ∈ l → good_trig (λ _, HC) tr').
  { intros tr' H'. apply (gen_all_elem _ _ _ Hl) in H' as (m & f & lf & Hd & Hf & Hin'). apply (alldenorms_elem S m f HS) in Hd as (Hm & Hff & _). by apply (good_field m f lf). }
  destruct (to_sound _ _ _ Hok _ _ Hin) as [(tr1 & H1 & N1 & Hh) Ha]. destruct Hh as (E1 & E2 & E3 & E4 & E5). destruct (Hg _ H1) as (G1 & G2 & G3).
  split_and!.
  - rewrite E1, E2, E3. done.
  - rewrite E1, E4. done.
  - intros a Hin'. destruct (Ha _ Hin') as (tr2 & H2 & N2 & Hin2). destruct (names_apart_ok' b S l HS Hl Hna tr1 tr2 H1 H2 ltac:(congruence)) as (T1 & T2 & _).
    rewrite E1, E2, T1, T2. by apply (Hg _ H2).
Qed.
End gen.

(** ** The property *)
Lemma table_exists b S ts n tr : wf_schema S → m2m_exists S → build_triggerset b S = Ok ts → (n, tr) ∈ ts → ∃ c, has_column S (t_tab tr) c.
Proof.
  intros HS Hm2 Hts Hin. destruct (build_gen _ _ _ Hts) as (l & Hl & [_ _ Hs]). destruct (Hs _ _ Hin) as [(tr1 & H1 & _ & H3) _].
  destruct H3 as (Ht & _). rewrite Ht. destruct (shape_spec S l HS Hl tr1 H1) as [m sk Hm _ -> _ _|m cf ct Hm _ -> _ _ _|m f dp o t c rc Hm Hf Hdp _ Hr -> _ _].
  - exists (m_pk m). by constructor.
  - exists (m_pk m). by constructor.
  - destruct (Hm2 m f dp t c rc Hm Hf Hdp Hr) as (m' & mm & Hm' & Hmm & <- & _). exists "id". eapply hc_link; [done|done|left].
Qed.
Theorem refs_exist_l b S ts n tr it nu ut acts fn : wf_schema S → m2m_exists S → all_agg S → names_apart S → names_plain b S →
  build_triggerset b S = Ok ts → (n, tr) ∈ ts → trig_sql b tr = Ok it → acts.*2 = t_acts tr → plain b fn →
  ∃ pt, read b (trig_text nu ut b fn tr acts) (trig_params nu b acts) = Some pt ∧
    (∃ c, has_column S (pt_tab pt) c) ∧
    Forall (λ p, has_column S p.1 p.2) (pt_refs pt) ∧ Forall (row_exists (pt_ev pt)) (pt_rows pt).
Proof.
  intros HS Hm2 Hag Hna Hnp Hts Hin Hit Ha Hfn. eexists. split; [by eapply schema_reads|]. split; [cbn [trig_ast pt_tab]; by eapply table_exists|].
  pose proof (good_merged S HS Hm2 Hag b ts n tr Hna Hts Hin) as Hg.
  apply (good_ast (λ p, has_column S p.1 p.2) nu ut b fn tr (dedup_sql nu b [] acts) Hg). intros p Hp%dedup_sql_in. rewrite <- Ha. apply elem_of_list_fmap. by exists p.
Qed.

(** ** Checkers *)
Definition has_columnb (S : schema) (t c : string) : bool := existsb (λ m,
  (String.eqb (m_table m) t && (String.eqb (m_pk m) c || existsb (λ f, String.eqb (f_owner f) (m_name m) && String.eqb (f_col f) c) (m_fields m))) ||
  existsb (λ mm, String.eqb (mm_table mm) t && bool_decide (c ∈ ["id"; mm_col mm; mm_rev mm])) (m_m2m m)) (s_models S).
Lemma has_columnb_true S t c : has_column S t c → has_columnb S t c = true.
Proof.
  intros H. unfold has_columnb. apply existsb_exists. destruct H as [m Hm|m f Hm Hf Ho|m mm c Hm Hmm Hc]; exists m; (split; [by apply elem_of_list_In|]).
  - by rewrite !String.eqb_refl.
  - rewrite String.eqb_refl. cbn. apply orb_true_iff. left. apply orb_true_iff. right. apply existsb_exists. exists f. split; [by apply elem_of_list_In|]. by rewrite Ho, !String.eqb_refl.
  - apply orb_true_iff. right. apply existsb_exists. exists mm. split; [by apply elem_of_list_In|]. rewrite String.eqb_refl. by rewrite bool_decide_eq_true_2.
Qed.
Lemma has_columnb_false S t c : has_columnb S t c = false → ¬ has_column S t c.
Proof. intros H Hc. apply has_columnb_true in Hc. congruence. Qed.
Definition m2m_existsb (S : schema) : bool := forallb (λ m, forallb (λ f, forallb (λ dp,
  match dep_rel dp with
  | RelM2M t c rc => existsb (λ m', existsb (λ mm, String.eqb (mm_table mm) t &&
      ((String.eqb (mm_col mm) c && String.eqb (mm_rev mm) rc) || (String.eqb (mm_col mm) rc && String.eqb (mm_rev mm) c))) (m_m2m m')) (s_models S)
  | _ => true end) (field_deps f)) (m_fields m)) (s_models S).
Lemma m2m_existsb_spec S : m2m_existsb S = true → m2m_exists S.
Proof.
  intros H m f dp t c rc Hm%elem_of_list_In Hf%elem_of_list_In Hdp%elem_of_list_In Hr. unfold m2m_existsb in H.
  pose proof (proj1 (forallb_forall _ _) H _ Hm) as H1. pose proof (proj1 (forallb_forall _ _) H1 _ Hf) as H2. pose proof (proj1 (forallb_forall _ _) H2 _ Hdp) as H3.
  cbn beta in H3. rewrite Hr in H3. apply existsb_exists in H3 as (m' & Hm' & H3). apply existsb_exists in H3 as (mm & Hmm & H3).
  apply andb_true_iff in H3 as [Ht H3]. apply String.eqb_eq in Ht. exists m', mm. split_and!; [by apply elem_of_list_In|by apply elem_of_list_In|done|].
  apply orb_true_iff in H3 as [H3|H3]; apply andb_true_iff in H3 as [E1%String.eqb_eq E2%String.eqb_eq]; [by left|by right].
Qed.
