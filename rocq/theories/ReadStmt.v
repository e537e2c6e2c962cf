(** * Reading the generated statements and triggers. *)
From Verif Require Import Base BaseLemmas Schema TrigSet Exec Conditions Render RenderProps Text Read ReadProps.
From Coq Require Import Ascii.
Open Scope list_scope.
Local Open Scope nat_scope.

(** ** Statements *)
Definition sel_toks (cols : list tok) (t wc : string) (rf : rref) (rc : string) : list tok :=
  TId "SELECT" :: TId "DISTINCT" :: cols ++ TId "FROM" :: TId t :: TId "WHERE" :: TId wc :: TSym "=" :: ref_toks rf (TQ rc).
Definition cols_toks : list tok := [TId "denorm_dirtyinstance"; TSym "("; TId "content_type_id"; TSym ","; TId "object_id"; TSym ")"].
Definition ins_toks (b : backend) (vs : list tok) : list tok :=
  match b with
  | SQLite => TId "INSERT" :: TId "OR" :: TId "REPLACE" :: TId "INTO" :: cols_toks ++ vs ++ [TSym ";"]
  | Postgres => TId "BEGIN" :: TId "INSERT" :: TId "INTO" :: cols_toks ++ vs ++ [TSym ";"; TId "EXCEPTION"; TId "WHEN"; TId "unique_violation"; TId "THEN"; TId "END"; TSym ";"]
  | MySQL => TId "INSERT" :: TId "IGNORE" :: TId "INTO" :: cols_toks ++ vs ++ [TSym ";"]
  end.
Definition where_toks (nu : string → bool) (P : cond1 → tok) (w : whr) : list tok :=
  match w with
  | WEq c rf rc flt excl => (TQ c :: TSym "=" :: ref_toks rf (TQ rc)) ++ filter_toks nu rf P flt excl
  | WIn c t sc wc rf rc => TId c :: TId "IN" :: paren (sel_toks [TId sc] t wc rf rc)
  end.
Definition expr_toks (b : backend) (c : string) (x : vexpr) : list tok :=
  match x with
  | XRand => rand_toks b
  | XInc => [TQ c; TSym "+"; TId "1"] | XDec => [TQ c; TSym "-"; TId "1"]
  | XAdd rf f => TQ c :: TSym "+" :: ref_toks rf (TQ f) | XSub rf f => TQ c :: TSym "-" :: ref_toks rf (TQ f)
  end.
Definition act_toks (nu : string → bool) (b : backend) (P : cond1 → tok) (q : bool) (a : action) : list tok :=
  match a with
  | AMark ct rf c => ins_toks b (TId "VALUES" :: paren (TId (pretty ct) :: TSym "," :: ref_toks rf (q_tok q c)))
  | AMarkSel ct t sc wc rf rc =>
      let s := sel_toks [TId (pretty ct); TSym ","; q_tok q sc] t wc rf rc in ins_toks b (match b with SQLite => s | _ => paren s end)
  | AUpd t c x w => TId "UPDATE" :: TId t :: TId "SET" :: TId c :: TSym "=" :: expr_toks b c x ++ TId "WHERE" :: where_toks nu P w ++ [TSym ";"]
  end.
(** Names that may stand in a statement. *)
Definition names_ok (b : backend) (q : bool) (a : action) : Prop :=
  match a with
  | AMark ct _ c => (0 ≤ ct)%Z ∧ col_ok b q c
  | AMarkSel ct t sc wc _ rc => (0 ≤ ct)%Z ∧ plain b t ∧ col_ok b q sc ∧ plain b wc ∧ ident rc
  | AUpd t c x w => plain b t ∧ plain b c ∧
      match x with XAdd _ f | XSub _ f => ident f | _ => True end ∧
      match w with
      | WEq c' _ rc flt excl => ident c' ∧ ident rc ∧ Forall cond_ok flt ∧ Forall cond_ok excl
      | WIn c' t' sc wc _ rc => plain b c' ∧ plain b t' ∧ plain b sc ∧ plain b wc ∧ ident rc
      end
  end.
Lemma plain_ident b w : plain b w → ident w.
Proof. by intros [? _]. Qed.
Ltac idn := first [assumption | apply ident_pretty; assumption | eapply plain_ident; eassumption].
Ltac lx := repeat first
  [ progress lits | rewrite lex_word by (idn || done) | rewrite lex_q by idn | rewrite lex_ref by idn | rewrite lex_qif by (assumption || done)
  | rewrite lex_refif by (assumption || done) | litw | progress cbn [app] | rewrite <- !app_assoc ].
Lemma lex_select b cs ctoks t wc rf rc s : (∀ s', stops is_ident_char s' → lex MN (cs +:+ s') = ctoks ++ lex MN s') → plain b t → plain b wc → ident rc →
  lex MN (select_sql b cs t wc rf rc +:+ s) = sel_toks ctoks t wc rf rc ++ lex MN s.
Proof.
  intros Hc Ht Hw Hr. unfold select_sql, sel_toks. rewrite !str_app_assoc. lits. rewrite Hc by done. lits. lx. done.
Qed.
Lemma lex_insert b v vt s : (∀ s', stops is_ident_char s' → lex MN (v +:+ s') = vt ++ lex MN s') → lex MN (insert_sql b v +:+ ";" +:+ s) = ins_toks b vt ++ lex MN s.
Proof.
  intros Hv. unfold insert_sql, ins_toks, cols_toks. destruct b; rewrite ?str_app_assoc; unfold nl; lits; rewrite Hv by done; lits; rewrite <- !app_assoc; done.
Qed.
Lemma lex_where nu b w s : match w with
      | WEq c' _ rc flt excl => ident c' ∧ ident rc ∧ Forall cond_ok flt ∧ Forall cond_ok excl
      | WIn c' t' sc wc _ rc => plain b c' ∧ plain b t' ∧ plain b sc ∧ plain b wc ∧ ident rc
      end → stops is_ident_char s → lex MN (where_sql nu b w +:+ s) = where_toks nu (λ _, TPar) w ++ lex MN s.
Proof.
  destruct w as [c rf rc flt excl|c t sc wc rf rc]; cbn [where_sql where_toks]; rewrite !str_app_assoc.
  - intros (H1 & H2 & H3 & H4) Hs. lx. rewrite lex_filter by done. done.
  - intros (H1 & H2 & H3 & H4 & H5) Hs. unfold paren. lx. rewrite (lex_select b sc [TId sc]); [lx; done| |done..]. intros s' Hs'. by lx.
Qed.
Lemma lex_expr b c x s : ident c → match x with XAdd _ f | XSub _ f => ident f | _ => True end → stops is_ident_char s →
  lex MN (expr_sql b c x +:+ s) = expr_toks b c x ++ lex MN s.
Proof.
  intros Hc Hx Hs. destruct x as [| | |rf f|rf f]; cbn [expr_sql expr_toks]; rewrite ?str_app_assoc.
  - destruct b; cbn [rand_sql]; [lits; done|litw; done|lits; done].
  - lx. done.
  - lx. done.
  - lx. done.
  - lx. done.
Qed.
Lemma lex_action nu b q a s : names_ok b q a → lex MN (action_sql nu b q a +:+ ";" +:+ s) = act_toks nu b (λ _, TPar) q a ++ lex MN s.
Proof.
  destruct a as [ct rf c|ct t sc wc rf rc|t c x w]; cbn [action_sql act_toks names_ok].
  - intros [H1 H2]. apply lex_insert. intros s' Hs'. unfold paren. destruct b; rewrite !str_app_assoc; lx; done.
  - intros (H1 & H2 & H3 & H4 & H5). apply lex_insert. intros s' Hs'.
    assert (Hx : ∀ s'', lex MN (select_sql b (pretty ct +:+ ", " +:+ qif b q sc) t wc rf rc +:+ s'') = sel_toks [TId (pretty ct); TSym ","; q_tok q sc] t wc rf rc ++ lex MN s'').
    { intros s''. apply lex_select; try done. intros s3 Hs3. rewrite !str_app_assoc. lx. done. }
    destruct b; [done|..]; unfold paren; rewrite !str_app_assoc; lits; rewrite Hx; lits; by rewrite <- app_assoc.
  - intros (H1 & H2 & H3 & H4). rewrite !str_app_assoc. lx. rewrite lex_expr; [|idn|done|done]. lx. rewrite lex_where by done. lx. done.
Qed.
Lemma q_tok_par q c : q_tok q c ≠ TPar.
Proof. by destruct q. Qed.
Lemma binds_ref' rf t : t ≠ TPar → binds (ref_toks rf t) [] (ref_toks rf t).
Proof. intros H. unfold ref_toks. bc. apply binds_nil. Qed.
Lemma binds_app0 a ta x p tb : binds a [] ta → binds x p tb → binds (a ++ x) p (ta ++ tb).
Proof. intros H1 H2. by apply (binds_app a [] ta). Qed.
Lemma binds_sel cs t wc rf rc : TPar ∉ cs → binds (sel_toks cs t wc rf rc) [] (sel_toks cs t wc rf rc).
Proof. intros H. unfold sel_toks. bc. apply binds_app0; [by apply binds_none|]. bc. by apply binds_ref'. Qed.
Lemma binds_paren a p ta : binds a p ta → binds (paren a) p (paren ta).
Proof. intros H. unfold paren, lpar, rpar. bc. by apply binds_snoc. Qed.
Lemma binds_ins b vs : binds vs [] vs → binds (ins_toks b vs) [] (ins_toks b vs).
Proof. intros H. unfold ins_toks, cols_toks. destruct b; cbn [app]; bc; (apply binds_app0; [done|]); bc; apply binds_nil. Qed.
Lemma binds_act nu b q a : binds (act_toks nu b (λ _, TPar) q a) (act_params a) (act_toks nu b pval q a).
Proof.
  destruct a as [ct rf c|ct t sc wc rf rc|t c x w]; cbn [act_toks act_params].
  - apply binds_ins. bc. apply binds_paren. bc. apply binds_ref', q_tok_par.
  - apply binds_ins. destruct b; try apply binds_paren; apply binds_sel; rewrite !elem_of_cons, elem_of_nil; pose proof (q_tok_par q sc); naive_solver.
  - bc. apply binds_app0.
    { destruct x; cbn [expr_toks]; [apply binds_none; destruct b; by apply (bool_decide_unpack _)|..]; bc; try apply binds_nil; by apply binds_ref'. }
    bc. apply binds_snoc; [done|]. destruct w as [c' rf rc flt excl|c' t' sc wc rf rc]; cbn [where_toks].
    + apply binds_app0; [bc; by apply binds_ref'|]. rewrite omap_app. fold (omap cparam flt) (omap cparam excl). rewrite <- !pars_params. apply binds_filter.
    + bc. apply binds_paren, binds_sel. set_solver.
Qed.

(** ** Parsing statements *)
Definition where_exp (nu : string → bool) (w : whr) : bexp :=
  match w with
  | WEq c rf rc flt excl => and_exp ([], BEq (OCol c) (ORef rf rc)) (filter_terms nu rf flt excl)
  | WIn c t sc wc rf rc => BIn (OCol c) sc t wc rf rc
  end.
Definition expr_exp (c : string) (x : vexpr) : xexp :=
  match x with
  | XRand => ERand | XInc => EPlus (OCol c) (OVal (VInt 1)) | XDec => EMinus (OCol c) (OVal (VInt 1))
  | XAdd rf f => EPlus (OCol c) (ORef rf f) | XSub rf f => EMinus (OCol c) (ORef rf f)
  end.
Definition act_ast (nu : string → bool) (a : action) : pstmt :=
  match a with
  | AMark ct rf c => PMark ct rf c
  | AMarkSel ct t sc wc rf rc => PMarkSel ct t sc wc rf rc
  | AUpd t c x w => PUpd t c (expr_exp c x) (where_exp nu w)
  end.
Ltac pn := repeat first [progress ps | rewrite name_plain by assumption | rewrite num_word by assumption].
Lemma and_exp_irrel t t' e l : and_exp (t, e) l = and_exp (t', e) l.
Proof. by destruct l. Qed.
Lemma term_eq b c rf rc : term b (TQ c :: TSym "=" :: ref_toks rf (TQ rc)) (BEq (OCol c) (ORef rf rc)).
Proof.
  apply term_cmp; [done|done|]. intros r Hr. unfold comparison. cbn [app operand mbind option_bind fst snd]. unfold Read.compare. ps.
  rewrite (operand_ref b rf true) by done. by ps.
Qed.
Lemma parse_where nu b w n r : match w with
      | WEq c' _ rc flt excl => ident c' ∧ ident rc ∧ Forall cond_ok flt ∧ Forall cond_ok excl
      | WIn c' t' sc wc _ rc => plain b c' ∧ plain b t' ∧ plain b sc ∧ plain b wc ∧ ident rc
      end → 4 * length (where_toks nu pval w) + 1 < n → p_or b n (where_toks nu pval w ++ TSym ";" :: r) = Some (where_exp nu w, TSym ";" :: r).
Proof.
  destruct w as [c rf rc flt excl|c t sc wc rf rc]; cbn [where_toks where_exp].
  - intros (H1 & H2 & H3 & H4) Hn. rewrite filter_toks_terms in *.
    pose proof (and_toks_conj (TQ c :: TSym "=" :: ref_toks rf (TQ rc), BEq (OCol c) (ORef rf rc)) (filter_terms nu rf flt excl)) as Hx. cbn [fst] in Hx. rewrite <- Hx in *.
    rewrite (and_exp_irrel [] (TQ c :: TSym "=" :: ref_toks rf (TQ rc))). apply and_or; [|done|done|done|done].
    constructor; [apply term_eq|apply terms_filter].
  - intros (H1 & H2 & H3 & H4 & H5) Hn. apply (or_chain b (_, _) []); [|done|done|done|done]. constructor; [|constructor]. cbn [fst snd].
    apply term_cmp; [done| |].
    { intros r'. split; [|done]. eapply kw_plain; [done|]. by apply (bool_decide_unpack _). }
    intros r' Hr. unfold comparison, operand. cbn [app].
    assert (Hf : ∀ r, reference b (TId c :: r) = None).
    { intros r0. unfold reference. cbn [kws]. rewrite !(kw_plain b) by (done || by apply (bool_decide_unpack _)). done. }
    rewrite Hf. assert (Hm : ∀ r, num (TId c :: r) = None) by (intros r0; unfold num; destruct H1 as (_ & _ & -> & _); done). rewrite Hm. pn. unfold Read.compare, paren, sel_toks, lpar, rpar. pn.
    rewrite <- app_assoc. rewrite (reference_toks b rf true) by done. by pn.
Qed.
Lemma exactly_app l r : exactly l (l ++ r) = Some r.
Proof. induction l as [|x l IH]; [done|]. cbn [exactly app]. by rewrite decide_True. Qed.
Lemma exactly_q b c r : exactly (rand_toks b) (TQ c :: r) = None.
Proof. by destruct b. Qed.
Lemma operand_one b r : operand b (TId "1" :: r) = Some (OVal (VInt 1), r).
Proof. done. Qed.
Lemma parse_expr b c x r : match x with XAdd _ f | XSub _ f => ident f | _ => True end → sym ":" r = None → value b (expr_toks b c x ++ r) = Some (expr_exp c x, r).
Proof.
  intros Hx Hr. unfold value. destruct x as [| | |rf f|rf f]; cbn [expr_toks expr_exp]; [by rewrite exactly_app|..]; cbn [app]; rewrite exactly_q; cbn [operand]; pn;
    rewrite ?operand_one, ?(operand_ref b rf true) by done; done.
Qed.
Lemma dirty_plain b : plain b "denorm_dirtyinstance" ∧ plain b "content_type_id" ∧ plain b "object_id".
Proof. destruct b; repeat split; done. Qed.
Lemma parse_insert b vs p r : (∀ r', next_ok r' → p_values b (vs ++ r') = Some (p, r')) → p_insert b (ins_toks b vs ++ r) = Some (p, TSym ";" :: r).
Proof.
  intros Hv. destruct (dirty_plain b) as (H1 & H2 & H3). unfold p_insert, ins_toks, cols_toks. destruct b; pn; (rewrite decide_True by done); pn; (rewrite decide_True by done);
    rewrite <- app_assoc; rewrite Hv by done; by pn.
Qed.
Lemma parse_select b q ct t sc wc rf rc r : (0 ≤ ct)%Z → col_ok b q sc → plain b t → plain b wc →
  p_select b (sel_toks [TId (pretty ct); TSym ","; q_tok q sc] t wc rf rc ++ r) = Some (PMarkSel ct t sc wc rf rc, r).
Proof.
  intros H1 H2 H3 H4. unfold p_select, sel_toks. pn. rewrite name_q by (by apply col_ok_plain). pn. rewrite (reference_toks b rf true) by done. done.
Qed.
Lemma parse_act nu b q a n r : names_ok b q a → 4 * length (act_toks nu b pval q a) ≤ n → p_stmt b n (act_toks nu b pval q a ++ r) = Some (act_ast nu a, r).
Proof.
  destruct a as [ct rf c|ct t sc wc rf rc|t c x w]; cbn [names_ok act_toks act_ast].
  - intros [H1 H2] Hn. unfold p_stmt.
    assert (Hu : ∀ vs r, kw "UPDATE" (ins_toks b vs ++ r) = None) by (intros; destruct b; unfold ins_toks; by ps). rewrite Hu.
    rewrite (parse_insert b _ (PMark ct rf c)); [by ps|]. intros r' Hr. unfold p_values, paren, lpar, rpar. pn. rewrite <- app_assoc.
    rewrite reference_toks by (by apply col_ok_plain). by pn.
  - intros (H1 & H2 & H3 & H4 & H5) Hn. unfold p_stmt.
    assert (Hu : ∀ vs r, kw "UPDATE" (ins_toks b vs ++ r) = None) by (intros; destruct b; unfold ins_toks; by ps). rewrite Hu.
    rewrite (parse_insert b _ (PMarkSel ct t sc wc rf rc)); [by ps|]. intros r' Hr. unfold p_values.
    assert (Hs : ∀ r, p_select b (sel_toks [TId (pretty ct); TSym ","; q_tok q sc] t wc rf rc ++ r) = Some (PMarkSel ct t sc wc rf rc, r)) by (intros; by apply parse_select).
    destruct b.
    + assert (Hk : ∀ cs r, kw "VALUES" (sel_toks cs t wc rf rc ++ r) = None ∧ sym "(" (sel_toks cs t wc rf rc ++ r) = None) by (intros; unfold sel_toks; split; by ps).
      destruct (Hk [TId (pretty ct); TSym ","; q_tok q sc] r') as [-> ->]. apply Hs.
    + unfold paren, lpar, rpar. pn. rewrite <- app_assoc. rewrite Hs. by pn.
    + unfold paren, lpar, rpar. pn. rewrite <- app_assoc. rewrite Hs. by pn.
  - intros (H1 & H2 & H3 & H4) Hn. unfold p_stmt, p_update. pn. rewrite <- app_assoc. rewrite parse_expr by done. pn. rewrite <- app_assoc. cbn [app].
    cbn [length] in Hn. rewrite app_length in Hn. cbn [length] in Hn. rewrite app_length in Hn. rewrite parse_where; [by pn|done|lia].
Qed.
(** Several statements. *)
Definition acts_toks (nu : string → bool) (b : backend) (P : cond1 → tok) (l : list (bool * action)) : list tok := concat ((λ p : bool * action, act_toks nu b P p.1 p.2) <$> l).
Definition act_start (r : list tok) : Prop := kw "END" r = None ∧ kw "RETURN" r = None ∧ kw "IF" r = None.
Lemma act_starts nu b P q a r : act_start (act_toks nu b P q a ++ r).
Proof. unfold act_start. destruct a, b; cbn [act_toks ins_toks app]; split_and!; by ps. Qed.
Lemma parse_stmts nu b l n r : Forall (λ p, names_ok b p.1 p.2) l → 4 * length (acts_toks nu b pval l) < n → (is_Some (kw "END" r) ∨ is_Some (kw "RETURN" r)) →
  p_stmts b n (acts_toks nu b pval l ++ r) = Some ((λ p : bool * action, act_ast nu p.2) <$> l, r).
Proof.
  revert n. induction l as [|[q a] l IH]; intros n Hl Hn Hr; (destruct n as [|n]; [lia|]).
  - unfold acts_toks. cbn [fmap list_fmap concat app p_stmts]. destruct Hr as [[x Hx]|[x Hx]]; rewrite Hx; [done|]. by destruct (kw "END" r).
  - apply Forall_cons in Hl as [Ha Hl]. cbn [fst snd] in Ha. unfold acts_toks in *. cbn [fmap list_fmap concat fst snd] in *. rewrite app_length in Hn. rewrite <- app_assoc.
    destruct (act_starts nu b pval q a (concat ((λ p : bool * action, act_toks nu b pval p.1 p.2) <$> l) ++ r)) as (S1 & S2 & _).
    cbn [p_stmts]. rewrite S1, S2. rewrite parse_act by (done || lia). cbn [mbind option_bind fst snd]. rewrite IH; [done|done| |done].
    assert (0 < length (act_toks nu b pval q a)); [|lia]. destruct a, b; cbn; lia.
Qed.
Lemma lex_body nu b l s : Forall (λ p, names_ok b p.1 p.2) l →
  lex MN (sjoin nl ((λ p : bool * action, action_sql nu b p.1 p.2 +:+ ";") <$> l) +:+ s) = acts_toks nu b (λ _, TPar) l ++ lex MN s.
Proof.
  set (f := λ p : bool * action, action_sql nu b p.1 p.2 +:+ ";"). induction l as [|[q a] l IH]; intros Hl; [done|]. apply Forall_cons in Hl as [Ha Hl]. specialize (IH Hl). cbn [fst snd] in Ha.
  assert (Hc : acts_toks nu b (λ _, TPar) ((q, a) :: l) = act_toks nu b (λ _, TPar) q a ++ acts_toks nu b (λ _, TPar) l) by done. rewrite Hc, <- app_assoc. destruct l as [|p l].
  - change (sjoin nl (f <$> [(q, a)])) with (action_sql nu b q a +:+ ";"). rewrite str_app_assoc, lex_action by done. done.
  - change (sjoin nl (f <$> (q, a) :: p :: l)) with ((action_sql nu b q a +:+ ";") +:+ nl +:+ sjoin nl (f <$> p :: l)). rewrite !str_app_assoc, lex_action by done. unfold nl at 1. lits. by rewrite IH.
Qed.
Lemma binds_body nu b l : binds (acts_toks nu b (λ _, TPar) l) (concat ((λ p : bool * action, act_params p.2) <$> l)) (acts_toks nu b pval l).
Proof. induction l as [|[q a] l IH]; [apply binds_nil|]. unfold acts_toks in *. cbn [fmap list_fmap concat fst snd]. apply binds_app; [apply binds_act|done]. Qed.
