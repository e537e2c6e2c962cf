(** * Reading the complete text of a generated trigger. *)
From Verif Require Import Base BaseLemmas Schema TrigSet Exec Conditions Render RenderProps Text Read ReadProps ReadStmt.
From Coq Require Import Ascii.
Open Scope list_scope.
Local Open Scope nat_scope.

(** ** Numbers are not keywords *)
Lemma digit_upper c : digit_char c = true → up_char c = c.
Proof. unfold digit_char, up_char. intros [H1 H2]%andb_true_iff. rewrite N.leb_le in H1, H2. destruct ((97 <=? code c) && (code c <=? 122))%N eqn:He; [|done]. apply andb_true_iff in He as [H3 _]. rewrite N.leb_le in H3. lia. Qed.
Lemma upper_digits w : all_chars digit_char w = true → upper w = w.
Proof. induction w as [|c w IH]; [done|]. cbn [all_chars]. intros [H1 H2]%andb_true_iff. unfold upper in *. cbn [map_str]. by rewrite digit_upper, IH. Qed.
Lemma kw_num k (z : Z) r : (0 ≤ z)%Z → number k = None → kw k (TId (pretty z) :: r) = None.
Proof.
  intros Hz Hk. destruct (pretty_Z_spec z Hz) as (H1 & _ & H3). unfold kw. rewrite upper_digits by done. destruct (String.eqb_spec (pretty z) k) as [He|]; [|done]. rewrite He in H3. congruence.
Qed.
Lemma operand_num b (z : Z) r : (0 ≤ z)%Z → operand b (TId (pretty z) :: r) = Some (OVal (VInt z), r).
Proof.
  intros Hz. unfold operand. assert (Hr : reference b (TId (pretty z) :: r) = None). { unfold reference. cbn [kws]. rewrite !kw_num by done. done. }
  rewrite Hr, num_word by done. done.
Qed.

(** ** Conditions *)
Definition fcmp_toks (ut : string → bool) (b : backend) (f : string) : list tok :=
  match b with
  | SQLite => paren (ref_toks ROld (TQ f) ++ TId "IS" :: TId "NOT" :: ref_toks RNew (TQ f))
  | Postgres =>
      if ut f then paren (ref_toks ROld (TQ f) ++ TSym ":" :: TSym ":" :: TId "text" :: TId "IS" :: TId "DISTINCT" :: TId "FROM" :: ref_toks RNew (TQ f) ++ [TSym ":"; TSym ":"; TId "text"])
      else paren (ref_toks ROld (TQ f) ++ TId "IS" :: TId "DISTINCT" :: TId "FROM" :: ref_toks RNew (TQ f))
  | MySQL => paren (TId "NOT" :: paren (ref_toks ROld (TQ f) ++ TSym "<" :: TSym "=" :: TSym ">" :: ref_toks RNew (TQ f)))
  end.
Definition fcmp_exp (ut : string → bool) (b : backend) (f : string) : bexp :=
  match b with
  | SQLite => BDiff (ORef ROld f) (ORef RNew f)
  | Postgres => if ut f then BDiff (OText (ORef ROld f)) (OText (ORef RNew f)) else BDiff (ORef ROld f) (ORef RNew f)
  | MySQL => BNot (BNot (BDiff (ORef ROld f) (ORef RNew f)))
  end.
Lemma lex_fcmp ut b f s : ident f → lex MN (field_sql ut b f +:+ s) = fcmp_toks ut b f ++ lex MN s.
Proof.
  intros Hf. unfold field_sql, fcmp_toks, ref_toks. destruct b; [|destruct (ut f)|]; rewrite !str_app_assoc; unfold paren, lpar, rpar; lx; done.
Qed.
Lemma paren_one b t e : t ≠ [] → (∀ r, kw "NOT" (t ++ r) = None ∧ sym "(" (t ++ r) = None) → (∀ r, next_ok r → comparison b (t ++ r) = Some (e, r)) → term b (paren t) e.
Proof. intros H0 H1 H2. apply (or_paren b (t, e) []). constructor; [|constructor]. by apply term_cmp. Qed.
Lemma operand_ref_q b rf c r : sym ":" r = None → operand b (ref_toks rf (TQ c) ++ r) = Some (ORef rf c, r).
Proof. by apply (operand_ref b rf true). Qed.
Lemma operand_text b rf c r : operand b (ref_toks rf (TQ c) ++ TSym ":" :: TSym ":" :: TId "text" :: r) = Some (OText (ORef rf c), r).
Proof.
  pose proof (reference_toks b rf true c (TSym ":" :: TSym ":" :: TId "text" :: r)) as H. cbn [q_tok] in H. unfold operand. destruct rf; cbn [ref_toks app] in H |- *; rewrite H by done; by ps.
Qed.
Lemma term_fcmp ut b f : term b (fcmp_toks ut b f) (fcmp_exp ut b f).
Proof.
  destruct b; cbn [fcmp_toks fcmp_exp].
  - apply paren_one; [done|done|]. intros r Hr. unfold comparison. rewrite <- app_assoc. cbn [app]. rewrite operand_ref_q by done. cbn [mbind option_bind fst snd]. unfold Read.compare. ps.
    assert (Hn : ∀ r, kw "NULL" (ref_toks RNew (TQ f) ++ r) = None) by (intros; unfold ref_toks; by ps). rewrite Hn. ps. rewrite operand_ref_q by done. by ps.
  - destruct (ut f).
    + apply paren_one; [done|done|]. intros r Hr. unfold comparison. rewrite <- app_assoc. cbn [app]. rewrite operand_text. cbn [mbind option_bind fst snd]. unfold Read.compare. ps.
      rewrite <- app_assoc. cbn [app]. rewrite operand_text. by ps.
    + apply paren_one; [done|done|]. intros r Hr. unfold comparison. rewrite <- app_assoc. cbn [app]. rewrite operand_ref_q by done. cbn [mbind option_bind fst snd]. unfold Read.compare. ps. rewrite operand_ref_q by done. by ps.
  - apply (or_paren _ (_, _) []). constructor; [|constructor]. cbn [fst snd]. apply term_not. apply paren_one; [done|done|].
    intros r Hr. unfold comparison. rewrite <- app_assoc. cbn [app]. rewrite operand_ref_q by done. cbn [mbind option_bind fst snd]. unfold Read.compare. ps. rewrite operand_ref_q by done. by ps.
Qed.
Definition fc (ut : string → bool) (b : backend) (f : string) : list tok * bexp := (fcmp_toks ut b f, fcmp_exp ut b f).
Lemma terms_fc ut b fs : terms b (fc ut b <$> fs).
Proof. apply Forall_fmap, Forall_forall. intros f _. apply term_fcmp. Qed.
(** The fields, joined by OR. *)
Lemma lex_join_or sep ut b f fs s :
  sep = "OR" ∨ sep = " OR " → Forall ident (f :: fs) → lex MN (sjoin sep (field_sql ut b <$> f :: fs) +:+ s) = or_toks (fc ut b f) (fc ut b <$> fs) ++ lex MN s.
Proof.
  intros Hs. assert (Hsep : ∀ g s', ident g → lex MN (sep +:+ field_sql ut b g +:+ s') = TId "OR" :: lex MN (field_sql ut b g +:+ s')).
  { intros g s' Hg. destruct Hs as [-> | ->]; [|by lits]. unfold field_sql. destruct b; [|destruct (ut g)|]; rewrite !str_app_assoc; by litw. }
  revert f. induction fs as [|g fs IH]; intros f [Hf Hg]%Forall_cons; [cbn [sjoin fmap list_fmap or_toks]; by apply lex_fcmp|].
  change (sjoin sep (field_sql ut b <$> f :: g :: fs)) with (field_sql ut b f +:+ sep +:+ sjoin sep (field_sql ut b <$> g :: fs)). rewrite !str_app_assoc, lex_fcmp by done.
  change (or_toks (fc ut b f) (fc ut b <$> g :: fs)) with (fcmp_toks ut b f ++ TId "OR" :: or_toks (fc ut b g) (fc ut b <$> fs)). rewrite <- app_assoc. f_equal.
  assert (Hj : ∃ s', sjoin sep (field_sql ut b <$> g :: fs) +:+ s = field_sql ut b g +:+ s').
  { destruct fs as [|h fs]; cbn [fmap list_fmap sjoin]; [by eexists|]. rewrite !str_app_assoc. by eexists. }
  destruct Hj as [s' Hj]. rewrite Hj, Hsep by (by apply Forall_cons in Hg as [? _]). rewrite <- Hj. cbn [app]. f_equal. by apply IH.
Qed.
(** The content type. *)
Definition ct_one (b : backend) (rf : rref) (cf : string) (ct : Z) : list tok :=
  paren (ref_toks rf (TQ cf) ++ match b with SQLite => [TSym "="; TSym "="; TId (pretty ct)] | _ => [TSym "="; TId (pretty ct)] end).
Definition ct_exp (rf : rref) (cf : string) (ct : Z) : bexp := BEq (ORef rf cf) (OVal (VInt ct)).
Lemma term_ct b rf cf ct : (0 ≤ ct)%Z → term b (ct_one b rf cf ct) (ct_exp rf cf ct).
Proof.
  intros Hz. apply paren_one; [by destruct rf|by destruct rf|]. intros r Hr. unfold comparison. rewrite <- app_assoc. rewrite operand_ref_q by (by destruct b). cbn [mbind option_bind fst snd].
  unfold Read.compare. destruct b; ps; rewrite operand_num by done; by ps.
Qed.
Definition ct_toks (b : backend) (ev : evkind) (cf : string) (ct : Z) : list tok :=
  match b, ev with
  | _, EvDel => ct_one b ROld cf ct
  | _, EvIns => ct_one b RNew cf ct
  | SQLite, EvUpd => paren (ct_one b ROld cf ct ++ TId "OR" :: ct_one b RNew cf ct)
  | _, EvUpd => ct_one b ROld cf ct ++ TId "OR" :: ct_one b RNew cf ct
  end.
Lemma lex_ct b ev cf ct s : ident cf → (0 ≤ ct)%Z → lex MN (ct_sql b ev cf ct +:+ s) = ct_toks b ev cf ct ++ lex MN s.
Proof.
  intros Hc Hz. unfold ct_sql, ct_toks, ct_one, ref_toks. destruct b, ev; rewrite !str_app_assoc; unfold paren, lpar, rpar; lx; done.
Qed.
Definition fs_toks (ut : string → bool) (b : backend) (fs : list string) : list tok :=
  let t := match fs with [] => [] | f :: fs' => or_toks (fc ut b f) (fc ut b <$> fs') end in match b with MySQL => t | _ => paren t end.
Lemma lex_fs ut b fs s : Forall ident fs → lex MN (fields_sql ut b fs +:+ s) = fs_toks ut b fs ++ lex MN s.
Proof.
  intros Hf. unfold fields_sql, fs_toks, paren, lpar, rpar. destruct fs as [|f fs]; [destruct b; cbn [fmap list_fmap sjoin]; rewrite ?str_app_assoc; by lits|].
  destruct b; rewrite ?str_app_assoc; lits; (rewrite lex_join_or; [|by auto|done]); lits; by rewrite <- ?app_assoc.
Qed.
(** The whole condition. *)
Definition whole_toks (ut : string → bool) (b : backend) (tr : trigger) : list tok :=
  match b, t_ev tr, t_ctf tr with
  | MySQL, EvUpd, _ => fs_toks ut b (t_fields tr)
  | MySQL, _, _ => []
  | _, EvUpd, None => fs_toks ut b (t_fields tr)
  | _, EvUpd, Some cf => fs_toks ut b (t_fields tr) ++ TId "AND" :: ct_toks b EvUpd cf (t_ct tr)
  | _, ev, Some cf => ct_toks b ev cf (t_ct tr)
  | _, ev, None => []
  end.
Definition trig_ok (b : backend) (tr : trigger) : Prop :=
  plain b (t_tab tr) ∧ Forall ident (t_fields tr) ∧ (∀ cf, t_ctf tr = Some cf → ident cf ∧ (0 ≤ t_ct tr)%Z).
Lemma lex_whole ut b tr s : trig_ok b tr → lex MN (cond_text ut b tr +:+ s) = whole_toks ut b tr ++ lex MN s.
Proof.
  intros (_ & Hf & Hc). unfold cond_text, whole_toks. destruct (t_ctf tr) as [cf|] eqn:Ec; [destruct (Hc cf eq_refl) as [Hi Hz]|];
    destruct b, (t_ev tr); cbn [app sjoin]; try done; rewrite ?str_app_assoc; try (by apply lex_ct); try (by apply lex_fs).
  all: rewrite lex_fs by done; rewrite <- app_assoc; cbn [app]; f_equal.
  - rewrite <- lex_ct by done. unfold ct_sql. rewrite !str_app_assoc. by litw.
  - lits. by rewrite lex_ct.
Qed.
Definition fs_exp (ut : string → bool) (b : backend) (fs : list string) : bexp :=
  match fs with [] => BNot (BNull (OVal VNull)) | f :: fs' => or_exp (fc ut b f) (fc ut b <$> fs') end.
Definition whole_exp (ut : string → bool) (b : backend) (tr : trigger) : option bexp :=
  let f := fs_exp ut b (t_fields tr) in
  match b, t_ev tr, t_ctf tr with
  | MySQL, EvUpd, _ => match t_fields tr with [] => None | _ => Some f end
  | MySQL, _, _ => None
  | _, EvUpd, None => Some f
  | SQLite, EvUpd, Some cf => Some (BAnd f (BOr (ct_exp ROld cf (t_ct tr)) (ct_exp RNew cf (t_ct tr))))
  | _, EvUpd, Some cf => Some (BOr (BAnd f (ct_exp ROld cf (t_ct tr))) (ct_exp RNew cf (t_ct tr)))
  | _, EvIns, Some cf => Some (ct_exp RNew cf (t_ct tr))
  | _, EvDel, Some cf => Some (ct_exp ROld cf (t_ct tr))
  | _, _, None => None
  end.
Lemma cond_text_empty ut b tr c : trig_cond b tr = Ok c → cond_text ut b tr = "" ↔ whole_exp ut b tr = None.
Proof.
  intros H. unfold cond_text, whole_exp. unfold trig_cond in H.
  destruct b, (t_ev tr), (t_ctf tr) as [cf|]; cbn [app sjoin]; try done; try (destruct (t_fields tr) as [|f [|g fs]]; done).
Qed.
Lemma parse_whole ut b tr c e n r : trig_ok b tr → trig_cond b tr = Ok c → whole_exp ut b tr = Some e → 4 * length (whole_toks ut b tr) + 1 < n →
  next_ok r → kw "AND" r = None → kw "OR" r = None → p_or b n (whole_toks ut b tr ++ r) = Some (e, r).
Proof.
  intros (_ & Hf & Hc) Ht He Hn Hr Ha Ho. unfold trig_cond in Ht. unfold whole_exp in He. unfold whole_toks in *.
  assert (Hone : ∀ t x, term b t x → 4 * length t + 1 < n → p_or b n (t ++ r) = Some (x, r)).
  { intros t x Hx Hl. apply (or_chain b (t, x) []); try done. constructor; [done|constructor]. }
  assert (Hfs : ∀ f fs', Forall ident (f :: fs') → t_fields tr = f :: fs' → b ≠ MySQL → term b (fs_toks ut b (t_fields tr)) (fs_exp ut b (t_fields tr))).
  { intros f fs' _ -> Hb. unfold fs_toks, fs_exp. destruct b; try done; apply or_paren; (constructor; [apply term_fcmp|apply terms_fc]). }
  destruct (t_ctf tr) as [cf|] eqn:Ec; [destruct (Hc cf eq_refl) as [Hi Hz]|].
  - destruct b, (t_ev tr) eqn:Ev; simplify_eq; try (apply Hone; [by apply term_ct|done]).
    + case_decide as Hd; [done|]. destruct (t_fields tr) as [|f fs'] eqn:Ef; [done|].
      apply (and_or SQLite (_, _) [(_, BOr _ _)]); [|done..]. constructor; [by eapply Hfs|]. constructor; [|constructor]. cbn [fst snd].
      apply (or_paren SQLite (ct_one SQLite ROld cf (t_ct tr), ct_exp ROld cf (t_ct tr)) [(ct_one SQLite RNew cf (t_ct tr), ct_exp RNew cf (t_ct tr))]).
      constructor; [by apply term_ct|]. constructor; [by apply term_ct|]. constructor.
    + case_decide as Hd; [done|]. destruct (t_fields tr) as [|f fs'] eqn:Ef; [done|]. destruct n as [|n]; [lia|]. rewrite p_or_S. unfold ct_toks in *.
      rewrite !app_length in Hn. cbn [length] in Hn. rewrite app_length in Hn. cbn [length] in Hn.
      pose proof (and_chain Postgres (fs_toks ut Postgres (f :: fs'), fs_exp ut Postgres (f :: fs')) [(ct_one Postgres ROld cf (t_ct tr), ct_exp ROld cf (t_ct tr))]) as Hx.
      cbn [and_toks and_exp fst snd] in Hx.
      specialize (Hx ltac:(constructor; [by eapply Hfs|constructor; [by apply term_ct|constructor]]) n (TId "OR" :: ct_one Postgres RNew cf (t_ct tr) ++ r)).
      rewrite app_length in Hx. cbn [length] in Hx. specialize (Hx ltac:(lia) eq_refl eq_refl).
      repeat first [rewrite <- app_assoc in Hx | progress cbn [app] in Hx]. repeat first [rewrite <- app_assoc | progress cbn [app]]. rewrite Hx. ps.
      rewrite (or_chain Postgres (ct_one Postgres RNew cf (t_ct tr), ct_exp RNew cf (t_ct tr)) []); [done| |cbn [or_toks fst]; lia|done|done|done]. constructor; [by apply term_ct|constructor].
    + destruct (t_fields tr) as [|f fs'] eqn:Ef; [done|]. simplify_eq. apply (or_chain MySQL (fc ut MySQL f) (fc ut MySQL <$> fs')); [|done..]. constructor; [apply term_fcmp|apply terms_fc].
  - destruct b, (t_ev tr) eqn:Ev; simplify_eq; try done.
    + case_decide as Hd; [done|]. destruct (t_fields tr) as [|f fs'] eqn:Ef; [done|]. apply Hone; [by eapply Hfs|done].
    + case_decide as Hd; [done|]. destruct (t_fields tr) as [|f fs'] eqn:Ef; [done|]. apply Hone; [by eapply Hfs|done].
    + destruct (t_fields tr) as [|f fs'] eqn:Ef; [done|]. simplify_eq. apply (or_chain MySQL (fc ut MySQL f) (fc ut MySQL <$> fs')); [|done..]. constructor; [apply term_fcmp|apply terms_fc].
Qed.
(** ** The trigger *)
Definition head_toks (n : string) (tr : trigger) : list tok :=
  [TId "CREATE"; TId "TRIGGER"; TId n; TId "AFTER"; TId (ev_upper (t_ev tr)); TId "ON"; TId (t_tab tr); TId "FOR"; TId "EACH"; TId "ROW"].
Definition block_toks (nu ut : string → bool) (b : backend) (tr : trigger) (P : cond1 → tok) (l : list (bool * action)) : list tok :=
  if decide (cond_text ut b tr = "") then acts_toks nu b P l
  else TId "IF" :: whole_toks ut b tr ++ TId "THEN" :: acts_toks nu b P l ++ [TId "END"; TId "IF"; TSym ";"].
Definition trig_toks (nu ut : string → bool) (b : backend) (n : string) (tr : trigger) (P : cond1 → tok) (l : list (bool * action)) : list tok :=
  match b with
  | SQLite => head_toks n tr ++ (if decide (cond_text ut b tr = "") then [] else TId "WHEN" :: paren (whole_toks ut b tr)) ++ TId "BEGIN" :: acts_toks nu b P l ++ [TId "END"; TSym ";"]
  | MySQL => head_toks n tr ++ TId "BEGIN" :: block_toks nu ut b tr P l ++ [TId "END"; TSym ";"]
  | Postgres =>
      TId "CREATE" :: TId "OR" :: TId "REPLACE" :: TId "FUNCTION" :: TId ("func_" +:+ n) :: TSym "(" :: TSym ")" :: TId "RETURNS" :: TId "TRIGGER" :: TId "AS" :: TSym "$" :: TSym "$" :: TId "BEGIN" ::
      block_toks nu ut b tr P l ++ TId "RETURN" :: TId "NULL" :: TSym ";" :: TId "END" :: TSym ";" :: TSym "$" :: TSym "$" :: TId "LANGUAGE" :: TId "plpgsql" :: TSym ";" ::
      head_toks n tr ++ [TId "EXECUTE"; TId "PROCEDURE"; TId ("func_" +:+ n); TSym "("; TSym ")"; TSym ";"]
  end.
Lemma ident_func n : ident n → ident ("func_" +:+ n).
Proof. intros [_ H]. split; [done|]. rewrite !str_app_cons, str_app_nil. cbn [all_chars]. by rewrite H. Qed.
Lemma plain_func b n : plain b n → plain b ("func_" +:+ n).
Proof.
  intros (H1 & H2 & H3 & H4). split; [by apply ident_func|]. split; [done|]. split; [done|]. destruct b; [done| |done]. unfold folded in *. rewrite !str_app_cons, str_app_nil. cbn [map_str]. by rewrite H4.
Qed.
Lemma lex_head n tr s : ident n → ident (t_tab tr) →
  lex MN (n +:+ (nl +:+ "    AFTER " +:+ ev_upper (t_ev tr) +:+ " ON " +:+ t_tab tr +:+ nl +:+ "    FOR EACH ROW ") +:+ s) = tail (tail (head_toks n tr)) ++ lex MN s.
Proof. intros H1 H2. unfold head_toks, nl. rewrite !str_app_assoc. assert (He : ident (ev_upper (t_ev tr))) by (by destruct (t_ev tr)). lx. done. Qed.
Lemma lex_func n s : ident n → lex MN ("CREATE OR REPLACE FUNCTION func_" +:+ n +:+ "()" +:+ s) =
  TId "CREATE" :: TId "OR" :: TId "REPLACE" :: TId "FUNCTION" :: TId ("func_" +:+ n) :: TSym "(" :: TSym ")" :: lex MN s.
Proof.
  intros H. change ("CREATE OR REPLACE FUNCTION func_" +:+ n +:+ "()" +:+ s) with ("CREATE OR REPLACE FUNCTION " +:+ ("func_" +:+ n) +:+ "()" +:+ s).
  pose proof (ident_func n H). set (f := "func_" +:+ n) in *. clearbody f. lx. done.
Qed.
Lemma lex_exec n s : ident n → lex MN ("EXECUTE PROCEDURE func_" +:+ n +:+ "();" +:+ s) =
  TId "EXECUTE" :: TId "PROCEDURE" :: TId ("func_" +:+ n) :: TSym "(" :: TSym ")" :: TSym ";" :: lex MN s.
Proof.
  intros H. change ("EXECUTE PROCEDURE func_" +:+ n +:+ "();" +:+ s) with ("EXECUTE PROCEDURE " +:+ ("func_" +:+ n) +:+ "();" +:+ s).
  pose proof (ident_func n H). set (f := "func_" +:+ n) in *. clearbody f. lx. done.
Qed.
Lemma spaces8 : all_chars is_space sp8 = true. Proof. done. Qed.
Lemma spaces12 : all_chars is_space sp12 = true. Proof. done. Qed.
Lemma lex_indent8 s r : lex MN (indent sp8 s +:+ r) = lex MN (s +:+ r). Proof. by apply lex_indent. Qed.
Lemma lex_indent12 s r : lex MN (indent sp12 s +:+ r) = lex MN (s +:+ r). Proof. by apply lex_indent. Qed.
Lemma lex_trig nu ut b n tr acts : plain b n → trig_ok b tr → Forall (λ p, names_ok b p.1 p.2) (dedup_sql nu b [] acts) →
  lex MN (trig_text nu ut b n tr acts) = trig_toks nu ut b n tr (λ _, TPar) (dedup_sql nu b [] acts).
Proof.
  intros Hn Ht Ha. pose proof (plain_ident _ _ Hn) as In. pose proof (ident_func n In) as If. pose proof (plain_ident _ _ (proj1 Ht)) as It.
  unfold trig_text, trig_toks. set (l := dedup_sql nu b [] acts) in *.
  assert (Hb : ∀ s, lex MN (body_text nu b acts +:+ s) = acts_toks nu b (λ _, TPar) l ++ lex MN s) by (intros s; by apply lex_body).
  pose proof lex_indent8 as H8. pose proof lex_indent12 as H12. set (i8 := indent sp8) in *. set (i12 := indent sp12) in *. set (bt := body_text nu b acts) in *.
  pose proof (λ s, lex_whole ut b tr s Ht) as Hw. unfold block_toks. set (ct := cond_text ut b tr) in *. pose proof (λ s, lex_head n tr s In It) as Hh.
  set (on := nl +:+ "    AFTER " +:+ ev_upper (t_ev tr) +:+ " ON " +:+ t_tab tr +:+ nl +:+ "    FOR EACH ROW ") in *. clearbody on ct.
  unfold nl, sp8, sp12. destruct b.
  - rewrite (lex_lit (String "010" "") _ []) by done. cbn [app]. rewrite (lex_lit "CREATE TRIGGER " _ [TId "CREATE"; TId "TRIGGER"]), Hh by done. cbn [app tail head_toks]. do 10 f_equal. destruct (decide (ct = "")); unfold paren, lpar, rpar; rewrite ?str_app_assoc, ?str_app_nil.
    + lits. rewrite H8, Hb. lits. done.
    + lits. rewrite Hw. lits. rewrite H8, Hb. lits. rewrite <- !app_assoc. done.
  - rewrite (lex_lit (String "010" "") _ []) by done. cbn [app]. rewrite lex_func by done. do 7 f_equal. destruct (decide (ct = "")); unfold paren, lpar, rpar; rewrite ?str_app_assoc, ?str_app_nil.
    + lits. rewrite H8, Hb. lits. rewrite Hh, lex_exec by done. rewrite <- ?app_assoc. done.
    + lits. rewrite Hw. lits. rewrite H12, Hb. lits. rewrite Hh, lex_exec by done. repeat first [rewrite <- !app_assoc|progress cbn [app]]. done.
  - rewrite (lex_lit (String "010" "") _ []) by done. cbn [app]. rewrite (lex_lit "CREATE TRIGGER " _ [TId "CREATE"; TId "TRIGGER"]), Hh by done. cbn [app tail head_toks]. do 10 f_equal. destruct (decide (ct = "")); unfold paren, lpar, rpar; rewrite ?str_app_assoc, ?str_app_nil.
    + lits. rewrite H8, Hb. lits. done.
    + lits. rewrite Hw. lits. rewrite H12, Hb. lits. repeat first [rewrite <- !app_assoc|progress cbn [app]]. done.
Qed.
(** No parameter marks outside the statements. *)
Definition nopar (l : list tok) : bool := forallb (λ t, match t with TPar => false | _ => true end) l.
Lemma nopar_app l m : nopar (l ++ m) = nopar l && nopar m.
Proof. apply forallb_app. Qed.
Lemma nopar_paren l : nopar (paren l) = nopar l.
Proof. unfold paren. cbn [nopar forallb]. fold (nopar (l ++ [rpar])). rewrite nopar_app. by destruct (nopar l). Qed.
Lemma nopar_binds l : nopar l = true → binds l [] l.
Proof. intros H. apply binds_none. intros Hin. unfold nopar in H. rewrite forallb_forall in H. apply elem_of_list_In in Hin. by specialize (H _ Hin). Qed.
Lemma nopar_fcmp ut b f : nopar (fcmp_toks ut b f) = true.
Proof. destruct b; cbn; try done. by destruct (ut f). Qed.
Lemma nopar_ors ut b f fs : nopar (or_toks (fc ut b f) (fc ut b <$> fs)) = true.
Proof. revert f. induction fs as [|g fs IH]; intros f; cbn [fmap list_fmap or_toks]; [apply nopar_fcmp|]. rewrite nopar_app. cbn [fc fst]. rewrite nopar_fcmp. apply IH. Qed.
Lemma nopar_fs ut b fs : nopar (fs_toks ut b fs) = true.
Proof. unfold fs_toks. destruct fs as [|f fs]; [by destruct b|]. destruct b; rewrite ?nopar_paren; apply nopar_ors. Qed.
Lemma nopar_ct b ev cf ct : nopar (ct_toks b ev cf ct) = true.
Proof. by destruct b, ev. Qed.
Lemma nopar_whole ut b tr : nopar (whole_toks ut b tr) = true.
Proof.
  unfold whole_toks. destruct b, (t_ev tr), (t_ctf tr); try done; rewrite ?nopar_app, ?nopar_fs; try done; apply nopar_ct.
Qed.
Lemma binds_block nu ut b tr l : binds (block_toks nu ut b tr (λ _, TPar) l) (concat ((λ p : bool * action, act_params p.2) <$> l)) (block_toks nu ut b tr pval l).
Proof.
  unfold block_toks. case_decide; [apply binds_body|]. bc. apply binds_app0; [apply nopar_binds, nopar_whole|]. bc.
  rewrite <- (app_nil_r (concat _)). apply binds_app; [apply binds_body|]. bc. apply binds_nil.
Qed.
Lemma binds_trig nu ut b n tr l : binds (trig_toks nu ut b n tr (λ _, TPar) l) (concat ((λ p : bool * action, act_params p.2) <$> l)) (trig_toks nu ut b n tr pval l).
Proof.
  assert (Hh : binds (head_toks n tr) [] (head_toks n tr)) by (by apply nopar_binds).
  destruct b; cbn [trig_toks].
  - apply binds_app0; [done|]. apply binds_app0; [case_decide; [apply binds_nil|]; bc; apply binds_paren, nopar_binds, nopar_whole|]. bc.
    rewrite <- (app_nil_r (concat _)). apply binds_app; [apply binds_body|]. bc. apply binds_nil.
  - bc. rewrite <- (app_nil_r (concat _)). apply binds_app; [apply binds_block|]. by apply nopar_binds.
  - apply binds_app0; [done|]. bc. rewrite <- (app_nil_r (concat _)). apply binds_app; [apply binds_block|]. by apply nopar_binds.
Qed.

(** ** Parsing the trigger *)
Definition trig_ast (nu ut : string → bool) (b : backend) (n : string) (tr : trigger) (l : list (bool * action)) : ptrig :=
  PTrig n (t_tab tr) (t_ev tr) (whole_exp ut b tr) ((λ p : bool * action, act_ast nu p.2) <$> l).
Lemma parse_head b n tr r : plain b n → plain b (t_tab tr) → p_head b (head_toks n tr ++ r) = Some ((n, (t_ev tr, t_tab tr)), r).
Proof. intros H1 H2. unfold p_head, head_toks. pn. unfold p_event. destruct (t_ev tr); cbn [ev_upper]; by pn. Qed.
Lemma parse_block nu ut b tr c l n r : trig_ok b tr → trig_cond b tr = Ok c → Forall (λ p, names_ok b p.1 p.2) l → 4 * length (block_toks nu ut b tr pval l) < n →
  (is_Some (kw "END" r) ∨ is_Some (kw "RETURN" r)) → kw "IF" r = None →
  p_block b n (block_toks nu ut b tr pval l ++ r) = Some ((whole_exp ut b tr, (λ p : bool * action, act_ast nu p.2) <$> l), r).
Proof.
  intros Ht Hc Hl Hn Hr Hi. unfold p_block, block_toks in *. pose proof (cond_text_empty ut b tr c Hc) as He. destruct (decide (cond_text ut b tr = "")) as [Hd|Hd].
  - apply He in Hd. rewrite Hd. assert (Hk : kw "IF" (acts_toks nu b pval l ++ r) = None).
    { destruct l as [|[q a] l]; [done|]. unfold acts_toks. cbn [fmap list_fmap concat fst snd]. rewrite <- app_assoc. apply act_starts. }
    rewrite Hk. rewrite parse_stmts by done. done.
  - destruct (whole_exp ut b tr) as [e|] eqn:Hw; [|by destruct Hd; apply He]. cbn [length] in Hn. rewrite app_length in Hn. cbn [length] in Hn. rewrite app_length in Hn. cbn [length] in Hn.
    ps. rewrite <- app_assoc. rewrite (parse_whole ut b tr c e) by (done || lia). ps. rewrite <- app_assoc. rewrite parse_stmts; [by ps|done|lia|]. left. cbn [app]. rewrite kw_yes by done. by eexists.
Qed.
Lemma parse_trig nu ut b n tr c l N : plain b n → trig_ok b tr → trig_cond b tr = Ok c → Forall (λ p, names_ok b p.1 p.2) l → 4 * length (trig_toks nu ut b n tr pval l) < N →
  p_trigger b N (trig_toks nu ut b n tr pval l) = Some (trig_ast nu ut b n tr l).
Proof.
  intros Hn Ht Hc Hl HN. pose proof (proj1 Ht) as Hp. pose proof (plain_func b n Hn) as Hf. unfold trig_ast. destruct b; cbn [trig_toks p_trigger] in *.
  - rewrite !app_length in HN. cbn [length] in HN. rewrite app_length in HN. cbn [length] in HN. rewrite parse_head by done. cbn [mbind option_bind fst snd].
    pose proof (cond_text_empty ut SQLite tr c Hc) as He. destruct (decide (cond_text ut SQLite tr = "")) as [Hd|Hd].
    + apply He in Hd. rewrite Hd. ps. rewrite parse_stmts; [by ps|done|lia|]. left. rewrite kw_yes by done. by eexists.
    + destruct (whole_exp ut SQLite tr) as [e|] eqn:Hw; [|by destruct Hd; apply He]. cbn [length] in HN. unfold paren in HN. cbn [length] in HN. rewrite app_length in HN. cbn [length] in HN. ps.
      rewrite (or_chain SQLite (paren (whole_toks ut SQLite tr), e) []); [| | |done..].
      * ps. rewrite parse_stmts; [by ps|done|lia|]. left. rewrite kw_yes by done. by eexists.
      * constructor; [|constructor]. apply term_paren. intros m r Hm. by apply (parse_whole ut SQLite tr c e).
      * cbn [or_toks fst]. unfold paren. cbn [length]. rewrite app_length. cbn [length]. lia.
  - cbn [length] in HN. rewrite app_length in HN. pn. rewrite (parse_block nu ut Postgres tr c); [|done|done|done|lia| |by ps].
    + pn. rewrite parse_head by done. pn. by rewrite decide_True.
    + right. rewrite kw_yes by done. by eexists.
  - rewrite app_length in HN. cbn [length] in HN. rewrite app_length in HN. rewrite parse_head by done. ps. rewrite (parse_block nu ut MySQL tr c); [by ps|done|done|done|lia| |by ps].
    left. rewrite kw_yes by done. by eexists.
Qed.
Lemma read_trig nu ut b n tr c acts : plain b n → trig_ok b tr → trig_cond b tr = Ok c → Forall (λ p, names_ok b p.1 p.2) (dedup_sql nu b [] acts) →
  (b = SQLite → trig_params nu b acts = []) →
  read b (trig_text nu ut b n tr acts) (trig_params nu b acts) = Some (trig_ast nu ut b n tr (dedup_sql nu b [] acts)).
Proof.
  intros Hn Ht Hc Hl Hp. unfold read. rewrite lex_trig by done. unfold trig_params in *. rewrite (binds_bind _ _ _ (binds_trig _ _ _ _ _ _)). cbn [mbind option_bind].
  rewrite decide_False by (intros [-> H]; auto). by apply (parse_trig nu ut b n tr c); [..|lia].
Qed.
