(** * Reading the generated trigger texts. *)
From Verif Require Import Base BaseLemmas Schema TrigSet Exec Conditions Render RenderProps Text Read.
From Coq Require Import Ascii.
Open Scope list_scope.
Local Open Scope nat_scope.

(** ** Characters to tokens *)
Fixpoint lex_run (m : mode) (s : string) : list tok * mode :=
  match s with
  | EmptyString => ([], m)
  | String c s' => let x := lex_step m c in let y := lex_run x.2 s' in (x.1 ++ y.1, y.2)
  end.
Lemma lex_app m l s : lex m (l +:+ s) = (lex_run m l).1 ++ lex (lex_run m l).2 s.
Proof. revert m. induction l as [|c l IH]; intros m; [done|]. rewrite str_app_cons. cbn [lex lex_run]. cbv zeta. cbn [fst snd]. rewrite IH. by rewrite <- app_assoc. Qed.
Lemma lex_lit l s ts : lex_run MN l = (ts, MN) → lex MN (l +:+ s) = ts ++ lex MN s.
Proof. intros H. by rewrite lex_app, H. Qed.
Lemma lex_lit_end l ts : lex_run MN l = (ts, MN) → lex MN l = ts.
Proof. intros H. assert (Hl : l = l +:+ "") by (clear; induction l as [|c l IH]; [done|]; rewrite str_app_cons; by rewrite <- IH). rewrite Hl, lex_app, H. simpl. by rewrite app_nil_r. Qed.
Lemma ident_word c : is_ident_char c = word_char c.
Proof. done. Qed.
Lemma word_no_space c : word_char c = true → is_space c = false.
Proof. unfold word_char, is_space. generalize (code c). intros n H. repeat (rewrite ?orb_true_iff, ?andb_true_iff in H). apply orb_false_iff. rewrite !N.eqb_neq. rewrite !N.leb_le, N.eqb_eq in H. lia. Qed.
Lemma word_no_quote c : word_char c = true → is_quote c = false.
Proof. unfold word_char, is_quote. generalize (code c). intros n H. repeat (rewrite ?orb_true_iff, ?andb_true_iff in H). apply orb_false_iff. rewrite !N.eqb_neq. rewrite !N.leb_le, N.eqb_eq in H. lia. Qed.
Lemma lex_in_word acc w s : all_chars is_ident_char w = true → stops is_ident_char s → lex (MW acc) (w +:+ s) = TId (acc +:+ w) :: lex MN s.
Proof.
  revert acc. induction w as [|c w IH]; intros acc Hw Hs.
  - rewrite str_app_nil. assert (Ha : acc +:+ "" = acc) by (clear; induction acc as [|c l IH]; [done|]; rewrite str_app_cons; by rewrite IH). rewrite Ha.
    destruct s as [|c s]; [done|]. simpl in Hs. rewrite ident_word in Hs. cbn [lex lex_step]. rewrite Hs. done.
  - simpl in Hw. apply andb_true_iff in Hw as [Hc Hw]. rewrite str_app_cons. cbn [lex lex_step]. rewrite <- ident_word, Hc. cbn [fst snd app]. rewrite IH by done. by rewrite str_app_assoc.
Qed.
Lemma lex_word w s : ident w → stops is_ident_char s → lex MN (w +:+ s) = TId w :: lex MN s.
Proof.
  intros [Hne Hw] Hs. destruct w as [|c w]; [done|]. simpl in Hw. apply andb_true_iff in Hw as [Hc Hw]. rewrite str_app_cons. cbn [lex lex_step]. unfold fresh_step.
  rewrite word_no_space, <- ident_word, Hc by (by rewrite <- ident_word). cbn [fst snd app]. rewrite lex_in_word by done. done.
Qed.
Lemma lex_in_quote acc w c s : all_chars is_ident_char w = true → is_quote c = true → lex (MQ acc) (w +:+ String c s) = TQ (acc +:+ w) :: lex MN s.
Proof.
  intros Hw Hq. revert acc. induction w as [|x w IH]; intros acc.
  - rewrite str_app_nil. assert (Ha : acc +:+ "" = acc) by (clear; induction acc as [|c l IH]; [done|]; rewrite str_app_cons; by rewrite IH). rewrite Ha. cbn [lex lex_step]. by rewrite Hq.
  - simpl in Hw. apply andb_true_iff in Hw as [Hc Hw]. rewrite str_app_cons. cbn [lex lex_step]. rewrite ident_word in Hc. rewrite word_no_quote by done.
    destruct (ascii_dec x newline) as [-> |Hx]; [by vm_compute in Hc|]. cbn [fst snd app]. rewrite IH by done. by rewrite str_app_assoc.
Qed.
Lemma lex_q b w s : ident w → lex MN (qn b w +:+ s) = TQ w :: lex MN s.
Proof.
  intros [_ Hw]. rewrite qn_app. destruct b; cbn [lex]; change (lex_step MN "034") with (@nil tok, MQ ""); change (lex_step MN "`") with (@nil tok, MQ "");
    cbn [fst snd app]; by rewrite (lex_in_quote "").
Qed.
Lemma is_num_ident c : ((48 <=? code c) && (code c <=? 57))%N = true → is_ident_char c = true.
Proof. unfold is_ident_char. unfold code. intros ->. done. Qed.
Lemma pretty_N_char_digit n : (n < 10)%N → (48 <= code (pretty_N_char n) /\ code (pretty_N_char n) <= 57)%N /\ (code (pretty_N_char n) - 48 = n)%N.
Proof. intros H. assert (n = 0 \/ n = 1 \/ n = 2 \/ n = 3 \/ n = 4 \/ n = 5 \/ n = 6 \/ n = 7 \/ n = 8 \/ n = 9)%N as Hn by lia. repeat destruct Hn as [-> |Hn]; [vm_compute; split; [split|]; congruence..|]. subst. vm_compute; split; [split|]; congruence. Qed.
Definition digit_char (c : ascii) : bool := ((48 <=? code c) && (code c <=? 57))%N.
Lemma pretty_go_spec n : ∀ s, all_chars digit_char s = true → all_chars digit_char (pretty_N_go n s) = true ∧ digits 0 (pretty_N_go n s) = digits n s.
Proof.
  induction (N.lt_wf_0 n) as [n _ IH]; intros s Hs. destruct (decide (0 < n)%N) as [Hn|Hn].
  - rewrite pretty_N_go_step by done. assert (Hm : (n mod 10 < 10)%N) by (by apply N.mod_lt). destruct (pretty_N_char_digit _ Hm) as [[H1 H2] H3].
    assert (Hd : digit_char (pretty_N_char (n mod 10)) = true) by (unfold digit_char; apply andb_true_iff; by rewrite !N.leb_le).
    destruct (IH (n / 10)%N) with (s := String (pretty_N_char (n mod 10)) s) as [I1 I2]; [apply N.div_lt; done| |].
    { cbn [all_chars]. by rewrite Hd. }
    split; [done|]. rewrite I2. cbn [digits]. unfold digit_char in Hd. rewrite Hd. f_equal. rewrite H3. symmetry. apply N.div_mod. done.
  - assert (n = 0%N) as -> by lia. by rewrite pretty_N_go_0.
Qed.
Lemma pretty_Z_spec (z : Z) : (0 ≤ z)%Z → all_chars digit_char (pretty z) = true ∧ pretty z ≠ "" ∧ number (pretty z) = Some z.
Proof.
  intros Hz. assert (Hpos : ∀ p, pretty (N.pos p) ≠ "" ∧ all_chars digit_char (pretty (N.pos p)) = true ∧ digits 0 (pretty (N.pos p)) = Some (N.pos p)).
  { intros p. unfold pretty, pretty_N. rewrite decide_False by done. destruct (pretty_go_spec (N.pos p) "") as [H1 H2]; [done|]. split; [|done].
    intros He. rewrite He in H2. simpl in H2. congruence. }
  destruct z as [|p|p]; [by vm_compute|..|lia]. change (pretty (Z.pos p)) with (pretty (N.pos p)). destruct (Hpos p) as (H1 & H2 & H3). split; [done|]. split; [done|].
  unfold number. change (pretty p) with (pretty (N.pos p)). destruct (pretty (N.pos p)); [done|]. by rewrite H3.
Qed.
Lemma all_chars_imp (P Q : ascii → bool) s : (∀ c, P c = true → Q c = true) → all_chars P s = true → all_chars Q s = true.
Proof. intros H. induction s as [|c s IH]; [done|]. simpl. rewrite !andb_true_iff. naive_solver. Qed.
Lemma ident_pretty (z : Z) : (0 ≤ z)%Z → ident (pretty z).
Proof. intros Hz. destruct (pretty_Z_spec z Hz) as (H1 & H2 & _). split; [done|]. by eapply all_chars_imp, H1; apply is_num_ident. Qed.
(** Indentation does not matter. *)
Lemma lex_space ind s : all_chars is_space ind = true → lex MN (ind +:+ s) = lex MN s.
Proof. induction ind as [|c ind IH]; [done|]. cbn [all_chars]. intros [Hc Hi]%andb_true_iff. rewrite str_app_cons. cbn [lex lex_step]. unfold fresh_step. rewrite Hc. cbn [fst snd app]. by apply IH. Qed.
Lemma newline_mode m : (lex_step m newline).2 = MN.
Proof. by destruct m. Qed.
Lemma lex_indent ind s r : all_chars is_space ind = true → ∀ m, lex m (indent ind s +:+ r) = lex m (s +:+ r).
Proof.
  intros Hi. induction s as [|c s IH]; intros m; [done|]. cbn [indent]. case_decide as Hc.
  - subst c. change (nl +:+ ind +:+ indent ind s) with (String newline (ind +:+ indent ind s)). change "010"%char with newline. rewrite !str_app_cons. cbn [lex].
    rewrite newline_mode, str_app_assoc, lex_space by done. by rewrite IH.
  - rewrite !str_app_cons. cbn [lex]. by rewrite IH.
Qed.

(** Tokens without the position of the parameters, and with them. *)
Definition binds (raw : list tok) (ps : list val) (ts : list tok) : Prop := ∀ r qs, bind (raw ++ r) (ps ++ qs) = app ts <$> bind r qs.
Lemma binds_nil : binds [] [] [].
Proof. intros r qs. simpl. by destruct (bind r qs). Qed.
Lemma binds_app a p ta b q tb : binds a p ta → binds b q tb → binds (a ++ b) (p ++ q) (ta ++ tb).
Proof. intros H1 H2 r qs. rewrite <- !app_assoc, H1, H2. destruct (bind r qs); [|done]. simpl. by rewrite app_assoc. Qed.
Lemma binds_cons t a p ta : t ≠ TPar → binds a p ta → binds (t :: a) p (t :: ta).
Proof. intros Ht H r qs. destruct t; try done; cbn [bind app]; rewrite H; by destruct (bind r qs). Qed.
Ltac bc := repeat match goal with |- binds (_ :: _) _ (_ :: _) => apply binds_cons; [done|] end.
Lemma binds_par v : binds [TPar] [v] [TVal v].
Proof. intros r qs. simpl. by destruct (bind r qs). Qed.
Lemma binds_none ts : TPar ∉ ts → binds ts [] ts.
Proof. induction ts as [|t ts IH]; [intros _; apply binds_nil|]. intros H. apply binds_cons; [set_solver|]. apply IH. set_solver. Qed.
Lemma binds_bind a p ta : binds a p ta → bind a p = Some ta.
Proof. intros H. specialize (H [] []). rewrite !app_nil_r in H. rewrite H. simpl. by rewrite app_nil_r. Qed.

Lemma binds_snoc t a p ta : t ≠ TPar → binds a p ta → binds (a ++ [t]) p (ta ++ [t]).
Proof. intros Ht H. rewrite <- (app_nil_r p). apply binds_app; [done|]. apply binds_cons; [done|apply binds_nil]. Qed.

(** ** Plain names *)
Lemma kw_yes k w r : String.eqb (upper w) k = true → kw k (TId w :: r) = Some r.
Proof. unfold kw. by intros ->. Qed.
Lemma kw_no k w r : String.eqb (upper w) k = false → kw k (TId w :: r) = None.
Proof. unfold kw. by intros ->. Qed.
Lemma kw_q k w r : kw k (TQ w :: r) = None. Proof. done. Qed.
Lemma kw_sym k c r : kw k (TSym c :: r) = None. Proof. done. Qed.
Lemma kw_val k v r : kw k (TVal v :: r) = None. Proof. done. Qed.
Lemma sym_yes c r : sym c (TSym c :: r) = Some r.
Proof. unfold sym. by destruct (ascii_dec c c). Qed.
Lemma sym_no c c' r : c' ≠ c → sym c (TSym c' :: r) = None.
Proof. unfold sym. by destruct (ascii_dec c' c). Qed.
Lemma sym_id c w r : sym c (TId w :: r) = None. Proof. done. Qed.
Lemma sym_q c w r : sym c (TQ w :: r) = None. Proof. done. Qed.
Lemma sym_val c v r : sym c (TVal v :: r) = None. Proof. done. Qed.
Ltac ps := repeat first
  [ rewrite kw_q | rewrite kw_sym | rewrite kw_val | rewrite sym_yes | rewrite sym_no by discriminate | rewrite sym_id | rewrite sym_q | rewrite sym_val
  | match goal with |- context [kw ?k (TId ?w :: ?r)] => first [rewrite (kw_yes k w r) by reflexivity | rewrite (kw_no k w r) by reflexivity] end
  | progress cbn [mbind option_bind kws syms fst snd app] | progress cbv iota ].
Definition plain (b : backend) (w : string) : Prop := ident w ∧ reserved w = false ∧ number w = None ∧ folded b w = w.
Lemma name_plain b w r : plain b w → name b (TId w :: r) = Some (w, r).
Proof. intros (_ & H1 & H2 & H3). unfold name. by rewrite H1, H2, H3. Qed.
Lemma kw_plain b k w r : plain b w → k ∈ reserved_words → kw k (TId w :: r) = None.
Proof.
  intros (_ & H & _) Hk. unfold kw. destruct (String.eqb (upper w) k) eqn:He; [|done]. exfalso. unfold reserved in H.
  assert (existsb (String.eqb (upper w)) reserved_words = true) as Hx; [|congruence]. apply existsb_exists. exists k. split; [by apply elem_of_list_In|done].
Qed.
Lemma num_word z r : (0 ≤ z)%Z → num (TId (pretty z) :: r) = Some (z, r).
Proof. intros Hz. unfold num. destruct (pretty_Z_spec z Hz) as (_ & _ & ->). done. Qed.
Definition ref_toks (rf : rref) (t : tok) : list tok := [TId (match rf with RNew => "NEW" | ROld => "OLD" end); TSym "."; t].
Definition q_tok (q : bool) (w : string) : tok := if q then TQ w else TId w.
Lemma reference_toks b rf q w r : (q = false → plain b w) → reference b (ref_toks rf (q_tok q w) ++ r) = Some ((rf, w), r).
Proof.
  intros Hq. assert (Hn : name b (q_tok q w :: r) = Some (w, r)) by (destruct q; [done|]; apply name_plain; auto).
  destruct rf; unfold reference, ref_toks; ps; by rewrite Hn.
Qed.
Lemma name_q b q w r : (q = false → plain b w) → name b (q_tok q w :: r) = Some (w, r).
Proof. destruct q; [done|]. intros H. apply name_plain. auto. Qed.

(** ** Conditions *)
(** What may follow a condition. *)
Definition next_ok (r : list tok) : Prop := sym ":" r = None.
Definition term (b : backend) (t : list tok) (e : bexp) : Prop := ∀ n r, 4 * length t ≤ n → next_ok r → p_not b n (t ++ r) = Some (e, r).
Lemma p_or_S b n ts : p_or b (S n) ts = (p ← p_and b n ts; match kw "OR" p.2 with Some r => q ← p_or b n r; Some (BOr p.1 q.1, q.2) | None => Some p end).
Proof. done. Qed.
Lemma p_and_S b n ts : p_and b (S n) ts = (p ← p_not b n ts; match kw "AND" p.2 with Some r => q ← p_and b n r; Some (BAnd p.1 q.1, q.2) | None => Some p end).
Proof. done. Qed.
Lemma p_not_S b n ts : p_not b (S n) ts = match kw "NOT" ts with
    | Some r => p ← p_not b n r; Some (BNot p.1, p.2)
    | None => match sym "(" ts with Some r => p ← p_or b n r; r' ← sym ")" p.2; Some (p.1, r') | None => comparison b ts end end.
Proof. done. Qed.
Fixpoint and_toks (p : list tok * bexp) (l : list (list tok * bexp)) : list tok :=
  match l with [] => p.1 | q :: l' => p.1 ++ TId "AND" :: and_toks q l' end.
Fixpoint and_exp (p : list tok * bexp) (l : list (list tok * bexp)) : bexp :=
  match l with [] => p.2 | q :: l' => BAnd p.2 (and_exp q l') end.
Fixpoint or_toks (p : list tok * bexp) (l : list (list tok * bexp)) : list tok :=
  match l with [] => p.1 | q :: l' => p.1 ++ TId "OR" :: or_toks q l' end.
Fixpoint or_exp (p : list tok * bexp) (l : list (list tok * bexp)) : bexp :=
  match l with [] => p.2 | q :: l' => BOr p.2 (or_exp q l') end.
Definition terms (b : backend) (l : list (list tok * bexp)) : Prop := Forall (λ p, term b p.1 p.2) l.
Lemma and_chain b p l : terms b (p :: l) → ∀ n r, 4 * length (and_toks p l) < n → next_ok r → kw "AND" r = None → p_and b n (and_toks p l ++ r) = Some (and_exp p l, r).
Proof.
  revert p. induction l as [|q l IH]; intros p Ht n r Hn Hr Ha; (destruct n as [|n]; [lia|]); apply Forall_cons in Ht as [Hp Ht]; rewrite p_and_S; cbn [and_toks and_exp] in *.
  - rewrite Hp by (done || lia). ps. by rewrite Ha.
  - rewrite app_length in Hn. cbn [length] in Hn. rewrite <- app_assoc. rewrite Hp; [|lia|done]. ps. rewrite IH; [done|done|lia|done|done].
Qed.
Lemma or_chain b p l : terms b (p :: l) → ∀ n r, 4 * length (or_toks p l) + 1 < n → next_ok r → kw "AND" r = None → kw "OR" r = None → p_or b n (or_toks p l ++ r) = Some (or_exp p l, r).
Proof.
  revert p. induction l as [|q l IH]; intros p Ht n r Hn Hr Ha Ho; (destruct n as [|[|n]]; [lia|lia|]); apply Forall_cons in Ht as [Hp Ht]; rewrite p_or_S, p_and_S; cbn [or_toks or_exp] in *.
  - rewrite Hp by (done || lia). ps. rewrite Ha. ps. by rewrite Ho.
  - rewrite app_length in Hn. cbn [length] in Hn. rewrite <- app_assoc. rewrite Hp; [|lia|done]. ps. rewrite IH; [done|done|lia|done|done|done].
Qed.
Definition lpar : tok := TSym "(". Definition rpar : tok := TSym ")".
Definition paren (t : list tok) : list tok := lpar :: t ++ [rpar].
Lemma term_paren b t e : (∀ n r, 4 * length t + 1 < n → p_or b n (t ++ rpar :: r) = Some (e, rpar :: r)) → term b (paren t) e.
Proof.
  intros H n r Hn Hr. unfold paren in Hn. cbn [length] in Hn. rewrite app_length in Hn. cbn [length] in Hn. destruct n as [|n]; [lia|]. rewrite p_not_S. unfold paren, lpar. ps. rewrite <- app_assoc. cbn [app]. rewrite H by lia. unfold rpar. by ps.
Qed.
Lemma or_paren b p l : terms b (p :: l) → term b (paren (or_toks p l)) (or_exp p l).
Proof. intros Ht. apply term_paren. intros n r Hn. by apply or_chain. Qed.
Lemma and_or b p l : terms b (p :: l) → ∀ n r, 4 * length (and_toks p l) + 1 < n → next_ok r → kw "AND" r = None → kw "OR" r = None → p_or b n (and_toks p l ++ r) = Some (and_exp p l, r).
Proof. intros Ht n r Hn Hr Ha Ho. destruct n as [|n]; [lia|]. rewrite p_or_S. rewrite (and_chain b p l Ht n) by (done || lia). ps. by rewrite Ho. Qed.
Lemma and_paren b p l : terms b (p :: l) → term b (paren (and_toks p l)) (and_exp p l).
Proof. intros Ht. apply term_paren. intros n r Hn. by apply and_or. Qed.
Lemma term_not b t e : term b t e → term b (TId "NOT" :: t) (BNot e).
Proof. intros H n r Hn Hr. cbn [length] in Hn. destruct n as [|n]; [lia|]. rewrite p_not_S. ps. rewrite H; [done|lia|done]. Qed.
Lemma term_cmp b t e : t ≠ [] → (∀ r, kw "NOT" (t ++ r) = None ∧ sym "(" (t ++ r) = None) → (∀ r, next_ok r → comparison b (t ++ r) = Some (e, r)) → term b t e.
Proof. intros H0 H1 H2 n r Hn Hr. destruct t as [|x t]; [done|]. cbn [length] in Hn. destruct n as [|n]; [lia|]. rewrite p_not_S. destruct (H1 r) as [-> ->]. by apply H2. Qed.

(** ** Names, references and numbers in a text *)
Ltac is_lit l := lazymatch l with EmptyString => idtac | String (Ascii _ _ _ _ _ _ _ _) ?l' => is_lit l' | ?x +:+ ?y => is_lit x; is_lit y end.
Ltac lits :=
  repeat match goal with
  | |- context [lex MN (?l +:+ ?s)] =>
      is_lit l;
      let r := eval vm_compute in (lex_run MN l) in
      lazymatch r with
      | (?ts, MN) => rewrite (lex_lit l s ts) by (vm_compute; reflexivity); cbn [app]
      | (?ts, ?m) => lazymatch s with ?l2 +:+ ?s2 => rewrite <- (str_app_assoc l l2 s2) end
      end
  end.
Lemma lex_ref b rf c s : ident c → lex MN (ref_str rf +:+ qn b c +:+ s) = ref_toks rf (TQ c) ++ lex MN s.
Proof. intros Hc. destruct rf; cbn [ref_str]; lits; by rewrite lex_q. Qed.
Definition col_ok (b : backend) (q : bool) (c : string) : Prop := if q then ident c else plain b c.
Lemma col_ok_plain b q c : col_ok b q c → q = false → plain b c.
Proof. by intros H ->. Qed.
Lemma lex_qif b q c s : col_ok b q c → stops is_ident_char s → lex MN (qif b q c +:+ s) = q_tok q c :: lex MN s.
Proof. destruct q; cbn; intros H Hs; [by apply lex_q|]. apply lex_word; [apply H|done]. Qed.
Lemma lex_refif b rf q c s : col_ok b q c → stops is_ident_char s → lex MN (ref_str rf +:+ qif b q c +:+ s) = ref_toks rf (q_tok q c) ++ lex MN s.
Proof. intros Hc Hs. destruct rf; cbn [ref_str]; lits; by rewrite lex_qif. Qed.

(** ** Lookups *)
Definition kind_toks (k : ckind) (p : tok) : list tok :=
  match k with
  | KNull => [TId "IS"; TId "NULL"] | KNotNull => [TId "IS"; TId "NOT"; TId "NULL"] | KEq => [TSym "="; p]
  | KGt => [TSym ">"; p] | KGe => [TSym ">"; TSym "="; p] | KLt => [TSym "<"; p] | KLe => [TSym "<"; TSym "="; p]
  end.
Definition kind_exp (k : ckind) (a : opd) (v : val) : bexp :=
  match k with
  | KNull => BNull a | KNotNull => BNot (BNull a) | KEq => BEq a (OVal v)
  | KGt => BLt (OVal v) a | KGe => BLe (OVal v) a | KLt => BLt a (OVal v) | KLe => BLe a (OVal v)
  end.
Definition kind_pars (k : ckind) (v : val) : list val := match k with KNull | KNotNull => [] | _ => [v] end.
Lemma lex_lit_word l s ts w : lex_run MN l = (ts, MW w) → stops is_ident_char s → lex MN (l +:+ s) = ts ++ TId w :: lex MN s.
Proof.
  intros H Hs. rewrite lex_app, H. cbn [fst snd]. f_equal. pose proof (lex_in_word w "" s) as Hw. rewrite str_app_nil in Hw.
  assert (Ha : w +:+ "" = w) by (clear; induction w as [|c l IH]; [done|]; rewrite str_app_cons; by rewrite IH). rewrite Ha in Hw. by apply Hw.
Qed.
Ltac litw := match goal with |- context [lex MN (?l +:+ ?s)] => is_lit l; let r := eval vm_compute in (lex_run MN l) in
  lazymatch r with (?ts, MW ?w) => rewrite (lex_lit_word l s ts w); [cbn [app]|vm_compute; reflexivity|done] end end.
Lemma lex_kind k s : stops is_ident_char s → lex MN (kind_sql k +:+ s) = kind_toks k TPar ++ lex MN s.
Proof. intros Hs. destruct k; cbn [kind_sql]; lits; try done; by litw. Qed.
Definition has_null (nu : string → bool) (c : cond1) : bool := match kind_of c with KNull | KNotNull => false | _ => nu (c_col c) end.
Definition base_toks (rf : rref) (c : cond1) (p : tok) : list tok := ref_toks rf (TQ (c_col c)) ++ kind_toks (kind_of c) p.
Definition null_toks (rf : rref) (c : cond1) : list tok := ref_toks rf (TQ (c_col c)) ++ kind_toks KNotNull TPar.
Definition cond_toks (nu : string → bool) (rf : rref) (c : cond1) (p : tok) : list tok :=
  base_toks rf c p ++ (if has_null nu c then TId "AND" :: null_toks rf c else []).
Lemma lex_cond nu b rf c s : ident (c_col c) → stops is_ident_char s → lex MN (cond_sql nu b rf c +:+ s) = cond_toks nu rf c TPar ++ lex MN s.
Proof.
  intros Hc Hs. unfold cond_sql, cond_toks, base_toks, has_null, notnull_sql. rewrite !str_app_assoc, lex_ref, <- !app_assoc by done. f_equal.
  assert (Hz : lex MN (kind_sql (kind_of c) +:+ s) = kind_toks (kind_of c) TPar ++ lex MN s) by (by apply lex_kind).
  destruct (kind_of c) eqn:Hk; try (rewrite str_app_nil; exact Hz); (destruct (nu (c_col c)); [|rewrite str_app_nil; exact Hz]);
    rewrite lex_kind by done; f_equal; rewrite !str_app_assoc; lits; (rewrite lex_ref by done);
    litw; done.
Qed.
Lemma binds_ref rf q c a p ta : binds a p ta → binds (ref_toks rf (q_tok q c) ++ a) p (ref_toks rf (q_tok q c) ++ ta).
Proof. intros H. unfold ref_toks. cbn [app]. destruct q; bc; done. Qed.
Lemma binds_cond nu rf c : binds (cond_toks nu rf c TPar) (kind_pars (kind_of c) (c_val c)) (cond_toks nu rf c (TVal (c_val c))).
Proof.
  unfold cond_toks, base_toks. rewrite <- !app_assoc. apply (binds_ref rf true). rewrite <- (app_nil_r (kind_pars _ _)). apply binds_app.
  - destruct (kind_of c); cbn [kind_toks kind_pars]; repeat first [apply binds_par|apply binds_nil|apply binds_cons; [done|]].
  - destruct (has_null nu c); [|apply binds_nil]. apply binds_cons; [done|]. unfold null_toks. apply (binds_ref rf true). cbn. bc. apply binds_nil.
Qed.
(** One lookup and its IS NOT NULL, as terms. *)
Definition atoms (nu : string → bool) (rf : rref) (c : cond1) : list (list tok * bexp) :=
  (base_toks rf c (TVal (c_val c)), kind_exp (kind_of c) (ORef rf (c_col c)) (c_val c)) ::
  (if has_null nu c then [(null_toks rf c, BNot (BNull (ORef rf (c_col c))))] else []).
Lemma operand_ref b rf q c r : (q = false → plain b c) → sym ":" r = None → operand b (ref_toks rf (q_tok q c) ++ r) = Some (ORef rf c, r).
Proof. intros Hq Hr. pose proof (reference_toks b rf q c r Hq) as H. unfold operand. destruct rf; cbn [ref_toks app] in H |- *; rewrite H; ps; by rewrite Hr. Qed.
Lemma operand_val b v r : operand b (TVal v :: r) = Some (OVal v, r).
Proof. done. Qed.
Lemma comparison_kind b rf c k v r : comparison b (ref_toks rf (TQ c) ++ kind_toks k (TVal v) ++ r) = Some (kind_exp k (ORef rf c) v, r).
Proof.
  unfold comparison. rewrite (operand_ref b rf true) by (by destruct k). cbn [mbind option_bind fst snd]. unfold compare.
  destruct k; cbn [kind_toks app]; ps; try done; rewrite operand_val; done.
Qed.
Lemma term_base b rf c : term b (base_toks rf c (TVal (c_val c))) (kind_exp (kind_of c) (ORef rf (c_col c)) (c_val c)).
Proof. apply term_cmp; [by destruct rf|by destruct rf|]. intros r Hr. unfold base_toks. rewrite <- app_assoc. apply comparison_kind. Qed.
Lemma term_null b rf c : term b (null_toks rf c) (BNot (BNull (ORef rf (c_col c)))).
Proof. apply term_cmp; [by destruct rf|by destruct rf|]. intros r Hr. unfold null_toks. rewrite <- app_assoc. apply (comparison_kind b rf (c_col c) KNotNull VNull). Qed.
Lemma terms_atoms b nu rf c : terms b (atoms nu rf c).
Proof. unfold atoms. constructor; [apply term_base|]. destruct (has_null nu c); constructor; [apply term_null|constructor]. Qed.
Definition latoms (nu : string → bool) (rf : rref) (l : list cond1) : list (list tok * bexp) := concat (atoms nu rf <$> l).
Lemma terms_latoms b nu rf l : terms b (latoms nu rf l).
Proof. induction l as [|c l IH]; [constructor|]. unfold latoms, terms. cbn [fmap list_fmap concat]. apply Forall_app. split; [apply terms_atoms|apply IH]. Qed.
Definition conj (l : list (list tok * bexp)) : list tok := concat ((λ q : list tok * bexp, TId "AND" :: q.1) <$> l).
Lemma and_toks_conj p l : and_toks p l = p.1 ++ conj l.
Proof. revert p. induction l as [|q l IH]; intros p; cbn [and_toks]; [by rewrite app_nil_r|]. by rewrite IH. Qed.
Lemma conj_app l m : conj (l ++ m) = conj l ++ conj m.
Proof. unfold conj. by rewrite fmap_app, concat_app. Qed.
Definition conds_toks (nu : string → bool) (rf : rref) (P : cond1 → tok) (l : list cond1) : list tok := concat ((λ c, TId "AND" :: cond_toks nu rf c (P c)) <$> l).
Definition pval (c : cond1) : tok := TVal (c_val c).
Lemma cond_toks_atoms nu rf c : TId "AND" :: cond_toks nu rf c (pval c) = conj (atoms nu rf c).
Proof. unfold conj, atoms, cond_toks, pval. destruct (has_null nu c); cbn; by rewrite ?app_nil_r. Qed.
Lemma conds_toks_atoms nu rf l : conds_toks nu rf pval l = conj (latoms nu rf l).
Proof. induction l as [|c l IH]; [done|]. unfold conds_toks, latoms. cbn [fmap list_fmap concat]. rewrite conj_app, <- cond_toks_atoms. f_equal. apply IH. Qed.
Lemma lex_conds nu b rf l s : Forall cond_ok l → stops is_ident_char s → lex MN (conds_sql nu b rf l +:+ s) = conds_toks nu rf (λ _, TPar) l ++ lex MN s.
Proof.
  intros Hl Hs. induction Hl as [|c l [Hc _] Hl IH]; [done|]. cbn [conds_sql]. rewrite !str_app_assoc. lits. rewrite lex_cond; [|done|by destruct l]. rewrite IH.
  unfold conds_toks. cbn [fmap list_fmap concat app]. by rewrite <- app_assoc.
Qed.
Definition pars (l : list cond1) : list val := concat ((λ c, kind_pars (kind_of c) (c_val c)) <$> l).
Lemma binds_conds nu rf l : binds (conds_toks nu rf (λ _, TPar) l) (pars l) (conds_toks nu rf pval l).
Proof. induction l as [|c l IH]; [apply binds_nil|]. unfold conds_toks, pars. cbn [fmap list_fmap concat]. apply binds_app; [|done]. apply binds_cons; [done|]. apply binds_cond. Qed.
Definition excl_toks (nu : string → bool) (rf : rref) (P : cond1 → tok) (l : list cond1) : list tok :=
  match l with [] => [] | c :: l' => TId "AND" :: TId "NOT" :: paren (cond_toks nu rf c (P c) ++ conds_toks nu rf P l') end.
Lemma lex_excl nu b rf l s : Forall cond_ok l → lex MN (excl_sql nu b rf l +:+ s) = excl_toks nu rf (λ _, TPar) l ++ lex MN s.
Proof.
  destruct l as [|c l]; [done|]. intros [[Hc _] Hl]%Forall_cons. cbn [excl_sql excl_toks]. unfold paren. rewrite !str_app_assoc. lits. rewrite lex_cond; [|done|by destruct l].
  rewrite lex_conds by done. lits. rewrite <- !app_assoc. done.
Qed.
Lemma binds_excl nu rf l : binds (excl_toks nu rf (λ _, TPar) l) (pars l) (excl_toks nu rf pval l).
Proof.
  destruct l as [|c l]; [apply binds_nil|]. cbn [excl_toks]. unfold paren, lpar, rpar. bc. unfold pars. cbn [fmap list_fmap concat].
  apply binds_snoc; [done|]. apply binds_app; [apply binds_cond|apply binds_conds].
Qed.
Definition excl_terms (nu : string → bool) (rf : rref) (l : list cond1) : list (list tok * bexp) :=
  match latoms nu rf l with [] => [] | p :: m => [(TId "NOT" :: paren (and_toks p m), BNot (and_exp p m))] end.
Lemma excl_toks_terms nu rf l : excl_toks nu rf pval l = conj (excl_terms nu rf l).
Proof.
  destruct l as [|c l]; [done|]. unfold excl_terms, latoms. cbn [fmap list_fmap concat atoms app excl_toks]. unfold conj. cbn [fmap list_fmap concat fst]. rewrite app_nil_r. f_equal. f_equal. f_equal.
  rewrite and_toks_conj. cbn [fst]. rewrite conj_app. unfold cond_toks. rewrite <- app_assoc. f_equal.
  rewrite conds_toks_atoms. f_equal. destruct (has_null nu c); [|done]. unfold conj. cbn [fmap list_fmap concat fst]. by rewrite app_nil_r.
Qed.
Lemma terms_excl b nu rf l : terms b (excl_terms nu rf l).
Proof.
  unfold excl_terms. pose proof (terms_latoms b nu rf l) as H. destruct (latoms nu rf l) as [|p m]; [constructor|]. constructor; [|constructor]. cbn [fst snd]. by apply term_not, and_paren.
Qed.
Definition no_nu : string → bool := λ _, false.
(** All terms of filter and exclude. *)
Definition all_terms (nu : string → bool) (rf : rref) (flt excl : list cond1) := latoms no_nu rf flt ++ excl_terms nu rf excl.
Definition filter_terms (nu : string → bool) (rf : rref) (flt excl : list cond1) : list (list tok * bexp) :=
  match all_terms nu rf flt excl with
  | p :: q :: m => [(paren (and_toks p (q :: m)), and_exp p (q :: m))]
  | l => l
  end.
Definition filter_toks (nu : string → bool) (rf : rref) (P : cond1 → tok) (flt excl : list cond1) : list tok :=
  let s := conds_toks no_nu rf P flt ++ excl_toks nu rf P excl in
  if many flt excl then TId "AND" :: paren (tail s) else s.
Lemma lex_filter nu b rf flt excl s : Forall cond_ok flt → Forall cond_ok excl → stops is_ident_char s →
  lex MN (filter_sql nu b rf flt excl +:+ s) = filter_toks nu rf (λ _, TPar) flt excl ++ lex MN s.
Proof.
  intros H1 H2 Hs. unfold filter_sql, filter_toks. destruct (many flt excl) eqn:Hm.
  - destruct flt as [|c l]; [done|]. cbn [conds_sql]. rewrite !str_app_assoc, strip5_and. lits. apply Forall_cons in H1 as [[Hc _] H1].
    rewrite !str_app_assoc. change (λ _, false) with no_nu. rewrite lex_cond; [|done|destruct l; [by destruct excl|done]]. rewrite lex_conds; [|done|by destruct excl].
    rewrite lex_excl by done. lits. unfold conds_toks at 2, paren. cbn [fmap list_fmap concat app tail]. rewrite <- !app_assoc. done.
  - rewrite str_app_assoc, lex_conds, lex_excl; [|done|done|by destruct excl]. by rewrite <- app_assoc.
Qed.
Lemma binds_filter nu rf flt excl : binds (filter_toks nu rf (λ _, TPar) flt excl) (pars flt ++ pars excl) (filter_toks nu rf pval flt excl).
Proof.
  unfold filter_toks. destruct (many flt excl) eqn:Hm.
  - destruct flt as [|c l]; [done|]. unfold conds_toks, paren, lpar, rpar. cbn [fmap list_fmap concat tail app]. bc.
    apply binds_snoc; [done|].
    apply binds_app; [|apply binds_excl]. apply binds_app; [apply binds_cond|apply binds_conds].
  - apply binds_app; [apply binds_conds|apply binds_excl].
Qed.
Lemma latoms_no rf l : latoms no_nu rf l = (λ c, (base_toks rf c (TVal (c_val c)), kind_exp (kind_of c) (ORef rf (c_col c)) (c_val c))) <$> l.
Proof. unfold latoms. induction l as [|c l IH]; [done|]. cbn [fmap list_fmap concat]. rewrite IH. unfold atoms, has_null, no_nu. by destruct (kind_of c). Qed.
Lemma filter_toks_terms nu rf flt excl : filter_toks nu rf pval flt excl = conj (filter_terms nu rf flt excl).
Proof.
  unfold filter_toks. rewrite conds_toks_atoms, excl_toks_terms, <- conj_app. change (latoms no_nu rf flt ++ excl_terms nu rf excl) with (all_terms nu rf flt excl).
  assert (Hm : many flt excl = match all_terms nu rf flt excl with _ :: _ :: _ => true | _ => false end).
  { unfold all_terms. rewrite latoms_no. destruct flt as [|c [|c' l]], excl as [|x m]; done. }
  rewrite Hm. unfold filter_terms. destruct (all_terms nu rf flt excl) as [|p [|q m]]; [done|done|].
  unfold conj. cbn [fmap list_fmap concat tail fst app]. rewrite app_nil_r. f_equal. f_equal. rewrite and_toks_conj. done.
Qed.
Lemma terms_all b nu rf flt excl : terms b (all_terms nu rf flt excl).
Proof. unfold all_terms, terms. apply Forall_app. split; [apply terms_latoms|apply terms_excl]. Qed.
Lemma terms_filter b nu rf flt excl : terms b (filter_terms nu rf flt excl).
Proof. unfold filter_terms. pose proof (terms_all b nu rf flt excl) as H. destruct (all_terms nu rf flt excl) as [|p [|q m]]; [done|done|]. constructor; [|constructor]. cbn [fst snd]. by apply and_paren. Qed.
Lemma pars_params l : pars l = omap cparam l.
Proof. induction l as [|c l IH]; [done|]. unfold pars in *. cbn [fmap list_fmap concat omap list_omap]. rewrite IH. unfold kind_pars, kind_of, cparam. destruct (c_op c), (c_val c) as [|z|]; try done; by destruct z. Qed.
