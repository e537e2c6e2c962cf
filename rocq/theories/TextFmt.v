(** * The generated texts as format strings; texts that cannot be read. *)
From Verif Require Import Base BaseLemmas Schema TrigSet Gen GenLemmas Exec Conditions Render RenderProps Text Read ReadProps ReadStmt ReadTrig ReadMeans ReadGen.
From Coq Require Import Ascii.
Open Scope list_scope.

(** ** Marks and parameters *)
Inductive tmpl : string → list val → Prop :=
  | TNil : tmpl "" []
  | TLit c s ps : c ≠ "%"%char → tmpl s ps → tmpl (String c s) ps
  | TMark v s ps : tmpl s ps → tmpl (String "%" (String "s" s)) (v :: ps).
Lemma tmpl_app s ps t qs : tmpl s ps → tmpl t qs → tmpl (s +:+ t) (ps ++ qs).
Proof. induction 1; intros Ht; rewrite ?str_app_cons, ?str_app_nil; [done|by constructor; auto|by cbn; constructor; auto]. Qed.
Definition nopc (s : string) : bool := all_chars (λ c, negb (Ascii.eqb c "%")) s.
Lemma tmpl_lit s : nopc s = true → tmpl s [].
Proof.
  induction s as [|c s IH]; [constructor|]. cbn. intros [Hc Hs]%andb_true_iff. constructor; [|by apply IH]. intros ->. done.
Qed.
Lemma tmpl_app0 s t qs : nopc s = true → tmpl t qs → tmpl (s +:+ t) qs.
Proof. intros H1 H2. change qs with ([] ++ qs). apply tmpl_app; [by apply tmpl_lit|done]. Qed.
Lemma tmpl_indent ind s ps : nopc ind = true → tmpl s ps → tmpl (indent ind s) ps.
Proof.
  intros Hi. induction 1; cbn [indent]; [constructor| |].
  - destruct (decide _); [|by constructor]. apply tmpl_app0; [done|]. by apply tmpl_app0.
  - destruct (decide _); [done|]. destruct (decide _); [done|]. by constructor.
Qed.
Lemma tmpl_formats str s ps : tmpl s ps → ∃ t, pyformat str s ps = Some t.
Proof.
  induction 1 as [|c s ps Hc _ [t Ht]|v s ps _ [t Ht]]; [by eexists|..].
  - cbn [pyformat]. rewrite decide_False by done. rewrite Ht. by eexists.
  - cbn [pyformat]. rewrite decide_True by done. rewrite decide_True by done. rewrite Ht. by eexists.
Qed.
Lemma tmpl_plain str s ps : tmpl s ps → ps = [] → pyformat str s ps = Some s.
Proof.
  induction 1 as [|c s ps Hc _ IH|v s ps _ IH]; [done|..|done]. intros Hp. cbn [pyformat]. rewrite decide_False by done. by rewrite IH.
Qed.
Lemma nopc_app s t : nopc (s +:+ t) = nopc s && nopc t.
Proof. apply chars_app. Qed.
Lemma nopc_ident s : ident s → nopc s = true.
Proof.
  intros [_ H]. unfold nopc. induction s as [|c s IH]; [done|]. cbn in *. apply andb_true_iff in H as [Hc H]. rewrite IH by done. rewrite andb_true_r. destruct (Ascii.eqb_spec c "%"); [by subst|done].
Qed.
Lemma nopc_qn b s : ident s → nopc (qn b s) = true.
Proof. intros H%nopc_ident. destruct b; cbn [qn]; rewrite !nopc_app, H; done. Qed.
Lemma nopc_qif b q s : col_ok b q s → nopc (qif b q s) = true.
Proof. destruct q; cbn; [by apply nopc_qn|]. intros H%plain_ident. by apply nopc_ident. Qed.
Lemma nopc_pretty (z : Z) : (0 ≤ z)%Z → nopc (pretty z) = true.
Proof. intros. by apply nopc_ident, ident_pretty. Qed.
Ltac npc := repeat first
  [ rewrite nopc_app | rewrite nopc_qn by (assumption || (eapply plain_ident; eassumption)) | rewrite nopc_qif by assumption | rewrite nopc_ident by (assumption || (eapply plain_ident; eassumption))
  | rewrite nopc_pretty by assumption ]; try done.

Lemma tmpl_kind c : tmpl (kind_sql (kind_of c)) (kind_pars (kind_of c) (c_val c)).
Proof. destruct (kind_of c); cbn [kind_sql kind_pars]; repeat first [apply TNil | apply TMark | apply TLit; [discriminate|]]. Qed.
Lemma tmpl_cond nu b rf c : ident (c_col c) → tmpl (cond_sql nu b rf c) (kind_pars (kind_of c) (c_val c)).
Proof.
  intros Hc. unfold cond_sql. apply tmpl_app0; [by destruct rf|]. apply tmpl_app0; [by apply nopc_qn|]. rewrite <- (app_nil_r (kind_pars _ _)). apply tmpl_app; [apply tmpl_kind|].
  apply tmpl_lit. unfold notnull_sql. destruct (kind_of c); try done; (destruct (nu (c_col c)); [|done]); npc; by destruct rf.
Qed.
Lemma tmpl_conds nu b rf l : Forall cond_ok l → tmpl (conds_sql nu b rf l) (pars l).
Proof.
  intros Hl. induction Hl as [|c l [Hc _] Hl IH]; [constructor|]. cbn [conds_sql]. apply tmpl_app0; [done|]. unfold pars. cbn [fmap list_fmap concat]. apply tmpl_app; [by apply tmpl_cond|done].
Qed.
Lemma tmpl_excl nu b rf l : Forall cond_ok l → tmpl (excl_sql nu b rf l) (pars l).
Proof.
  destruct l as [|c l]; [constructor|]. intros [[Hc _] Hl]%Forall_cons. cbn [excl_sql]. apply tmpl_app0; [done|]. unfold pars. cbn [fmap list_fmap concat]. apply tmpl_app; [by apply tmpl_cond|].
  rewrite <- (app_nil_r (concat _)). apply tmpl_app; [by apply tmpl_conds|by apply tmpl_lit].
Qed.
Lemma tmpl_strip s ps : (∃ r, s = " AND " +:+ r) → tmpl s ps → tmpl (strip5 s) ps.
Proof. intros [r ->] H. repeat (rewrite ?str_app_cons, ?str_app_nil in H; inversion H as [|? ? ? _ H'|]; subst; clear H; rename H' into H). rewrite ?str_app_cons, ?str_app_nil. exact H. Qed.
Lemma tmpl_filter nu b rf flt excl : Forall cond_ok flt → Forall cond_ok excl → tmpl (filter_sql nu b rf flt excl) (pars flt ++ pars excl).
Proof.
  intros H1 H2. unfold filter_sql. assert (Ht : tmpl (conds_sql (λ _, false) b rf flt +:+ excl_sql nu b rf excl) (pars flt ++ pars excl)).
  { apply tmpl_app; [by apply tmpl_conds|by apply tmpl_excl]. }
  destruct (many flt excl) eqn:Hm; [|done]. apply tmpl_app0; [done|]. rewrite <- (app_nil_r (pars flt ++ pars excl)). apply tmpl_app; [|by apply tmpl_lit]. apply tmpl_strip; [|done].
  destruct flt as [|c flt]; [done|]. cbn [conds_sql]. eexists. by rewrite !str_app_assoc.
Qed.
Lemma pars_omap l : pars l = omap (λ c, match c_op c, c_val c with LIsNull, _ => None | LExact, VNull => None | _, v => Some v end) l.
Proof.
  induction l as [|c l IH]; [done|]. unfold pars in *. cbn [fmap list_fmap concat]. rewrite IH. cbn [omap list_omap]. unfold kind_of. destruct (c_op c), (c_val c) as [|z|]; try done; by destruct z.
Qed.
Lemma pars_app l k : pars (l ++ k) = pars l ++ pars k.
Proof. unfold pars. by rewrite fmap_app, concat_app. Qed.
Lemma tmpl_select b cs t wc rf rc : nopc cs = true → plain b t → plain b wc → ident rc → nopc (select_sql b cs t wc rf rc) = true.
Proof. intros Hc Ht Hw Hr. unfold select_sql. rewrite !nopc_app, Hc, (nopc_ident t), (nopc_ident wc), nopc_qn by (done || by eapply plain_ident). by destruct rf. Qed.
Lemma nopc_insert b v : nopc v = true → nopc (insert_sql b v) = true.
Proof. intros H. destruct b; cbn [insert_sql]; rewrite !nopc_app, H; done. Qed.
Lemma tmpl_action nu b q a : names_ok b q a → tmpl (action_sql nu b q a) (act_params a).
Proof.
  destruct a as [ct rf c|ct t sc wc rf rc|t c x w]; cbn [names_ok action_sql act_params].
  - intros [Hc Hq]. apply tmpl_lit, nopc_insert. rewrite !nopc_app, nopc_pretty, nopc_qif by done. by destruct b, rf.
  - intros (Hc & Ht & Hs & Hw & Hr). apply tmpl_lit, nopc_insert. assert (Hn : nopc (select_sql b (pretty ct +:+ ", " +:+ qif b q sc) t wc rf rc) = true) by (apply tmpl_select; [npc|done..]).
    destruct b; rewrite ?nopc_app, Hn; done.
  - intros (Ht & Hc & Hx & Hw). assert (Hxp : nopc (expr_sql b c x) = true).
    { destruct x as [| | |rf f|rf f]; cbn [expr_sql]; [by destruct b|npc|npc|npc; by destruct rf..]. }
    do 5 (apply tmpl_app0; [npc|]). apply tmpl_app0; [done|]. apply tmpl_app0; [done|]. destruct w as [c' rf rc flt excl|c' t' sc wc rf rc]; cbn [where_sql].
    + destruct Hw as (H1 & H2 & H3 & H4). do 4 (apply tmpl_app0; [npc; by destruct rf|]). rewrite <- pars_omap, pars_app. by apply tmpl_filter.
    + destruct Hw as (H1 & H2 & H3 & H4 & H5). apply tmpl_lit. apply plain_ident in H1, H3. rewrite !nopc_app, (tmpl_select b sc t' wc rf rc), (nopc_ident c') by (done || by apply nopc_ident). done.
Qed.
Lemma tmpl_join sep l : nopc sep = true → Forall (λ p, tmpl p.1 p.2) l → tmpl (sjoin sep l.*1) (concat l.*2).
Proof.
  intros Hs Hl. induction Hl as [|[s ps] l Hp Hl IH]; [constructor|]. cbn [fst snd] in Hp. destruct l as [|y l]; [cbn; by rewrite app_nil_r|].
  change (tmpl (s +:+ sep +:+ sjoin sep (y :: l).*1) (ps ++ concat (y :: l).*2)). apply tmpl_app; [done|]. by apply tmpl_app0.
Qed.
Lemma tmpl_body nu b acts : Forall (λ p, names_ok b p.1 p.2) (dedup_sql nu b [] acts) → tmpl (body_text nu b acts) (trig_params nu b acts).
Proof.
  intros H. unfold body_text, trig_params. set (l := dedup_sql nu b [] acts) in *.
  pose proof (tmpl_join nl ((λ p : bool * action, (action_sql nu b p.1 p.2 +:+ ";", act_params p.2)) <$> l) eq_refl) as Hj.
  rewrite <- !list_fmap_compose in Hj. apply Hj. apply Forall_fmap. eapply Forall_impl; [exact H|]. intros [q a] Ha. cbn. rewrite <- (app_nil_r (act_params a)).
  apply tmpl_app; [by apply tmpl_action|by apply tmpl_lit].
Qed.
Lemma nopc_sjoin sep l : nopc sep = true → Forall (λ s, nopc s = true) l → nopc (sjoin sep l) = true.
Proof.
  intros Hs Hl. induction Hl as [|s l H Hl IH]; [done|]. destruct l as [|y l]; [done|]. change (nopc (s +:+ sep +:+ sjoin sep (y :: l)) = true). by rewrite !nopc_app, H, Hs, IH.
Qed.
Lemma nopc_cond ut b tr : trig_ok b tr → nopc (cond_text ut b tr) = true.
Proof.
  intros (_ & Hf & Hc). assert (Hfs : nopc (fields_sql ut b (t_fields tr)) = true).
  { assert (Hl : Forall (λ s, nopc s = true) (field_sql ut b <$> t_fields tr)).
    { apply Forall_fmap. eapply Forall_impl; [exact Hf|]. intros f Hi. cbn. destruct b; cbn [field_sql]; [|destruct (ut f)|]; npc. }
    destruct b; cbn [fields_sql]; rewrite ?nopc_app; rewrite nopc_sjoin by done; done. }
  assert (Hcs : ∀ cf, t_ctf tr = Some cf → nopc (ct_sql b (t_ev tr) cf (t_ct tr)) = true).
  { intros cf [Hi Hz]%Hc. unfold ct_sql. destruct b, (t_ev tr); npc. }
  unfold cond_text. destruct b; [| |by destruct (t_ev tr)]; (apply nopc_sjoin; [done|]; apply Forall_app; split; [destruct (t_ev tr); repeat constructor; done|destruct (t_ctf tr); repeat constructor; by apply Hcs]).
Qed.
Lemma nopc_func n : ident n → nopc ("func_" +:+ n) = true.
Proof. intros H. rewrite nopc_app, (nopc_ident n H). done. Qed.
Lemma tmpl_trig nu ut b n tr acts : plain b n → trig_ok b tr → Forall (λ p, names_ok b p.1 p.2) (dedup_sql nu b [] acts) →
  tmpl (trig_text nu ut b n tr acts) (trig_params nu b acts).
Proof.
  intros Hn Ht Hl. pose proof (tmpl_body nu b acts Hl) as Hb. pose proof (nopc_cond ut b tr Ht) as Hc. pose proof (nopc_ident _ (plain_ident _ _ Hn)) as In.
  pose proof (nopc_ident _ (plain_ident _ _ (proj1 Ht))) as It. pose proof (tmpl_indent sp8 _ _ eq_refl Hb) as H8. pose proof (tmpl_indent sp12 _ _ eq_refl Hb) as H12.
  unfold trig_text. set (i8 := indent sp8) in *. set (i12 := indent sp12) in *. set (bt := body_text nu b acts) in *. set (ct := cond_text ut b tr) in *. set (ps := trig_params nu b acts) in *.
  assert (Ho : nopc (nl +:+ "    AFTER " +:+ ev_upper (t_ev tr) +:+ " ON " +:+ t_tab tr +:+ nl +:+ "    FOR EACH ROW ") = true) by (rewrite !nopc_app, It; by destruct (t_ev tr)).
  set (on := nl +:+ "    AFTER " +:+ ev_upper (t_ev tr) +:+ " ON " +:+ t_tab tr +:+ nl +:+ "    FOR EACH ROW ") in *. clearbody on ct i8 i12 bt ps.
  assert (Hr : ∀ s t, tmpl s ps → nopc t = true → tmpl (s +:+ t) ps). { intros s t Hs Hq. rewrite <- (app_nil_r ps). apply tmpl_app; [done|by apply tmpl_lit]. }
  destruct b; rewrite ?str_app_assoc.
  - do 4 (apply tmpl_app0; [done|]). apply tmpl_app0; [case_decide; [done|by rewrite !nopc_app, Hc]|]. do 3 (apply tmpl_app0; [done|]). by apply Hr.
  - do 5 (apply tmpl_app0; [done|]). repeat (apply tmpl_app0; [done|]). apply Hr; [|by rewrite !nopc_app, In, Ho].
    case_decide; [done|]. do 5 (apply tmpl_app0; [done|]). by apply Hr.
  - do 4 (apply tmpl_app0; [done|]). repeat (apply tmpl_app0; [done|]). apply Hr; [|done].
    case_decide; [done|]. repeat (apply tmpl_app0; [done|]). by apply Hr.
Qed.

(** ** Texts that cannot be read *)
Lemma no_or_rpar b n r : p_or b n (rpar :: r) = None.
Proof. destruct n as [|[|[|n]]]; [done..|]. rewrite p_or_S, p_and_S, p_not_S. done. Qed.
Lemma no_or_lpar b ts : (∀ n, p_or b n ts = None) → ∀ n, p_or b n (lpar :: ts) = None.
Proof. intros H [|[|[|n]]]; [done..|]. rewrite p_or_S, p_and_S, p_not_S. unfold lpar. ps. by rewrite H. Qed.
Lemma read_no_fields nu ut b n tr acts : plain b n → trig_ok b tr → Forall (λ p, names_ok b p.1 p.2) (dedup_sql nu b [] acts) →
  b ≠ MySQL → t_ev tr = EvUpd → t_fields tr = [] → read b (trig_text nu ut b n tr acts) (trig_params nu b acts) = None.
Proof.
  intros Hn Ht Hl Hb He Hf. unfold read. rewrite lex_trig by done. unfold trig_params in *. rewrite (binds_bind _ _ _ (binds_trig _ _ _ _ _ _)). cbn [mbind option_bind].
  case_decide; [done|]. set (l := dedup_sql nu b [] acts) in *. pose proof (proj1 Ht) as Hp. pose proof (plain_func b n Hn) as Hfn.
  generalize (4 * length (trig_toks nu ut b n tr pval l) + 8)%nat. intros N.
  assert (Hc : cond_text ut b tr ≠ ""). { unfold cond_text. rewrite He, Hf. by destruct b, (t_ctf tr). }
  assert (Hw : ∃ r, whole_toks ut b tr = lpar :: rpar :: r). { unfold whole_toks. rewrite He, Hf. destruct b, (t_ctf tr); try done; by eexists. }
  destruct Hw as [r Hw]. destruct b; [| |done]; cbn [trig_toks p_trigger].
  - rewrite parse_head by done. cbn [mbind option_bind fst snd]. rewrite decide_False, Hw by done. ps. unfold paren. cbn [app]. rewrite (no_or_lpar SQLite); [done|]. apply no_or_lpar. intros. apply no_or_rpar.
  - pn. unfold p_block, block_toks. rewrite decide_False, Hw by done. ps. rewrite (no_or_lpar Postgres); [done|]. intros. apply no_or_rpar.
Qed.
Lemma read_params nu ut n tr acts : trig_params nu SQLite acts ≠ [] → read SQLite (trig_text nu ut SQLite n tr acts) (trig_params nu SQLite acts) = None.
Proof. intros H. unfold read. destruct (bind _ _); [|done]. cbn [mbind option_bind]. by rewrite decide_True. Qed.
Lemma some_params nu b acts a : a ∈ acts.*2 → act_params a ≠ [] → trig_params nu b acts ≠ [].
Proof.
  intros (p & -> & Hp)%elem_of_list_fmap Ha. destruct (dedup_sql_spec nu b acts []) as (_ & _ & H). destruct (H p Hp) as [?%elem_of_nil|(p' & Hp' & [= _ Hk])]; [done|].
  rewrite <- Hk in Ha. unfold trig_params. apply elem_of_list_split in Hp' as (l1 & l2 & ->). rewrite fmap_app, fmap_cons, concat_app. cbn [concat]. intros [_ [? _]%app_eq_nil]%app_eq_nil. done.
Qed.
Lemma trig_sql_err b tr x : trig_sql b tr = Err x → (b ≠ MySQL ∧ t_ev tr = EvUpd ∧ t_fields tr = []) ∨ (b = SQLite ∧ ∃ a, a ∈ t_acts tr ∧ act_params a ≠ []).
Proof.
  unfold trig_sql. destruct (trig_cond b tr) as [c|y] eqn:Hc; cbn.
  - case_decide; [|done]. destruct (forallb _ _) eqn:E; [done|]. intros _. right. split; [done|].
    destruct (Exists_dec (λ a, act_params a ≠ []) (dedup [] (t_acts tr))) as [Hx|Hx].
    + apply Exists_exists in Hx as (a & Ha & Hn). exists a. split; [|done]. by apply elem_dedup in Ha as [? _].
    + exfalso. apply not_true_iff_false in E. apply E. apply forallb_forall. intros a Ha%elem_of_list_In. apply bool_decide_eq_true. destruct (decide (act_params a = [])) as [|Hn]; [done|].
      destruct Hx. apply Exists_exists. by exists a.
  - intros _. left. unfold trig_cond in Hc. destruct b, (t_ev tr); try done; (case_decide; [by split_and!|done]).
Qed.
Lemma schema_unread b S ts n tr x nu ut acts fn : names_plain b S → build_triggerset b S = Ok ts → (n, tr) ∈ ts → trig_sql b tr = Err x →
  acts.*2 = t_acts tr → plain b fn → read b (trig_text nu ut b fn tr acts) (trig_params nu b acts) = None.
Proof.
  intros HS Hts Hin Hx Ha Hfn. destruct (merged_ok _ _ _ _ _ HS Hts Hin) as [Ho Hn]. destruct (trig_sql_err _ _ _ Hx) as [(H1 & H2 & H3)|[-> (a & H1 & H2)]].
  - apply read_no_fields; try done. apply Forall_forall. intros [q a] Hqa%dedup_sql_in. apply Hn. rewrite <- Ha. apply elem_of_list_fmap. by exists (q, a).
  - apply read_params, (some_params _ _ _ a); [by rewrite Ha|done].
Qed.

(** ** Running a whole trigger *)
Lemma foldM_same {A B C} (R : B → C → Prop) (f : A → B → res A) (g : A → C → res A) l k : Forall2 R l k → (∀ a x y, R x y → f a x = g a y) → ∀ a, foldM f a l = foldM g a k.
Proof. intros H Hf. induction H as [|x y l k Hxy _ IH]; intros a; [done|]. cbn. rewrite (Hf a x y Hxy). destruct (g a y); [apply IH|done]. Qed.
Lemma dedup_sql_keys nu b l : (∀ p p', p ∈ l → p' ∈ l → action_key nu b p = action_key nu b p' ↔ p.2 = p'.2) → (dedup_sql nu b [] l).*2 = dedup [] (l.*2).
Proof.
  intros Hk.
  assert (Hg : ∀ l0 seen, (∀ p, p ∈ l0 → p ∈ l) → (∀ p, p ∈ seen → p ∈ l) → (dedup_sql nu b (action_key nu b <$> seen) l0).*2 = dedup (seen.*2) (l0.*2)).
  { induction l0 as [|p l0 IH]; intros seen H0 Hs; csimpl; [done|]. assert (Hp : p ∈ l) by (apply H0; left).
    assert (Hiff : action_key nu b p ∈ action_key nu b <$> seen ↔ p.2 ∈ seen.*2).
    { rewrite !elem_of_list_fmap. split; intros (p' & Hk' & Hin); exists p'; (split; [|done]); (apply Hk; [done|by apply Hs|done]). }
    destruct (decide (p.2 ∈ seen.*2)) as [Ha|Ha].
    - rewrite decide_True by (by apply Hiff). apply IH; [|done]. intros. apply H0. by right.
    - rewrite decide_False by (by rewrite Hiff). csimpl. f_equal. apply (IH (p :: seen)).
      + intros. apply H0. by right.
      + intros p' [->|Hp']%elem_of_cons; [done|by apply Hs]. }
  apply (Hg l []); [done|by intros ? ?%elem_of_nil].
Qed.

(** ** Checkers *)
Definition identb (s : string) : bool := negb (String.eqb s "") && all_chars is_ident_char s.
Definition plainb (b : backend) (w : string) : bool := identb w && negb (reserved w) && bool_decide (number w = None) && String.eqb (folded b w) w.
Definition cond_okb (c : cond1) : bool := identb (c_col c) && match c_op c, c_val c with LExact, _ | _, VInt _ => true | _, _ => false end.
Definition rel_plainb (b : backend) (r : relation) : bool :=
  match r with
  | RelForward fk | RelBackward fk => plainb b fk
  | RelM2M t c rc => plainb b t && plainb b c && plainb b rc
  | RelGenForward ctc oidc | RelGenBackward ctc oidc => identb ctc && plainb b oidc
  end.
Definition field_plainb (b : backend) (f : field) : bool :=
  identb (f_att f) &&
  match f_kind f with
  | KCallback _ ds _ => forallb (λ dp, rel_plainb b (dep_rel dp)) ds
  | KCacheKey ds => plainb b (f_name f) && forallb (λ dp, rel_plainb b (dep_rel dp)) ds
  | KAgg a => plainb b (f_name f) && identb (ag_fk a) && forallb cond_okb (ag_filter a) && forallb cond_okb (ag_exclude a) &&
      match ag_sum a with Some c => identb c | None => true end
  | _ => true
  end.
Definition names_plainb (b : backend) (S : schema) : bool :=
  forallb (λ m, plainb b (m_table m) && plainb b (m_pk m) && (0 <=? m_ct m)%Z && forallb (field_plainb b) (m_fields m)) (s_models S).
Lemma identb_spec s : identb s = true → ident s.
Proof. intros [H1 H2]%andb_true_iff. split; [|done]. by intros ->. Qed.
Ltac ands := repeat match goal with H : _ && _ = true |- _ => apply andb_true_iff in H as [? ?] end.
Lemma plainb_spec b w : plainb b w = true → plain b w.
Proof. unfold plainb. intros H. ands. split_and!; [by apply identb_spec|by apply negb_true_iff|by apply (bool_decide_eq_true _)|by apply String.eqb_eq]. Qed.
Lemma forallb_Forall {A} (f : A → bool) (P : A → Prop) l : (∀ x, f x = true → P x) → forallb f l = true → Forall P l.
Proof. intros Hf H. apply Forall_forall. intros x Hx%elem_of_list_In. apply Hf. by apply (proj1 (forallb_forall f l) H). Qed.
Lemma cond_okb_spec c : cond_okb c = true → cond_ok c.
Proof. unfold cond_okb. intros H. ands. split; [by apply identb_spec|]. destruct (c_op c); [done|destruct (c_val c); try done; by eexists..]. Qed.
Lemma rel_plainb_spec b r : rel_plainb b r = true → rel_plain b r.
Proof. destruct r; cbn; intros H; ands; repeat match goal with |- _ ∧ _ => split end; by (apply plainb_spec || apply identb_spec). Qed.
Lemma names_plainb_spec b S : names_plainb b S = true → names_plain b S.
Proof.
  intros H m Hm%elem_of_list_In. pose proof (proj1 (forallb_forall _ _) H m Hm) as Hx. cbn in Hx. ands. split; [by apply plainb_spec|]. split; [by apply plainb_spec|]. split; [by apply Z.leb_le|].
  eapply forallb_Forall; [|eassumption]. intros f Hf. unfold field_plainb in Hf. ands. split; [by apply identb_spec|]. destruct (f_kind f) as [| |fn ds sk|a|ds]; try done; ands.
  - eapply forallb_Forall; [|eassumption]. intros. by apply rel_plainb_spec.
  - split; [by apply plainb_spec|]. split; [by apply identb_spec|]. split_and!; [by eapply forallb_Forall; [apply cond_okb_spec|]..|destruct (ag_sum a); [by apply identb_spec|done]].
  - split; [by apply plainb_spec|]. eapply forallb_Forall; [|eassumption]. intros. by apply rel_plainb_spec.
Qed.
