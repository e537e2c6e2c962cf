(** * The triggers of an aggregate field add exactly the change of the aggregate. *)
From Verif Require Import Base BaseLemmas Schema TrigSet Gen Exec Orm Spec SpecAgg Engine GenLemmas Marking Invariant Agg.

Section agg.
Context (b : backend) (S : schema) (rand : nat → Z) (imm : bool) (depth : nat) (E : env) (l : list trigger).
Context (Hwf : wf_schema S) (HE : mk_env b S rand imm depth = Ok E) (Hl : gen_all S = Ok l) (Hnames : names_ok b l).
Context (m : model) (f : field) (a : agg) (rel : model) (Haf : agg_link S m f a rel).
Notation T := (m_table m).
Notation R := (m_table rel).
Notation c := (f_col f).

Lemma rel_in : rel ∈ s_models S.
Proof. by destruct (find_model_in _ _ _ (al_rel _ _ _ _ _ Haf)). Qed.
Lemma f_name_col : f_name f = c.
Proof.
  destruct (wf_name _ _ (wf_models _ Hwf _ (al_model _ _ _ _ _ Haf)) _ (al_field _ _ _ _ _ Haf)) as [Hp|]; [|done].
  unfold plain_or_callback in Hp. by rewrite (al_kind _ _ _ _ _ Haf) in Hp.
Qed.
Lemma cols_not_pk x : x ∈ agg_cols a → x ≠ e_pk E R.
Proof.
  intros Hx ->. destruct (al_cols _ _ _ _ _ Haf _ Hx) as [(g & Hg & Hc) _]. rewrite (pk_table b S rand imm depth E l Hwf HE Hl) in Hc by apply rel_in.
  apply (wf_pkcol _ _ (wf_models _ Hwf _ rel_in)). apply elem_of_list_fmap. by exists g.
Qed.
Lemma cell_col k r x : x ∈ agg_cols a → cell (e_pk E R) k r x = col r x.
Proof. intros Hx. unfold cell. rewrite decide_False; [done|]. by apply cols_not_pk. Qed.

(** ** The two actions *)
Definition inc_x : vexpr := match ag_sum a with None => XInc | Some s => XAdd RNew s end.
Definition dec_x : vexpr := match ag_sum a with None => XDec | Some s => XSub ROld s end.
Definition inc : action := AUpd T c inc_x (WEq (m_pk m) RNew (ag_fk a) (ag_filter a) (ag_exclude a)).
Definition dec : action := AUpd T c dec_x (WEq (m_pk m) ROld (ag_fk a) (ag_filter a) (ag_exclude a)).
Lemma inc_dec : inc ≠ dec. Proof. done. Qed.
Definition trU : trigger := model_trigger rel (m_ct m) (ag_skip a) EvUpd [inc; dec].
Definition trI : trigger := model_trigger rel (m_ct m) (ag_skip a) EvIns [inc].
Definition trD : trigger := model_trigger rel (m_ct m) (ag_skip a) EvDel [dec].
Lemma agg_trigs : agg_triggers m rel (f_name f) a = [trU; trI; trD].
Proof. unfold agg_triggers. by rewrite f_name_col. Qed.
Lemma tr_in tr : tr ∈ [trU; trI; trD] → tr ∈ l.
Proof.
  rewrite <- agg_trigs. intros H. apply (origin_spec S l Hwf Hl). destruct Haf. eapply or_agg; eauto.
Qed.

Ltac cases_in H := repeat (apply elem_of_cons in H as [->|H]); try (by apply elem_of_nil in H).
Ltac not_in H := repeat (apply elem_of_cons in H as [H|H]; [discriminate H|]); by apply elem_of_nil in H.
Lemma upd_origin tr x w : tr ∈ l → AUpd T c x w ∈ t_acts tr → tr ∈ [trU; trI; trD].
Proof.
  intros Htr Ha. apply (origin_spec S l Hwf Hl) in Htr. pose proof (wf_models _ Hwf _ (al_model _ _ _ _ _ Haf)) as W.
  assert (Hsame : ∀ m' f' , m' ∈ s_models S → f' ∈ m_fields m' → m_table m' = T → f_name f' = c → ¬ plain_or_callback f' → m' = m ∧ f' = f).
  { intros m' f' Hm' Hf' Ht Hn Hp. assert (m' = m) as -> by (eapply table_inj; [exact Hwf|done|apply Haf|done]). split; [done|].
    destruct (wf_name _ _ W _ Hf') as [?|Hc']; [done|]. eapply NoDup_fmap_eq; [apply (wf_cols _ _ W)|done|apply Haf|congruence]. }
  destruct Htr as [m' f' fn ds sk Hm' Hf' Hk Hb Hi|m' f' fn ds sk dp o Hm' Hf' Hk Hdp Hfo Hi|m' f' ds dp o Hm' Hf' Hk Hdp Hfo Hi|m' f' a' rel' Hm' Hf' Hk Hfo Hi].
  - exfalso. unfold cb_self_triggers in Hi. cases_in Hi; simpl in Ha; not_in Ha.
  - exfalso. unfold cb_dep_triggers in Hi. destruct (dep_rel dp); cases_in Hi; simpl in Ha; not_in Ha.
  - exfalso. assert (Hp : ¬ plain_or_callback f') by (unfold plain_or_callback; rewrite Hk; tauto).
    assert (Hu : T = m_table m' ∧ c = f_name f').
    { unfold ck_dep_triggers in Hi. destruct (dep_rel dp); cases_in Hi; simpl in Ha; 
      repeat (apply elem_of_cons in Ha as [Hq|Ha]; [injection Hq; intros; by split|]); by apply elem_of_nil in Ha. }
    destruct Hu as [Ht Hc]. destruct (Hsame _ _ Hm' Hf') as [-> ->]; [done..|]. pose proof (al_kind _ _ _ _ _ Haf). congruence.
  - assert (Hp : ¬ plain_or_callback f') by (unfold plain_or_callback; rewrite Hk; tauto).
    assert (Hu : T = m_table m' ∧ c = f_name f').
    { unfold agg_triggers in Hi. cases_in Hi; simpl in Ha; 
      repeat (apply elem_of_cons in Ha as [Hq|Ha]; [injection Hq; intros; by split|]); by apply elem_of_nil in Ha. }
    destruct Hu as [Ht Hc]. destruct (Hsame _ _ Hm' Hf') as [-> ->]; [done..|].
    assert (a' = a) as -> by (pose proof (al_kind _ _ _ _ _ Haf); congruence).
    assert (rel' = rel) as -> by (pose proof (al_rel _ _ _ _ _ Haf); congruence). by rewrite agg_trigs in Hi.
Qed.

Lemma upd_installed it x w : it ∈ e_trigs E → AUpd T c x w ∈ i_acts it →
  ∃ tr, tr ∈ [trU; trI; trD] ∧ i_name it = trig_name b tr ∧ i_tab it = R ∧ i_ev it = t_ev tr ∧ AUpd T c x w ∈ t_acts tr.
Proof.
  intros Hit Ha. destruct (io_sound _ _ _ (E_inst b S rand imm depth E l HE Hl) _ Hit) as (tr1 & Htr1 & Hn & Ht & Hev & _ & _ & Hacts).
  destruct (Hacts _ Ha) as (tr2 & Htr2 & Hn2 & Ha2). pose proof (upd_origin _ _ _ Htr2 Ha2) as Hin.
  destruct (Hnames _ _ Htr2 Htr1 Hn2) as (H1 & H2 & _). exists tr2. split_and!; [done|congruence| |congruence|done].
  rewrite Ht, <- H1. by cases_in Hin.
Qed.
Lemma upd_action it x w : it ∈ e_trigs E → AUpd T c x w ∈ i_acts it → AUpd T c x w = inc ∨ AUpd T c x w = dec.
Proof.
  intros Hit Ha. destruct (upd_installed _ _ _ Hit Ha) as (tr & Htr & _ & _ & _ & Hin). cases_in Htr; simpl in Hin; cases_in Hin; auto.
Qed.
Lemma inc_installed it : it ∈ e_trigs E → inc ∈ i_acts it → i_tab it = R ∧
  ((i_ev it = EvUpd ∧ i_name it = trig_name b trU) ∨ (i_ev it = EvIns ∧ i_name it = trig_name b trI)).
Proof.
  intros Hit Ha. destruct (upd_installed _ _ _ Hit Ha) as (tr & Htr & Hn & Ht & Hev & Hin). split; [done|].
  apply elem_of_cons in Htr as [->|Htr]; [by left|]. apply elem_of_cons in Htr as [->|Htr]; [by right|]. exfalso. cases_in Htr.
  simpl in Hin. apply elem_of_list_singleton in Hin. by injection Hin.
Qed.
Lemma dec_installed it : it ∈ e_trigs E → dec ∈ i_acts it → i_tab it = R ∧
  ((i_ev it = EvUpd ∧ i_name it = trig_name b trU) ∨ (i_ev it = EvDel ∧ i_name it = trig_name b trD)).
Proof.
  intros Hit Ha. destruct (upd_installed _ _ _ Hit Ha) as (tr & Htr & Hn & Ht & Hev & Hin). split; [done|].
  apply elem_of_cons in Htr as [->|Htr]; [by left|]. apply elem_of_cons in Htr as [->|Htr]; [|cases_in Htr; by right].
  exfalso. simpl in Hin. apply elem_of_list_singleton in Hin. by injection Hin.
Qed.

(** The condition of the installed trigger holds whenever the aggregate can change. *)
Lemma inst_cond tr e : tr ∈ [trU; trI; trD] → ev_tab e = R → ev_kind e = t_ev tr →
  ∃ it, it ∈ e_trigs E ∧ i_name it = trig_name b tr ∧ i_tab it = R ∧ i_ev it = t_ev tr ∧ (∀ x, x ∈ t_acts tr → x ∈ i_acts it) ∧
    (cond_holds E e (i_cond it) = false → t_ev tr = EvUpd ∧ ∀ x, tracked S rel x → ref_val E e ROld x = ref_val E e RNew x).
Proof.
  intros Htr Het Hek. pose proof (tr_in _ Htr) as Hin.
  assert (Hex : ∃ x, x ∈ t_acts tr) by (cases_in Htr; eexists; left). destruct Hex as [x0 Hx0].
  destruct (io_complete _ _ _ (E_inst b S rand imm depth E l HE Hl) _ _ Hin Hx0) as (it & tr1 & Hit & Htr1 & Hn & Hn1 & Hit1 & Hie & Hc & Hina).
  destruct (Hnames _ _ Htr1 Hin Hn1) as (Htab & Hev & Hgen).
  assert (HtR : t_tab tr = R) by (by cases_in Htr). assert (Hctf : t_ctf tr = None) by (by cases_in Htr).
  exists it. split; [done|]. split; [done|]. split; [congruence|]. split; [congruence|]. split.
  - intros x Hx. destruct (io_complete _ _ _ (E_inst b S rand imm depth E l HE Hl) _ _ Hin Hx) as (it' & tr1' & Hit' & _ & Hn' & _ & _ & _ & _ & Hina').
    assert (it' = it) as ->; [|done]. eapply NoDup_fmap_eq; [apply (io_names _ _ _ (E_inst b S rand imm depth E l HE Hl))|done|done|congruence].
  - intros Hf. 
    assert (Hsh : i_cond it = CTrue ∨ (t_ev tr = EvUpd ∧ i_cond it = CFields (t_fields tr1))).
    { unfold trig_cond in Hc. rewrite Hev in Hc. destruct (decide (b = MySQL)) as [->|Hb].
      - destruct (t_ev tr) eqn:He; [injection Hc as <-; by left| |injection Hc as <-; by left].
        injection Hc as <-. case_decide; [by left|by right].
      - destruct (Hgen Hb) as [Hg _]. rewrite Hctf in Hg. rewrite Hg in Hc.
        destruct b; [| |done]; (destruct (t_ev tr) eqn:He; [injection Hc as <-; by left| |injection Hc as <-; by left]);
          (case_decide; [done|]); injection Hc as <-; by right. }
    destruct Hsh as [Hsh|[Hu Hsh]]; rewrite Hsh in Hf; [done|]. split; [done|]. intros x Hx.
    apply (tracked_fields S l Hwf Hl rel x tr1 rel_in) in Hx; [|done|congruence|congruence].
    destruct (decide (ref_val E e ROld x = ref_val E e RNew x)) as [|Hne]; [done|]. exfalso.
    assert (Ht : cond_holds E e (CFields (t_fields tr1)) = true); [|congruence].
    simpl. apply existsb_exists. exists x. split; [by apply elem_of_list_In|]. apply negb_true_iff. by apply bool_decide_false.
Qed.

(** ** What an event contributes *)
Definition delta (e : event) (k : Z) : Z := if decide (ev_tab e = R) then oc a (ev_new e) k - oc a (ev_old e) k else 0.
Definition eff (e : event) (x : action) (k : Z) : Z :=
  if decide (x = inc) then oc a (ev_new e) k else if decide (x = dec) then - oc a (ev_old e) k else 0.

(** [Rz z d d']: column [c] of every row k of [T] grew by [z k]. *)
Definition Rz (z : Z → Z) (d d' : db) : Prop := ∀ k r v, getrow d T k = Some r → col r c = VInt v →
  ∃ r', getrow d' T k = Some r' ∧ col r' c = VInt (v + z k).
Definition Z0 : Z → Z := λ _, 0.
Lemma Rz_tabs d d' : d_tabs d' = d_tabs d → Rz Z0 d d'.
Proof. intros H k r v Hr Hv. exists r. unfold getrow, tab, Z0 in *. rewrite H. split; [done|]. by rewrite Z.add_0_r. Qed.
Lemma Rz_refl d : Rz Z0 d d. Proof. by apply Rz_tabs. Qed.
Lemma Rz_trans z1 z2 x y w : Rz z1 x y → Rz z2 y w → Rz (λ k, z1 k + z2 k) x w.
Proof.
  intros H1 H2 k r v Hr Hv. destruct (H1 _ _ _ Hr Hv) as (r1 & Hr1 & Hv1). destruct (H2 _ _ _ Hr1 Hv1) as (r2 & Hr2 & Hv2).
  exists r2. split; [done|]. by rewrite Z.add_assoc.
Qed.
Lemma Rz_ext z1 z2 d d' : (∀ k r, getrow d T k = Some r → z1 k = z2 k) → Rz z1 d d' → Rz z2 d d'.
Proof. intros He H k r v Hr Hv. destruct (H _ _ _ Hr Hv) as (r' & ? & ?). exists r'. by rewrite <- (He _ _ Hr). Qed.
Lemma Rz_trans0 x y w : Rz Z0 x y → Rz Z0 y w → Rz Z0 x w.
Proof. intros H1 H2. eapply Rz_ext; [|by eapply Rz_trans]. done. Qed.
Lemma foldM_Rz {B} (g : db → B → res db) (z : B → Z → Z) xs : (∀ x d d', x ∈ xs → g d x = Ok d' → Rz (z x) d d') →
  ∀ d d', foldM g d xs = Ok d' → Rz (λ k, zsum (λ x, z x k) xs) d d'.
Proof.
  induction xs as [|x xs IH]; intros Hg d d' H; [injection H as <-; apply Rz_refl|].
  rewrite foldM_cons in H. inv_bind H. eapply Rz_ext; [|eapply Rz_trans; [apply (Hg x); [left|exact H0]|apply IH; [|exact H]]]; [done|].
  intros y d1 d2 Hy. apply Hg. by right.
Qed.
Lemma apply_all_Rz t cs (z : change → Z → Z) :
  (∀ ch d d' evs, ch ∈ cs → apply_change E t d ch = Ok (d', evs) → Rz (z ch) d d' ∧ ∀ e, e ∈ evs → ∀ k, delta e k = 0) →
  ∀ d d' evs, apply_all E t cs d = Ok (d', evs) → Rz (λ k, zsum (λ ch, z ch k) cs) d d' ∧ ∀ e, e ∈ evs → ∀ k, delta e k = 0.
Proof.
  induction cs as [|ch cs IH]; intros Hc d d' evs H; [injection H as <- <-; split; [apply Rz_refl|by intros ? ?%elem_of_nil]|].
  rewrite apply_all_cons in H. inv_bind H. destruct a0 as [d1 e1]. simpl in H. inv_bind H. destruct a0 as [d2 e2]. simpl in H. injection H as <- <-.
  destruct (Hc ch _ _ _ ltac:(left) H0) as [R1 D1]. destruct (IH ltac:(intros; eapply Hc; [by right|done]) _ _ _ H1) as [R2 D2]. split.
  - eapply Rz_ext; [|eapply Rz_trans; [exact R1|exact R2]]. done.
  - intros e [He|He]%elem_of_app; auto.
Qed.
Lemma stmt_Rz fr t cs (z : change → Z → Z) d d' :
  (∀ ch d d' evs, ch ∈ cs → apply_change E t d ch = Ok (d', evs) → Rz (z ch) d d' ∧ ∀ e, e ∈ evs → ∀ k, delta e k = 0) →
  (∀ d e d', (∀ k, delta e k = 0) → fr d e = Ok d' → Rz Z0 d d') →
  run_stmt E fr t cs d = Ok d' → Rz (λ k, zsum (λ ch, z ch k) cs) d d'.
Proof.
  intros Hc Hf H.
  assert (Hb : ∀ cs' d d', (∀ ch, ch ∈ cs' → ch ∈ cs) → run_batch E fr t cs' d = Ok d' → Rz (λ k, zsum (λ ch, z ch k) cs') d d').
  { clear d d' H. intros cs' d d' Hin H. unfold run_batch in H. inv_bind H. destruct a0 as [d1 evs]. simpl in H.
    apply (apply_all_Rz t cs' z) in H0 as [R1 D1]; [|intros; eapply Hc; [by apply Hin|done]].
    assert (R2 : Rz Z0 d1 d').
    { eapply (foldM_rel (Rz Z0)); [apply Rz_refl|apply Rz_trans0| |exact H]. intros x e y He. apply Hf. by apply D1. }
    eapply Rz_ext; [|eapply Rz_trans; [exact R1|exact R2]]. intros. unfold Z0. lia. }
  assert (Hs : foldM (λ d ch, run_batch E fr t [ch] d) d cs = Ok d' → Rz (λ k, zsum (λ ch, z ch k) cs) d d').
  { clear H. intros H. eapply (foldM_Rz _ z); [|exact H]. intros ch d1 d2 Hch Hr. eapply Rz_ext; [|eapply (Hb [ch]); [|exact Hr]].
    - intros. simpl. lia.
    - by intros ? ->%elem_of_list_singleton. }
  unfold run_stmt in H. destruct (e_be E); auto.
Qed.

(** ** The amount of an update *)
(** The amount added by an action of the aggregate. *)
Definition amount (x : action) (e : event) : Z :=
  if decide (x = inc) then match ev_new e with Some r => weight a r | None => 0 end
  else match ev_old e with Some r => - weight a r | None => 0 end.
Lemma arith_ok v w s res : arith (VInt v) w s = Ok res → ∃ z, w = VInt z ∧ res = VInt (v + s * z).
Proof. destruct w; simpl; try done. case_decide; [done|]. intros [= <-]. eauto. Qed.
Lemma expr_amount e ex w d v p : ev_tab e = R → (AUpd T c ex w = inc ∧ is_Some (ev_new e) ∨ AUpd T c ex w = dec ∧ is_Some (ev_old e)) →
  expr_val E e ex d (VInt v) = Ok p → p.1 = VInt (v + amount (AUpd T c ex w) e).
Proof.
  intros Het Hx Hv. unfold amount, weight. destruct Hx as [[Hx [r Hr]]|[Hx [r Hr]]].
  - rewrite decide_True by done. rewrite Hr. injection Hx as Hex _. rewrite Hex in Hv. unfold inc_x in Hv.
    destruct (ag_sum a) as [s|] eqn:Hs; cbn [expr_val] in Hv; inv_bind Hv; injection Hv as <-; apply arith_ok in Hv0 as (z & Hz & ->).
    + unfold ref_val in Hz. unfold ev_new in Hr. rewrite Hr, Het, cell_col in Hz by (right; rewrite !elem_of_app, Hs; right; right; left).
      rewrite Hz. cbn [fst summand]. f_equal; lia.
    + injection Hz as <-. cbn [fst]. f_equal; lia.
  - rewrite decide_False by (rewrite Hx; intros Hq; by apply inc_dec). rewrite Hr. injection Hx as Hex _. rewrite Hex in Hv. unfold dec_x in Hv.
    destruct (ag_sum a) as [s|] eqn:Hs; cbn [expr_val] in Hv; inv_bind Hv; injection Hv as <-; apply arith_ok in Hv0 as (z & Hz & ->).
    + unfold ref_val in Hz. unfold ev_old in Hr. rewrite Hr, Het, cell_col in Hz by (right; rewrite !elem_of_app, Hs; right; right; left).
      rewrite Hz. cbn [fst summand]. f_equal; lia.
    + injection Hz as <-. cbn [fst]. f_equal; lia.
Qed.
Lemma pk_T : e_pk E T = m_pk m. Proof. eapply pk_table; eauto. apply Haf. Qed.
Lemma c_not_pk : c ≠ m_pk m.
Proof.
  intros Hc. apply (wf_pkcol _ _ (wf_models _ Hwf _ (al_model _ _ _ _ _ Haf))). apply elem_of_list_fmap. exists f. split; [done|apply Haf].
Qed.
Lemma where_contrib e d k r rf (o : option row) : ev_tab e = R → ev_row e rf = o →
  where_holds E d e T k r (WEq (m_pk m) rf (ag_fk a) (ag_filter a) (ag_exclude a)) = true ↔
  ∃ x, o = Some x ∧ col x (ag_fk a) = VInt k ∧ selected a x.
Proof.
  intros Het Hrow. simpl. rewrite andb_true_iff. unfold cell at 1. rewrite pk_T, decide_True by done.
  destruct o as [x|].
  - assert (Hc : ∀ y, y ∈ agg_cols a → ref_val E e rf y = col x y).
    { intros y Hy. unfold ref_val. rewrite Hrow, Het. by apply cell_col. }
    rewrite (passes_spec a (ref_val E e rf) x Hc). rewrite (Hc (ag_fk a)) by left. split.
    + intros [H1 H2]. exists x. split_and!; [done| |done]. destruct (col x (ag_fk a)); try done. simpl in H1. apply bool_decide_eq_true in H1. congruence.
    + intros (x' & [= <-] & H1 & H2). rewrite H1. simpl. split; [by apply bool_decide_true|done].
  - unfold ref_val at 1. rewrite Hrow. simpl. split; [by intros []|naive_solver].
Qed.
Lemma keys_sum {B} (key : B → Z) (xs : list B) (v : Z) k : NoDup (key <$> xs) →
  zsum (λ x, if decide (k = key x) then v else 0) xs = if decide (k ∈ key <$> xs) then v else 0.
Proof.
  induction xs as [|x xs IH]; intros Hnd; [done|]. csimpl in *. apply NoDup_cons in Hnd as [Hn Hnd].
  rewrite IH by done. destruct (decide (k = key x)) as [->|Hne].
  - rewrite (decide_False (P := key x ∈ key <$> xs)) by done. rewrite decide_True by left. lia.
  - destruct (decide (k ∈ key <$> xs)); [rewrite decide_True by (by right); lia|]. rewrite decide_False; [lia|]. rewrite elem_of_cons. naive_solver.
Qed.

(** The two cases of an update of the aggregate, and what they add. *)
Lemma upd_case it e ex w : it ∈ e_trigs E → AUpd T c ex w ∈ i_acts it → ev_tab e = i_tab it → ev_kind e = i_ev it →
  ev_tab e = R ∧ (AUpd T c ex w = inc ∧ is_Some (ev_new e) ∨ AUpd T c ex w = dec ∧ is_Some (ev_old e)).
Proof.
  intros Hit Hx Het Hek. destruct (upd_installed _ _ _ Hit Hx) as (tr & Htr & Hn & Ht & Hev & Hin). split; [congruence|].
  destruct (ev_cases e) as [(r & Hk & _ & Hr)|[(o & r & Hk & Ho & Hr)|(o & Hk & Ho & _)]]; rewrite Hk in Hek; rewrite <- Hek in Hev.
  - left. cases_in Htr; try done. simpl in Hin. apply elem_of_list_singleton in Hin. by eauto.
  - cases_in Htr; try done. simpl in Hin. apply elem_of_cons in Hin as [->|Hin]; [left; by eauto|]. apply elem_of_list_singleton in Hin. right; by eauto.
  - right. cases_in Htr; try done. simpl in Hin. apply elem_of_list_singleton in Hin. by eauto.
Qed.
Lemma upd_amounts e ex w d k r : ev_tab e = R → (AUpd T c ex w = inc ∧ is_Some (ev_new e) ∨ AUpd T c ex w = dec ∧ is_Some (ev_old e)) →
  getrow d T k = Some r →
  zsum (λ ch, if decide (k = ch_key ch) then amount (AUpd T c ex w) e else 0) (upd_changes E e d T c ex w) = eff e (AUpd T c ex w) k.
Proof.
  intros HeR Hcase Hr. rewrite keys_sum by apply upd_changes_nodup.
  assert (Hk : k ∈ ch_key <$> upd_changes E e d T c ex w ↔ where_holds E d e T k r w = true).
  { unfold upd_changes. rewrite <- list_fmap_compose, elem_of_list_fmap. split.
    - intros ([k' r'] & -> & Hin')%id. apply elem_of_list_filter in Hin' as [Hw Hin']. apply elem_of_map_to_list in Hin'.
      simpl in *. unfold getrow in Hr. rewrite Hr in Hin'. injection Hin' as <-. done.
    - intros Hw. exists (k, r). split; [done|]. apply elem_of_list_filter. split; [done|]. by apply elem_of_map_to_list. }
  unfold eff, amount, oc, contrib. destruct Hcase as [[Hq [n Hn']]|[Hq [o Ho]]].
  - do 2 rewrite (decide_True (P := AUpd T c ex w = inc)) by done. rewrite Hn'.
     assert (w = WEq (m_pk m) RNew (ag_fk a) (ag_filter a) (ag_exclude a)) as -> by (injection Hq; intros; done).
     rewrite (where_contrib e d k r RNew (Some n)) in Hk by done.
     destruct (decide (col n (ag_fk a) = VInt k ∧ selected a n)); [rewrite decide_True by naive_solver; done|rewrite decide_False; [done|naive_solver]].
  - rewrite (decide_False (P := AUpd T c ex w = inc)) by (rewrite Hq; intros Hz; by apply inc_dec).
     rewrite (decide_False (P := AUpd T c ex w = inc)) by (rewrite Hq; intros Hz; by apply inc_dec).
     rewrite (decide_True (P := AUpd T c ex w = dec)) by done. rewrite Ho.
     assert (w = WEq (m_pk m) ROld (ag_fk a) (ag_filter a) (ag_exclude a)) as -> by (injection Hq; intros; done).
     rewrite (where_contrib e d k r ROld (Some o)) in Hk by done.
     destruct (decide (col o (ag_fk a) = VInt k ∧ selected a o)); [rewrite decide_True by naive_solver; done|rewrite decide_False; [lia|naive_solver]].
Qed.

Lemma acts_sum e acts k : NoDup acts → zsum (λ x, eff e x k) acts =
  (if decide (inc ∈ acts) then oc a (ev_new e) k else 0) - (if decide (dec ∈ acts) then oc a (ev_old e) k else 0).
Proof.
  induction 1 as [|x acts Hn Hnd IH]; [done|]. simpl. rewrite IH. unfold eff.
  destruct (decide (x = inc)) as [->|H1].
  - rewrite (decide_False (P := inc ∈ acts)) by done. rewrite (decide_True (P := inc ∈ inc :: acts)) by left.
    assert (Hd : dec ∈ inc :: acts ↔ dec ∈ acts) by (rewrite elem_of_cons; split; [intros [Hq|]; [by destruct (inc_dec)|done]|by right]).
    destruct (decide (dec ∈ acts)), (decide (dec ∈ inc :: acts)); try tauto; lia.
  - destruct (decide (x = dec)) as [->|H2].
    + rewrite (decide_False (P := dec ∈ acts)) by done. rewrite (decide_True (P := dec ∈ dec :: acts)) by left.
      assert (Hd : inc ∈ dec :: acts ↔ inc ∈ acts) by (rewrite elem_of_cons; split; [intros [Hq|]; [by destruct (inc_dec)|done]|by right]).
      destruct (decide (inc ∈ acts)), (decide (inc ∈ dec :: acts)); try tauto; lia.
    + assert (Hd : inc ∈ x :: acts ↔ inc ∈ acts) by (rewrite elem_of_cons; naive_solver).
      assert (Hd' : dec ∈ x :: acts ↔ dec ∈ acts) by (rewrite elem_of_cons; naive_solver).
      destruct (decide (inc ∈ acts)), (decide (inc ∈ x :: acts)); try tauto; destruct (decide (dec ∈ acts)), (decide (dec ∈ x :: acts)); try tauto; lia.
Qed.
Lemma it_nodup it : it ∈ e_trigs E → NoDup (i_acts it).
Proof. intros Hit. by destruct (io_sound _ _ _ (E_inst b S rand imm depth E l HE Hl) _ Hit) as (? & _ & _ & _ & _ & _ & ? & _). Qed.

(** Total effect of the triggers applying to an event. *)
Definition total (act : actives) (e : event) (k : Z) : Z :=
  zsum (λ it, if trig_applies E act e it then zsum (λ x, eff e x k) (i_acts it) else 0) (e_trigs E).
Lemma total_delta act e k : (unblocked E act R ∨ ∀ k, delta e k = 0) → total act e k = delta e k.
Proof.
  intros Hub. unfold total, delta. case_decide as Het.
  2: { apply zsum_zero. intros it Hit. destruct (trig_applies E act e it) eqn:Hap; [|done].
       unfold trig_applies in Hap. rewrite !andb_true_iff, !bool_decide_eq_true in Hap. destruct Hap as (((H1 & H2) & _) & _).
       rewrite acts_sum by by apply it_nodup. rewrite !decide_False; [done|..]; intros Hin.
       - apply dec_installed in Hin as [? _]; [congruence|done].
       - apply inc_installed in Hin as [? _]; [congruence|done]. }
  assert (Hmain : ∀ tr, tr ∈ [trU; trI; trD] → ev_kind e = t_ev tr →
    (∀ it, it ∈ e_trigs E → i_tab it = R → i_ev it = t_ev tr → (inc ∈ i_acts it ∨ dec ∈ i_acts it) → i_name it = trig_name b tr) →
    zsum (λ it, if trig_applies E act e it then zsum (λ x, eff e x k) (i_acts it) else 0) (e_trigs E) = 
      oc a (ev_new e) k - oc a (ev_old e) k).
  { intros tr Htr Hk Hun. destruct (inst_cond tr e Htr Het Hk) as (it & Hit & Hn & Ht & Hev & Hacts & Hcond).
    rewrite (zsum_single i_name _ _ it (io_names _ _ _ (E_inst b S rand imm depth E l HE Hl)) Hit).
    - assert (Hsum : zsum (λ x, eff e x k) (i_acts it) = oc a (ev_new e) k - oc a (ev_old e) k).
      { rewrite acts_sum by by apply it_nodup.
        destruct (ev_cases e) as [(r & Hk' & Ho & Hr)|[(o & r & Hk' & Ho & Hr)|(o & Hk' & Ho & Hr)]]; rewrite Hk' in Hk.
        - rewrite Ho. cases_in Htr; try done. rewrite (decide_True (P := inc ∈ i_acts it)) by (apply Hacts; left). simpl. by case_decide.
        - cases_in Htr; try done. rewrite (decide_True (P := inc ∈ i_acts it)) by (apply Hacts; left).
          rewrite (decide_True (P := dec ∈ i_acts it)) by (apply Hacts; right; left). done.
        - rewrite Hr. cases_in Htr; try done. rewrite (decide_True (P := dec ∈ i_acts it)) by (apply Hacts; left). simpl. by case_decide. }
      destruct (trig_applies E act e it) eqn:Hap; [done|].
      destruct Hub as [Hub|H0].
      2: { specialize (H0 k). unfold delta in H0. rewrite decide_True in H0 by done. lia. }
      unfold trig_applies in Hap. rewrite Ht, Hev, <- Het, <- Hk in Hap. rewrite !bool_decide_true in Hap by done. cbn [andb] in Hap.
      assert (Hbl : negb (bool_decide (e_be E = SQLite) && bool_decide (i_name it ∈ act.*1)) = true).
      { apply negb_true_iff, not_true_is_false. rewrite andb_true_iff, !bool_decide_eq_true. intros [H1 H2]. by eapply Hub. }
      rewrite Hbl in Hap. cbn [andb] in Hap. apply Hcond in Hap as [Hu Htk].
      destruct (ev_cases e) as [(r & Hk' & Ho & Hr)|[(o & r & Hk' & Ho & Hr)|(o & Hk' & Ho & Hr)]]; try congruence.
      rewrite Ho, Hr. simpl. rewrite (contrib_cols a k o r); [lia|]. intros x Hx.
      pose proof (al_cols _ _ _ _ _ Haf _ Hx) as Htx. apply Htk in Htx.
      rewrite (ref_old E e R (ev_key e) o) in Htx; [|done|done|done|by apply cols_not_pk].
      rewrite (ref_new E e R (ev_key e) r) in Htx; [done|done|done|done|by apply cols_not_pk].
    - intros it' Hit' Hne. destruct (trig_applies E act e it') eqn:Hap; [|done].
      unfold trig_applies in Hap. rewrite !andb_true_iff, !bool_decide_eq_true in Hap. destruct Hap as (((H1 & H2) & _) & _).
      rewrite acts_sum by by apply it_nodup. rewrite !decide_False; [done|..]; intros Hin; apply Hne; rewrite Hn; (eapply Hun; [done|congruence|congruence|auto]). }
  destruct (ev_cases e) as [(r & Hk & Ho & Hr)|[(o & r & Hk & Ho & Hr)|(o & Hk & Ho & Hr)]].
  - apply (Hmain trI); [right; left|done|]. intros it Hit Ht Hev [Hi|Hi]; simpl in Hev.
    + by destruct (inc_installed _ Hit Hi) as [_ [[? ?]|[? ?]]]; [congruence|].
    + by destruct (dec_installed _ Hit Hi) as [_ [[? ?]|[? ?]]]; congruence.
  - apply (Hmain trU); [left|done|]. intros it Hit Ht Hev [Hi|Hi]; simpl in Hev.
    + by destruct (inc_installed _ Hit Hi) as [_ [[? ?]|[? ?]]]; [|congruence].
    + by destruct (dec_installed _ Hit Hi) as [_ [[? ?]|[? ?]]]; [|congruence].
  - apply (Hmain trD); [right; right; left|done|]. intros it Hit Ht Hev [Hi|Hi]; simpl in Hev.
    + by destruct (inc_installed _ Hit Hi) as [_ [[? ?]|[? ?]]]; congruence.
    + by destruct (dec_installed _ Hit Hi) as [_ [[? ?]|[? ?]]]; [congruence|].
Qed.

(** ** One row updated by a trigger

    From here on no trigger writes the columns the aggregate looks at. *)
Context (Hnt : ∀ x, x ∈ agg_cols a → ¬ tw E R x).
Lemma upd_event_delta t x o v k : tw E t x → ∀ k', delta (Ev t k (ChUpd o (<[x := v]> o))) k' = 0.
Proof.
  intros Htw k'. unfold delta. simpl. case_decide as Ht; [|done]. subst t. rewrite (contrib_cols a k' o); [lia|].
  intros y Hy. rewrite col_insert_ne; [done|]. intros ->. by eapply Hnt.
Qed.
Lemma upd_change_other e d0 t x ex w ch d d' evs : tw E t x → (t, x) ≠ (T, c) → ch ∈ upd_changes E e d0 t x ex w →
  apply_change E t d ch = Ok (d', evs) → Rz Z0 d d' ∧ ∀ e, e ∈ evs → ∀ k, delta e k = 0.
Proof.
  intros Htw Hne Hin H. apply elem_of_list_fmap in Hin as ([k r] & -> & _). simpl in H.
  destruct (getrow d t k) as [o|] eqn:Ho; [|injection H as <- <-; split; [apply Rz_refl|by intros ? ?%elem_of_nil]].
  inv_bind H. inv_bind H0. injection H0 as <-. destruct a1 as [v d1]. simpl in H. apply expr_val_db in H1.
  case_match; [|done]. injection H as <- <-. split.
  - intros k' r' v' Hr' Hv'. rewrite getrow_put. assert (Hg : getrow d1 T k' = getrow d T k') by (by destruct H1; subst).
    case_decide as Hd.
    + destruct Hd as [Hd1 Hd2]; subst t k'. rewrite Ho in Hr'. injection Hr' as ->. eexists. split; [done|]. rewrite col_insert_ne by congruence.
      unfold Z0. by rewrite Z.add_0_r.
    + exists r'. rewrite Hg. split; [done|]. unfold Z0. by rewrite Z.add_0_r.
  - intros e' ->%elem_of_list_singleton. by apply upd_event_delta.
Qed.
Lemma upd_change_agg it e d0 ex w ch d d' evs : it ∈ e_trigs E → AUpd T c ex w ∈ i_acts it → ev_tab e = R →
  (AUpd T c ex w = inc ∧ is_Some (ev_new e) ∨ AUpd T c ex w = dec ∧ is_Some (ev_old e)) →
  ch ∈ upd_changes E e d0 T c ex w → apply_change E T d ch = Ok (d', evs) →
  Rz (λ k, if decide (k = ch_key ch) then amount (AUpd T c ex w) e else 0) d d' ∧ ∀ e, e ∈ evs → ∀ k, delta e k = 0.
Proof.
  intros Hit Hact Het Hx Hin H. apply elem_of_list_fmap in Hin as ([k r] & -> & _). simpl in H.
  destruct (getrow d T k) as [o|] eqn:Ho.
  - inv_bind H. inv_bind H0. injection H0 as <-. destruct a1 as [v d1]. simpl in H.
    pose proof H1 as Hdb. apply expr_val_db in Hdb.
    case_match; [|done]. injection H as <- <-. split.
    + intros k' r' v' Hr' Hv'. rewrite getrow_put. assert (Hg : getrow d1 T k' = getrow d T k') by (by destruct Hdb; subst).
      simpl. destruct (decide (k' = k)) as [->|Hn].
      * rewrite decide_True by done. rewrite Ho in Hr'. injection Hr' as ->. eexists. split; [done|]. rewrite col_insert_eq.
        unfold cell in H1. rewrite pk_T, decide_False, Hv' in H1 by apply c_not_pk. by apply (expr_amount e ex w) in H1.
      * rewrite decide_False by naive_solver. exists r'. rewrite Hg. split; [done|]. by rewrite Z.add_0_r.
    + intros e' ->%elem_of_list_singleton. apply upd_event_delta. by exists it, ex, w.
  - injection H as <- <-. split; [|by intros ? ?%elem_of_nil]. intros k' r' v' Hr' Hv'. simpl. case_decide; [congruence|].
    exists r'. split; [done|]. by rewrite Z.add_0_r.
Qed.

Lemma action_Rz fr act it e x d d' : it ∈ e_trigs E → x ∈ i_acts it → ev_tab e = i_tab it → ev_kind e = i_ev it →
  (∀ d e d', (∀ k, delta e k = 0) → fr d e = Ok d' → Rz Z0 d d') →
  run_action E fr act e d x = Ok d' → Rz (eff e x) d d'.
Proof.
  intros Hit Hx Het Hek Hfr H. destruct x as [ct rf y|ct t sc wc rf rc|t y ex w]; simpl in H.
  - injection H as <-. eapply Rz_ext; [|by apply Rz_tabs]. intros. unfold eff. by rewrite !decide_False.
  - injection H as <-. eapply Rz_ext; [|by apply Rz_tabs]. intros. unfold eff. by rewrite !decide_False.
  - case_decide; [done|]. destruct (decide ((t, y) = (T, c))) as [[= -> ->]|Hne].
    + destruct (upd_case it e ex w Hit Hx Het Hek) as [HeR Hcase].
      eapply Rz_ext; [|eapply (stmt_Rz fr T _ (λ ch k, if decide (k = ch_key ch) then amount (AUpd T c ex w) e else 0)); [|exact Hfr|exact H]].
      * intros k r Hr. cbv beta. by apply (upd_amounts e ex w d k r).
      * intros. by eapply upd_change_agg.
    + eapply Rz_ext; [|eapply (stmt_Rz fr t _ (λ _ _, 0)); [|exact Hfr|exact H]].
      * intros k r _. rewrite zsum_zero by done. unfold eff. rewrite !decide_False; [done|..]; intros Hq; injection Hq; congruence.
      * intros. eapply upd_change_other; eauto. by exists it, ex, w.
Qed.

Lemma fire_agg n : ∀ act d e d', (unblocked E act R ∨ ∀ k, delta e k = 0) → fire E n act d e = Ok d' → Rz (delta e) d d'.
Proof.
  induction n as [|n IH]; intros act d e d' Hub H; [done|]. simpl in H.
  eapply Rz_ext; [intros k r _; apply (total_delta act e k Hub)|].
  eapply (foldM_Rz _ (λ it k, if trig_applies E act e it then zsum (λ x, eff e x k) (i_acts it) else 0)); [|exact H].
  intros it d1 d2 Hit Hx. simpl in Hx. destruct (trig_applies E act e it) eqn:Hap; [|injection Hx as <-; apply Rz_refl].
  unfold trig_applies in Hap. rewrite !andb_true_iff, !bool_decide_eq_true in Hap. destruct Hap as (((H1 & H2) & _) & _).
  eapply (foldM_Rz _ (eff e)); [|exact Hx]. intros x d3 d4 Hxa Hr. eapply action_Rz; [exact Hit|done|done|done| |exact Hr].
  intros d5 e5 d6 Hz Hf. eapply Rz_ext; [|eapply IH; [|exact Hf]]; [|by right]. intros k r _. apply Hz.
Qed.
End agg.

Lemma cols_not_tw b S rand imm depth E l : wf_schema S → mk_env b S rand imm depth = Ok E → gen_all S = Ok l →
  ∀ m f a rel, agg_field S m f a rel → ∀ x, x ∈ agg_cols a → ¬ tw E (m_table rel) x.
Proof.
  intros Hwf HE Hl m f a rel Haf x Hx. eapply column_not_tw; eauto.
  - by eapply rel_in, agg_field_link.
  - by apply (af_cols _ _ _ _ _ Haf).
Qed.
