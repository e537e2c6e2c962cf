(** * The triggers of aggregate fields never violate CHECK (column >= 0). *)
From Verif Require Import Base BaseLemmas Schema TrigSet Gen Exec Orm Flush Machine Spec SpecAgg Engine GenLemmas Marking Conditions Invariant Settle Sessions Frame Hist Merge Agg AggEngine AggOps.

Section check.
Context (b : backend) (S : schema) (rand : nat → Z) (depth : nat) (E : env) (l : list trigger).
Context (Hwf : wf_schema S) (HE : mk_env b S rand true depth = Ok E) (Hl : gen_all S = Ok l) (Hnames : names_ok b l).
Context (Hall : all_agg S).

Definition vals (m : model) (f : field) (P : Z → Z → Prop) (d : db) : Prop := ∀ k r,
  getrow d (m_table m) k = Some r → ∃ v, col r (f_col f) = VInt v ∧ P k v.
Definition ok (d : db) : Prop := ∀ m f a rel, agg_field S m f a rel → vals m f (λ _ v, 0 ≤ v) d.
Definition wok (d : db) : Prop := ∀ m f a rel, agg_field S m f a rel → ∀ j r, getrow d (m_table rel) j = Some r → 0 ≤ weight a r.
Definition ewok (e : event) : Prop := ∀ m f a rel, agg_field S m f a rel → ev_tab e = m_table rel → ∀ r,
  ev_old e = Some r ∨ ev_new e = Some r → 0 ≤ weight a r.
Definition edelta0 (e : event) : Prop := ∀ m f a rel, agg_field S m f a rel → ∀ k, delta a rel e k = 0.
Definition okd (e : event) (d : db) : Prop := ∀ m f a rel, agg_field S m f a rel →
  vals m f (λ k v, 0 ≤ v ∧ 0 ≤ v + delta a rel e k) d.
Definition Rz0 (d d' : db) : Prop := skel E d d' ∧ ∀ m f a rel, agg_field S m f a rel → Rz m f Z0 d d'.

Lemma weight_cols a r r' : (∀ x, x ∈ agg_cols a → col r' x = col r x) → weight a r' = weight a r.
Proof. intros H. unfold weight. destruct (ag_sum a) eqn:Hs; [|done]. rewrite H; [done|]. unfold agg_cols. rewrite Hs. right. rewrite !elem_of_app. right. right. left. Qed.
Lemma oc_nonneg a o k : (∀ r, o = Some r → 0 ≤ weight a r) → 0 ≤ oc a o k.
Proof. intros H. destruct o as [r|]; simpl; [|done]. unfold contrib. case_decide; [by apply H|done]. Qed.
Lemma wok_skel d d' : skel E d d' → wok d → wok d'.
Proof.
  intros Hs Hw m f a rel Haf j r' Hr'. destruct (getrow d (m_table rel) j) as [r|] eqn:Hr; [|by rewrite (skel_none E _ _ _ _ Hs Hr) in Hr'].
  destruct (skel_row b S rand depth E l Hwf HE Hl m f a rel Haf _ _ _ _ Hs Hr) as (r2 & Hr2 & Hx). rewrite Hr2 in Hr'. injection Hr' as <-.
  rewrite (weight_cols a r r2 Hx). by eapply Hw.
Qed.
Lemma ok_Rz0 d d' : Rz0 d d' → ok d → ok d'.
Proof.
  intros [Hs Hz] Ho m f a rel Haf k r' Hr'. destruct (getrow d (m_table m) k) as [r|] eqn:Hr; [|by rewrite (skel_none E _ _ _ _ Hs Hr) in Hr'].
  destruct (Ho _ _ _ _ Haf _ _ Hr) as (v & Hv & Hp). destruct (Hz _ _ _ _ Haf _ _ _ Hr Hv) as (r2 & Hr2 & Hv2). rewrite Hr2 in Hr'. injection Hr' as <-.
  exists (v + 0). split; [done|lia].
Qed.
Lemma Rz0_trans x y z : Rz0 x y → Rz0 y z → Rz0 x z.
Proof. intros [H1 H2] [H3 H4]. split; [by eapply skel_trans|]. intros m f a rel Haf. eapply Rz_trans0; eauto. Qed.
Lemma Rz0_refl x : Rz0 x x.
Proof. split; [apply skel_refl|]. intros. apply Rz_refl. Qed.
Lemma agg_inj m f a rel m' f' a' rel' : agg_field S m f a rel → agg_field S m' f' a' rel' → m_table m = m_table m' → f_col f = f_col f' →
  m = m' ∧ f = f' ∧ a = a' ∧ rel = rel'.
Proof.
  intros H H' Ht Hc. assert (m = m') as <- by (eapply table_inj; [exact Hwf|apply H|apply H'|done]).
  assert (f = f') as <-.
  { eapply NoDup_fmap_eq; [apply (wf_cols _ _ (wf_models _ Hwf _ (af_model _ _ _ _ _ H)))|apply H|apply H'|done]. }
  assert (a = a') as <- by (pose proof (af_kind _ _ _ _ _ H); pose proof (af_kind _ _ _ _ _ H'); congruence).
  assert (rel = rel') as <- by (pose proof (af_rel _ _ _ _ _ H); pose proof (af_rel _ _ _ _ _ H'); congruence). done.
Qed.
Ltac cases_in H := repeat (apply elem_of_cons in H as [->|H]); try (by apply elem_of_nil in H).
Ltac not_in H := repeat (apply elem_of_cons in H as [H|H]; [discriminate H|]); by apply elem_of_nil in H.
Lemma upd_kind it t x ex w : it ∈ e_trigs E → AUpd t x ex w ∈ i_acts it →
  ex = XRand ∨ ∃ m f a rel, agg_field S m f a rel ∧ t = m_table m ∧ x = f_col f.
Proof.
  intros Hit Ha. destruct (io_sound _ _ _ (E_inst b S rand true depth E l HE Hl) _ Hit) as (tr1 & _ & _ & _ & _ & _ & _ & Hacts).
  destruct (Hacts _ Ha) as (tr2 & Htr2 & _ & Hin). apply (origin_spec S l Hwf Hl) in Htr2.
  destruct Htr2 as [m' f' fn ds sk Hm' Hf' Hk Hb Hi|m' f' fn ds sk dp o Hm' Hf' Hk Hdp Hfo Hi|m' f' ds dp o Hm' Hf' Hk Hdp Hfo Hi|m' f' a' rel' Hm' Hf' Hk Hfo Hi].
  - exfalso. unfold cb_self_triggers in Hi. cases_in Hi; simpl in Hin; not_in Hin.
  - exfalso. unfold cb_dep_triggers in Hi. destruct (dep_rel dp); cases_in Hi; simpl in Hin; not_in Hin.
  - left. unfold ck_dep_triggers in Hi. destruct (dep_rel dp); cases_in Hi; simpl in Hin;
      repeat (apply elem_of_cons in Hin as [Hq|Hin]; [injection Hq; intros; done|]); by apply elem_of_nil in Hin.
  - right. destruct (Hall _ _ _ Hm' Hf' Hk) as [rel2 Haf]. exists m', f', a', rel2. split; [done|].
    rewrite <- (f_name_col S Hwf m' f' a' rel2 Haf).
    unfold agg_triggers in Hi. cases_in Hi; simpl in Hin;
      repeat (apply elem_of_cons in Hin as [Hq|Hin]; [injection Hq; intros; by split|]); by apply elem_of_nil in Hin.
Qed.
Lemma arith_check v w s : arith (VInt v) w s = Err ECheck → ∃ z, w = VInt z ∧ v + s * z < 0.
Proof. destruct w; simpl; try done. case_decide; [|done]. eauto. Qed.

(** ** One trigger update *)
Section upd.
Context (it : itrig) (e : event) (t x : string) (ex : vexpr) (w : whr).
Context (Hit : it ∈ e_trigs E) (Hin : AUpd t x ex w ∈ i_acts it) (Het : ev_tab e = i_tab it) (Hek : ev_kind e = i_ev it).

Lemma upd_case m f a rel : agg_field S m f a rel → t = m_table m → x = f_col f → ev_tab e = m_table rel ∧
  (AUpd t x ex w = inc m f a ∧ is_Some (ev_new e) ∨ AUpd t x ex w = dec m f a ∧ is_Some (ev_old e)).
Proof.
  intros Haf -> ->. destruct (upd_installed b S rand true depth E l Hwf HE Hl Hnames m f a rel Haf _ _ _ Hit Hin) as (tr & Htr & Hn & Ht & Hev & Hi).
  split; [congruence|].
  destruct (ev_cases e) as [(r & Hk & _ & Hr)|[(o & r & Hk & Ho & Hr)|(o & Hk & Ho & _)]]; rewrite Hk in Hek; rewrite <- Hek in Hev.
  - left. cases_in Htr; try done. simpl in Hi. apply elem_of_list_singleton in Hi. by eauto.
  - cases_in Htr; try done. simpl in Hi. apply elem_of_cons in Hi as [->|Hi]; [left; by eauto|]. apply elem_of_list_singleton in Hi. right; by eauto.
  - right. cases_in Htr; try done. simpl in Hi. apply elem_of_list_singleton in Hi. by eauto.
Qed.
Lemma rand_not_agg m f a rel : agg_field S m f a rel → t = m_table m → x = f_col f → ex ≠ XRand.
Proof.
  intros Haf -> ->. intros ->. destruct (upd_action b S rand true depth E l Hwf HE Hl Hnames m f a rel Haf _ _ _ Hit Hin) as [H|H];
    unfold inc, dec, inc_x, dec_x in H; destruct (ag_sum a); by injection H.
Qed.
Lemma expr_nocheck m f a rel d v : agg_field S m f a rel → t = m_table m → x = f_col f →
  expr_val E e ex d (VInt v) = Err ECheck → v + amount m f a (AUpd t x ex w) e < 0.
Proof.
  intros Haf Ht Hx Hv. destruct (upd_case _ _ _ _ Haf Ht Hx) as [HeR Hcase]. unfold amount, weight.
  assert (Herr : ∀ (r : res val), rbind r (λ v, Ok (v, d)) = Err ECheck → r = Err ECheck) by (by intros [?|?]; [|intros [= ->]]).
  destruct Hcase as [[Hq [r Hr]]|[Hq [r Hr]]].
  - rewrite decide_True by done. rewrite Hr. injection Hq as _ _ Hex _. rewrite Hex in Hv. unfold inc_x in Hv.
    destruct (ag_sum a) as [s|] eqn:Hs; cbn [expr_val] in Hv; apply Herr, arith_check in Hv as (z & Hz & Hlt).
    + unfold ref_val in Hz. unfold ev_new in Hr. rewrite Hr, HeR in Hz.
      rewrite (cell_col b S rand true depth E l Hwf HE Hl m f a rel Haf) in Hz by (right; rewrite !elem_of_app, Hs; right; right; left).
      rewrite Hz. cbn [summand]. lia.
    + injection Hz as <-. lia.
  - rewrite decide_False by (rewrite Hq; intros Hz; by apply (inc_dec m f a)). rewrite Hr. injection Hq as _ _ Hex _. rewrite Hex in Hv. unfold dec_x in Hv.
    destruct (ag_sum a) as [s|] eqn:Hs; cbn [expr_val] in Hv; apply Herr, arith_check in Hv as (z & Hz & Hlt).
    + unfold ref_val in Hz. unfold ev_old in Hr. rewrite Hr, HeR in Hz.
      rewrite (cell_col b S rand true depth E l Hwf HE Hl m f a rel Haf) in Hz by (right; rewrite !elem_of_app, Hs; right; right; left).
      rewrite Hz. cbn [summand]. lia.
    + injection Hz as <-. lia.
Qed.

Definition is_upd (ch : change) : Prop := ∃ k : Z, ch = CUpd k (λ d o,
  let* q := expr_val E e ex d (cell (e_pk E t) k o x) in Ok (<[x := q.1]> o, q.2)).
Definition good (cs : list change) (d : db) : Prop := ∀ ch o m f a rel, ch ∈ cs → getrow d t (ch_key ch) = Some o →
  agg_field S m f a rel → t = m_table m → x = f_col f → ∃ v, col o x = VInt v ∧ 0 ≤ v + amount m f a (AUpd t x ex w) e.
Lemma upd_tw : tw E t x. Proof. by exists it, ex, w. Qed.
Lemma good_Rz0 cs d d' : Rz0 d d' → good cs d → good cs d'.
Proof.
  intros [Hs Hz] Hg ch o' m f a rel Hch Ho' Haf Ht Hx. destruct (getrow d t (ch_key ch)) as [o|] eqn:Ho; [|by rewrite (skel_none E _ _ _ _ Hs Ho) in Ho'].
  destruct (Hg _ _ _ _ _ _ Hch Ho Haf Ht Hx) as (v & Hv & Hp). rewrite Ht in Ho, Ho'. rewrite Hx in Hv.
  destruct (Hz _ _ _ _ Haf _ _ _ Ho Hv) as (r2 & Hr2 & Hv2). rewrite Hr2 in Ho'. injection Ho' as <-.
  exists v. split; [|done]. unfold Z0 in Hv2. by rewrite Hx, Hv2, Z.add_0_r.
Qed.
Lemma change_step ch cs d : is_upd ch → NoDup (ch_key <$> ch :: cs) → ok d → wok d → good (ch :: cs) d →
  apply_change E t d ch ≠ Err ECheck ∧ ∀ d' evs, apply_change E t d ch = Ok (d', evs) →
    ok d' ∧ wok d' ∧ good cs d' ∧ ∀ e, e ∈ evs → edelta0 e ∧ ewok e.
Proof.
  intros [k ->] Hnd Ho Hw Hg. simpl. destruct (getrow d t k) as [o|] eqn:Hgo.
  2: { split; [done|]. intros d' evs [= <- <-]. split_and!; [done|done| |by intros ? ?%elem_of_nil]. intros ch o m f a rel Hch. apply Hg. by right. }
  assert (Hxpk : ∀ m f a rel, agg_field S m f a rel → t = m_table m → x = f_col f → cell (e_pk E t) k o x = col o x).
  { intros m f a rel Haf -> ->. unfold cell. rewrite decide_False; [done|]. rewrite (pk_T b S rand true depth E l Hwf HE Hl m f a rel Haf).
    by apply (c_not_pk S Hwf m f a rel Haf). }
  destruct (expr_val E e ex d (cell (e_pk E t) k o x)) as [[v d1]|er] eqn:Hev; simpl.
  2: { split; [|done]. intros [= ->]. destruct (upd_kind _ _ _ _ _ Hit Hin) as [->|(m & f & a & rel & Haf & Ht & Hx)]; [done|].
       destruct (Hg _ _ _ _ _ _ ltac:(left) Hgo Haf Ht Hx) as (v & Hv & Hp). rewrite (Hxpk _ _ _ _ Haf Ht Hx), Hv in Hev.
       apply (expr_nocheck _ _ _ _ _ _ Haf Ht Hx) in Hev. lia. }
  split; [by case_match|]. intros d' evs H. case_match; [|done]. injection H as <- <-.
  pose proof Hev as Hdb. apply expr_val_db in Hdb.
  assert (Heq : ∀ t' k', getrow d1 t' k' = getrow d t' k') by (by destruct Hdb; subst).
  assert (Hcols : ∀ m f a rel, agg_field S m f a rel → t = m_table rel → ∀ y, y ∈ agg_cols a → col (<[x:=v]> o) y = col o y).
  { intros m f a rel Haf Ht y Hy. apply col_insert_ne. intros ->. eapply (cols_not_tw b S rand true depth E l Hwf HE Hl m f a rel Haf); [exact Hy|].
    rewrite <- Ht. apply upd_tw. }
  split_and!.
  - intros m f a rel Haf k' r' Hr'. rewrite getrow_put in Hr'. case_decide as Hd.
    + destruct Hd as [Ht%symmetry Hk]. injection Hr' as <-. subst k'. destruct (decide (x = f_col f)) as [Hx|Hx].
      * destruct (Hg _ _ _ _ _ _ ltac:(left) Hgo Haf Ht Hx) as (v0 & Hv0 & Hp). rewrite (Hxpk _ _ _ _ Haf Ht Hx), Hv0 in Hev.
        destruct (upd_case _ _ _ _ Haf Ht Hx) as [HeR Hcase]. exists (v0 + amount m f a (AUpd t x ex w) e). split; [|done].
        rewrite <- Hx, col_insert_eq. rewrite Ht, Hx in Hcase |- *.
        by apply (expr_amount b S rand true depth E l Hwf HE Hl m f a rel Haf e ex w) in Hev.
      * rewrite col_insert_ne by done. rewrite Ht in Hgo. by apply (Ho _ _ _ _ Haf _ _ Hgo).
    + rewrite Heq in Hr'. by apply (Ho _ _ _ _ Haf _ _ Hr').
  - intros m f a rel Haf k' r' Hr'. rewrite getrow_put in Hr'. case_decide as Hd.
    + destruct Hd as [Ht%symmetry Hk]. injection Hr' as <-. rewrite (weight_cols a o); [|by eapply Hcols]. rewrite Ht in Hgo. by eapply Hw.
    + rewrite Heq in Hr'. by eapply Hw.
  - intros ch o' m f a rel Hch Ho'. csimpl in Hnd. apply NoDup_cons in Hnd as [Hnk _].
    rewrite getrow_put_ne, Heq in Ho'; [|intros [_ Hk]; apply Hnk; rewrite ?Hk; apply elem_of_list_fmap; exists ch; simpl in *; by rewrite ?Hk].
    apply (Hg ch o' m f a rel); [by right|done].
  - intros e' ->%elem_of_list_singleton. split.
    + intros m f a rel Haf k'. eapply (upd_event_delta E a rel (cols_not_tw b S rand true depth E l Hwf HE Hl m f a rel Haf)). apply upd_tw.
    + intros m f a rel Haf Ht r Hr. simpl in Ht. rewrite Ht in Hgo.
      unfold ev_old, ev_new in Hr. simpl in Hr. destruct Hr as [[= <-]|[= <-]]; [by eapply Hw|].
      rewrite (weight_cols a o); [|by eapply Hcols]. by eapply Hw.
Qed.
Context (fr : db → event → res db).
Context (HfrC : ∀ d e, ok d → wok d → edelta0 e → ewok e → fr d e ≠ Err ECheck).
Context (HfrR : ∀ d e d', edelta0 e → fr d e = Ok d' → Rz0 d d').
Lemma apply_all_step cs : ∀ d, Forall is_upd cs → NoDup (ch_key <$> cs) → ok d → wok d → good cs d →
  apply_all E t cs d ≠ Err ECheck ∧ ∀ d' evs, apply_all E t cs d = Ok (d', evs) →
    ok d' ∧ wok d' ∧ ∀ e, e ∈ evs → edelta0 e ∧ ewok e.
Proof.
  induction cs as [|ch cs IH]; intros d Hu Hnd Ho Hw Hg.
  { split; [done|]. intros d' evs [= <- <-]. split_and!; [done|done|by intros ? ?%elem_of_nil]. }
  apply Forall_cons in Hu as [Hu1 Hu2]. rewrite apply_all_cons. destruct (change_step _ _ _ Hu1 Hnd Ho Hw Hg) as [C1 C2].
  apply NoDup_cons in Hnd as [_ Hnd].
  destruct (apply_change E t d ch) as [[d1 e1]|er]; simpl; [|split; [congruence|done]].
  destruct (C2 _ _ eq_refl) as (O1 & W1 & G1 & V1). destruct (IH _ Hu2 Hnd O1 W1 G1) as [C3 C4].
  destruct (apply_all E t cs d1) as [[d2 e2]|er]; simpl; [|split; [congruence|done]]. split; [done|].
  intros d' evs [= <- <-]. destruct (C4 _ _ eq_refl) as (O2 & W2 & V2). split_and!; [done|done|]. intros e' [He|He]%elem_of_app; auto.
Qed.
Lemma fires_step evs : ∀ d, ok d → wok d → (∀ e, e ∈ evs → edelta0 e ∧ ewok e) →
  foldM fr d evs ≠ Err ECheck ∧ ∀ d', foldM fr d evs = Ok d' → Rz0 d d'.
Proof.
  induction evs as [|e0 evs IH]; intros d Ho Hw Hev; [split; [done|intros d' [= <-]; apply Rz0_refl]|].
  rewrite foldM_cons. destruct (Hev e0 ltac:(left)) as [D0 W0]. pose proof (HfrC d e0 Ho Hw D0 W0) as Hc.
  destruct (fr d e0) as [d1|er] eqn:Hf; simpl; [|split; [congruence|done]].
  pose proof (HfrR _ _ _ D0 Hf) as HR. destruct (IH d1) as [C1 C2].
  - by eapply ok_Rz0.
  - eapply wok_skel; [apply HR|done].
  - intros e' He'. apply Hev. by right.
  - split; [done|]. intros d' Hd'. eapply Rz0_trans; [exact HR|]. by apply C2.
Qed.
Lemma batch_step cs d : Forall is_upd cs → NoDup (ch_key <$> cs) → ok d → wok d → good cs d →
  run_batch E fr t cs d ≠ Err ECheck.
Proof.
  intros Hu Hnd Ho Hw Hg. unfold run_batch. destruct (apply_all_step cs d Hu Hnd Ho Hw Hg) as [C1 C2].
  destruct (apply_all E t cs d) as [[d1 evs]|er]; simpl; [|congruence].
  destruct (C2 _ _ eq_refl) as (O1 & W1 & V1). by apply fires_step.
Qed.
Lemma single_step ch cs d d' : is_upd ch → NoDup (ch_key <$> ch :: cs) → ok d → wok d → good (ch :: cs) d →
  run_batch E fr t [ch] d = Ok d' → ok d' ∧ wok d' ∧ good cs d'.
Proof.
  intros Hu Hnd Ho Hw Hg H. unfold run_batch in H. destruct (change_step _ _ _ Hu Hnd Ho Hw Hg) as [C1 C2].
  rewrite apply_all_cons in H. destruct (apply_change E t d ch) as [[d1 e1]|er]; simpl in H; [|done].
  destruct (C2 _ _ eq_refl) as (O1 & W1 & G1 & V1). rewrite app_nil_r in H.
  destruct (fires_step e1 d1 O1 W1 V1) as [_ F]. pose proof (F _ H) as HR.
  split_and!; [by eapply ok_Rz0|eapply wok_skel; [apply HR|done]|by eapply good_Rz0].
Qed.
Lemma stmt_step cs d : Forall is_upd cs → NoDup (ch_key <$> cs) → ok d → wok d → good cs d →
  run_stmt E fr t cs d ≠ Err ECheck.
Proof.
  intros Hu Hnd Ho Hw Hg.
  assert (Hs : foldM (λ d ch, run_batch E fr t [ch] d) d cs ≠ Err ECheck).
  { clear -Hu Hnd Ho Hw Hg HfrC HfrR Hwf HE Hl Hnames Hall Hit Hin Het Hek. revert d Hu Hnd Ho Hw Hg. induction cs as [|ch cs IH]; intros d Hu Hnd Ho Hw Hg; [done|].
    rewrite foldM_cons. apply Forall_cons in Hu as [Hu1 Hu2].
    assert (Hc : run_batch E fr t [ch] d ≠ Err ECheck).
    { apply batch_step; [by apply Forall_singleton|apply NoDup_singleton|done|done|].
      intros ch' o m f a rel ->%elem_of_list_singleton. apply Hg. left. }
    destruct (run_batch E fr t [ch] d) as [d1|] eqn:Hr; simpl; [|congruence].
    destruct (single_step _ _ _ _ Hu1 Hnd Ho Hw Hg Hr) as (O1 & W1 & G1). apply NoDup_cons in Hnd as [_ Hnd]. by apply IH. }
  unfold run_stmt. destruct (e_be E); [done|by apply batch_step|done].
Qed.
End upd.

Lemma action_nocheck fr act it e x d : it ∈ e_trigs E → x ∈ i_acts it → ev_tab e = i_tab it → ev_kind e = i_ev it →
  (∀ d e, ok d → wok d → edelta0 e → ewok e → fr d e ≠ Err ECheck) → (∀ d e d', edelta0 e → fr d e = Ok d' → Rz0 d d') →
  ok d → wok d → (∀ m f a rel, agg_field S m f a rel → vals m f (λ k v, 0 ≤ v + eff m f a e x k) d) →
  run_action E fr act e d x ≠ Err ECheck.
Proof.
  intros Hit Hx Het Hek HfC HfR Ho Hw Hv. destruct x as [ct rf y|ct t sc wc rf rc|t y ex w]; simpl; [done|done|].
  case_decide; [done|]. eapply (stmt_step it e t y ex w Hit Hx Het Hek fr HfC HfR); [| |done|done|].
  - apply Forall_forall. intros ch Hch. apply elem_of_list_fmap in Hch as ([k r] & -> & _). by exists k.
  - apply upd_changes_nodup.
  - intros ch o m f a rel Hch Hgo Haf Ht Hy. destruct (upd_case _ _ _ _ _ _ Hit Hx Het Hek _ _ _ _ Haf Ht Hy) as [HeR Hcase].
    apply elem_of_list_fmap in Hch as ([k r] & -> & Hin). apply elem_of_list_filter in Hin as [Hwh Hin]. apply elem_of_map_to_list in Hin.
    simpl in Hgo, Hwh. change (tab d t !! k = Some r) with (getrow d t k = Some r) in Hin. rewrite Hgo in Hin. injection Hin as <-.
    rewrite Ht in Hgo. destruct (Hv _ _ _ _ Haf _ _ Hgo) as (v & Hv1 & Hv2). exists v. split; [by rewrite Hy|].
    assert (Ha : eff m f a e (AUpd t y ex w) k = amount m f a (AUpd t y ex w) e); [|lia].
    rewrite Ht in Hwh. rewrite Ht, Hy in Hcase |- *. unfold eff, amount.
    destruct Hcase as [[Hq [n Hn']]|[Hq [r Hr]]].
    + do 2 rewrite (decide_True (P := AUpd (m_table m) (f_col f) ex w = inc m f a)) by done. rewrite Hn'. simpl. unfold contrib.
      assert (w = WEq (m_pk m) RNew (ag_fk a) (ag_filter a) (ag_exclude a)) as -> by (injection Hq; intros; done).
      rewrite (where_contrib b S rand true depth E l Hwf HE Hl m f a rel Haf e d k o RNew (Some n)) in Hwh by done.
      destruct Hwh as (n' & [= <-] & ?). by rewrite decide_True.
    + do 2 rewrite (decide_False (P := AUpd (m_table m) (f_col f) ex w = inc m f a)) by (rewrite Hq; intros Hz; by apply (inc_dec m f a)).
      rewrite (decide_True (P := AUpd (m_table m) (f_col f) ex w = dec m f a)) by done. rewrite Hr. simpl. unfold contrib.
      assert (w = WEq (m_pk m) ROld (ag_fk a) (ag_filter a) (ag_exclude a)) as -> by (injection Hq; intros; done).
      rewrite (where_contrib b S rand true depth E l Hwf HE Hl m f a rel Haf e d k o ROld (Some r)) in Hwh by done.
      destruct Hwh as (n' & [= <-] & ?). by rewrite decide_True.
Qed.

(** ** All actions of an event, in order *)
Definition todo (act : actives) (e : event) (ts : list itrig) : list (itrig * action) :=
  it ← ts; if trig_applies E act e it then (λ x, (it, x)) <$> i_acts it else [].
Definition act_of (act : actives) (p : itrig * action) : actives := (i_name p.1, i_tab p.1) :: act.
Lemma fire_todo n act d e : fire E (Datatypes.S n) act d e =
  foldM (λ d p, run_action E (fire E n (act_of act p)) (act_of act p) e d p.2) d (todo act e (e_trigs E)).
Proof.
  simpl. unfold todo. generalize (e_trigs E) as ts. intros ts. revert d. induction ts as [|it ts IH]; intros d; [done|].
  rewrite foldM_cons, bind_cons, foldM_app.
  assert (Hh : (if trig_applies E act e it then foldM (run_action E (fire E n ((i_name it, i_tab it) :: act)) ((i_name it, i_tab it) :: act) e) d (i_acts it) else Ok d) =
    foldM (λ d p, run_action E (fire E n (act_of act p)) (act_of act p) e d p.2) d (if trig_applies E act e it then (λ x, (it, x)) <$> i_acts it else [])).
  { destruct (trig_applies E act e it); [|done]. generalize (i_acts it) as xs. intros xs. revert d. clear IH. induction xs as [|x xs IHx]; intros d; [done|].
    rewrite fmap_cons, !foldM_cons. unfold act_of at 1 2. simpl.
    destruct (run_action E (fire E n ((i_name it, i_tab it) :: act)) ((i_name it, i_tab it) :: act) e d x); simpl; [apply IHx|done]. }
  rewrite Hh. match goal with |- rbind ?r _ = _ => destruct r end; simpl; [apply IH|done].
Qed.
Lemma todo_in act e p ts : p ∈ todo act e ts → p.1 ∈ ts ∧ p.2 ∈ i_acts p.1 ∧ ev_tab e = i_tab p.1 ∧ ev_kind e = i_ev p.1.
Proof.
  unfold todo. rewrite elem_of_list_bind. intros (it & Hp & Hit). destruct (trig_applies E act e it) eqn:Hap; [|by apply elem_of_nil in Hp].
  apply elem_of_list_fmap in Hp as (x & -> & Hx). unfold trig_applies in Hap. rewrite !andb_true_iff, !bool_decide_eq_true in Hap.
  destruct Hap as (((H1 & H2) & _) & _). done.
Qed.

Section order.
Context (m : model) (f : field) (a : agg) (rel : model) (Haf : agg_field S m f a rel).
Lemma inc_before_dec it : it ∈ e_trigs E → i_ev it = EvUpd → before (inc m f a) (dec m f a) (i_acts it).
Proof.
  intros Hit Hev. destruct (decide (dec m f a ∈ i_acts it)) as [Hd|Hd]; [|by apply before_none].
  destruct (dec_installed b S rand true depth E l Hwf HE Hl Hnames m f a rel Haf _ Hit Hd) as [_ [[_ Hn]|[Hv _]]]; [|congruence].
  assert (Hinst : installed b S = Ok (e_trigs E)).
  { unfold mk_env in HE. destruct (installed b S) as [ts|] eqn:Hi; [|done]. simpl in HE. by injection HE as <-. }
  rewrite (installed_merge _ _ _ _ Hinst Hl _ Hit). apply before_dedup, before_concat.
  intros acts Ha. apply elem_of_list_fmap in Ha as (tr & -> & Htr). apply elem_of_list_filter in Htr as [Htn Htr].
  destruct (decide (dec m f a ∈ t_acts tr)) as [Hdt|Hdt]; [|by apply before_none].
  pose proof (upd_origin S l Hwf Hl m f a rel Haf _ _ _ Htr Hdt) as Ho.
  assert (Htru : trU m f a rel ∈ l) by (apply (tr_in S l Hwf Hl m f a rel Haf); left).
  destruct (Hnames _ _ Htr Htru ltac:(congruence)) as (_ & Hk & _). cases_in Ho; simpl in Hk; try done.
  intros X Y Hxy Hdx. simpl in Hxy. destruct X as [|x1 X]; [by apply elem_of_nil in Hdx|]. injection Hxy as <- _. left.
Qed.
Lemma prefix_sum e act k : 0 ≤ oc a (ev_new e) k → ∀ ts, (∀ it, it ∈ ts → it ∈ e_trigs E) → NoDup (i_name <$> ts) →
  ∀ P Q, todo act e ts = P ++ Q → ∃ P', (P' = [] ∨ ∃ it Y, it ∈ ts ∧ ev_tab e = i_tab it ∧ ev_kind e = i_ev it ∧ i_acts it = P' ++ Y) ∧
    zsum (λ p, eff m f a e p.2 k) P = zsum (λ x, eff m f a e x k) P'.
Proof.
  intros Hnn ts. induction ts as [|it ts IH]; intros Hts Hnd P Q H.
  { symmetry in H. apply app_eq_nil in H as [-> _]. exists []. split; [by left|done]. }
  unfold todo in H. rewrite bind_cons in H. csimpl in Hnd. apply NoDup_cons in Hnd as [Hnn1 Hnd].
  fold (todo act e ts) in H.
  assert (Hext : ∀ xs, zsum (λ p : itrig * action, eff m f a e p.2 k) ((λ x, (it, x)) <$> xs) = zsum (λ x, eff m f a e x k) xs).
  { intros xs. induction xs as [|y ys IHy]; csimpl; [done|]. by rewrite IHy. }
  destruct (trig_applies E act e it) eqn:Hap.
  2: { destruct (IH ltac:(intros; apply Hts; by right) Hnd P Q H) as (P' & HP' & Hs). exists P'. split; [|done].
       destruct HP' as [?|(it' & Y & ? & ? & ? & ?)]; [by left|right]. exists it', Y. split_and!; [by right|done..]. }
  assert (Het : ev_tab e = i_tab it ∧ ev_kind e = i_ev it).
  { unfold trig_applies in Hap. rewrite !andb_true_iff, !bool_decide_eq_true in Hap. naive_solver. }
  destruct Het as [Het Hek].
  apply app_eq_app in H as (K & [[H1 H2]|[H1 H2]]).
  - assert (Hsp : ∃ X Y, i_acts it = X ++ Y ∧ P = (λ x, (it, x)) <$> X).
    { apply fmap_app_inv in H1 as (X & Y & HX & HY & Hxy). exists X, Y. done. }
    destruct Hsp as (X & Y & HX & ->). exists X. split; [right; exists it, Y; split_and!; [left|done..]|]. apply Hext.
  - destruct (IH ltac:(intros; apply Hts; by right) Hnd K Q H2) as (P' & HP' & Hs). rewrite H1, zsum_app, Hext, Hs.
    assert (Hno : ∀ it', it' ∈ e_trigs E → ev_tab e = i_tab it' → ev_kind e = i_ev it' → inc m f a ∉ i_acts it' → dec m f a ∉ i_acts it' →
      ∀ X Y, i_acts it' = X ++ Y → zsum (λ x, eff m f a e x k) X = 0).
    { intros it' Hit' _ _ Hi Hd X Y Hxy. apply zsum_zero. intros x Hx. unfold eff.
      assert (x ∈ i_acts it') by (rewrite Hxy; apply elem_of_app; by left).
      rewrite !decide_False; [done|..]; intros ->; done. }
    destruct (decide (inc m f a ∈ i_acts it ∨ dec m f a ∈ i_acts it)) as [Hid|Hid].
    + exists (i_acts it). split; [right; exists it, []; split_and!; [left|done|done|by rewrite app_nil_r]|].
      assert (zsum (λ x, eff m f a e x k) P' = 0) as ->; [|lia].
      destruct HP' as [->|(it' & Y & Hit' & Het' & Hek' & HY)]; [done|].
      assert (Hne : i_name it' ≠ i_name it) by (intros Hq; apply Hnn1; apply elem_of_list_fmap; by exists it').
      assert (Hu : ∀ i, i ∈ e_trigs E → ev_kind e = i_ev i → inc m f a ∈ i_acts i ∨ dec m f a ∈ i_acts i →
        i_name i = trig_name b (match ev_kind e with EvUpd => trU m f a rel | EvIns => trI m f a rel | EvDel => trD m f a rel end)).
      { intros i Hi Hk [Hin|Hin].
        - destruct (inc_installed b S rand true depth E l Hwf HE Hl Hnames m f a rel Haf _ Hi Hin) as [_ [[Hv ->]|[Hv ->]]]; by rewrite Hk, Hv.
        - destruct (dec_installed b S rand true depth E l Hwf HE Hl Hnames m f a rel Haf _ Hi Hin) as [_ [[Hv ->]|[Hv ->]]]; by rewrite Hk, Hv. }
      eapply (Hno it'); [apply Hts; by right|done|done|..|exact HY]; intros Hin; apply Hne;
        (rewrite (Hu it'); [rewrite (Hu it); [done|apply Hts; left|done|done]|apply Hts; by right|done|auto]).
    + exists P'. split.
      * destruct HP' as [?|(it' & Y & ? & ? & ? & ?)]; [by left|right]. exists it', Y. split_and!; [by right|done..].
      * rewrite (Hno it ltac:(apply Hts; left) Het Hek) with (Y := []); [done|tauto|tauto|by rewrite app_nil_r].
Qed.
Lemma prefix_nonneg e act k v P Q : ewok e → ev_tab e = m_table rel ∨ ev_tab e ≠ m_table rel → 0 ≤ v → 0 ≤ v + delta a rel e k →
  todo act e (e_trigs E) = P ++ Q → 0 ≤ v + zsum (λ p, eff m f a e p.2 k) P.
Proof.
  intros Hw Hdec Hv Hvd H. destruct (decide (ev_tab e = m_table rel)) as [Ht|Ht].
  - assert (Hnn : 0 ≤ oc a (ev_new e) k) by (apply oc_nonneg; intros; eapply Hw; eauto).
    destruct (prefix_sum e act k Hnn (e_trigs E) ltac:(done) (io_names _ _ _ (E_inst b S rand true depth E l HE Hl)) P Q H) as (P' & HP' & ->).
    destruct HP' as [->|(it & Y & Hit & Het & Hek & HY)]; [simpl; lia|].
    assert (Hnd : NoDup P').
    { pose proof (it_nodup b S rand true depth E l HE Hl it Hit) as Hnd. rewrite HY in Hnd. by apply NoDup_app in Hnd as []. }
    rewrite (acts_sum m f a e P' k Hnd). unfold delta in Hvd. rewrite decide_True in Hvd by done.
    destruct (decide (dec m f a ∈ P')) as [Hd|Hd]; [|case_decide; lia].
    destruct (decide (inc m f a ∈ P')) as [Hi|Hi]; [lia|].
    destruct (ev_cases e) as [(r & Hk & Ho & Hr)|[(o & r & Hk & Ho & Hr)|(o & Hk & Ho & Hr)]].
    + rewrite Ho. simpl. lia.
    + exfalso. apply Hi. eapply inc_before_dec; [exact Hit|congruence|exact HY|done].
    + rewrite Hr in Hvd. simpl in Hvd. lia.
  - rewrite zsum_zero; [lia|]. intros p Hp. assert (Hp' : p ∈ todo act e (e_trigs E)) by (rewrite H; apply elem_of_app; by left).
    apply todo_in in Hp' as (Hit & Hx & Het & Hek). unfold eff. rewrite !decide_False; [done|..]; intros Hq; rewrite Hq in Hx.
    + apply (dec_installed b S rand true depth E l Hwf HE Hl Hnames m f a rel Haf) in Hx as [? _]; [congruence|done].
    + apply (inc_installed b S rand true depth E l Hwf HE Hl Hnames m f a rel Haf) in Hx as [? _]; [congruence|done].
Qed.
End order.

Lemma edelta_okd e d : edelta0 e → ok d → okd e d.
Proof. intros He Ho m f a rel Haf k r Hr. destruct (Ho _ _ _ _ Haf _ _ Hr) as (v & ? & ?). exists v. rewrite (He _ _ _ _ Haf k). split; [done|lia]. Qed.
Lemma fire_Rz0 n act d e d' : edelta0 e → fire E n act d e = Ok d' → Rz0 d d'.
Proof.
  intros He H. split; [by eapply fire_skel|]. intros m f a rel Haf.
  eapply Rz_ext; [|eapply (fire_agg b S rand true depth E l Hwf HE Hl Hnames m f a rel Haf (cols_not_tw b S rand true depth E l Hwf HE Hl m f a rel Haf)); [|exact H]]; [|right; by eapply He].
  intros k r _. by eapply He.
Qed.
Lemma fire_nocheck n : ∀ act d e, okd e d → wok d → ewok e → fire E n act d e ≠ Err ECheck.
Proof.
  induction n as [|n IH]; intros act d e Ho Hw He; [done|]. rewrite fire_todo.
  assert (Hgo : ∀ Q P d1, todo act e (e_trigs E) = P ++ Q → skel E d d1 →
    (∀ m f a rel, agg_field S m f a rel → Rz m f (λ k, zsum (λ p, eff m f a e p.2 k) P) d d1) →
    foldM (λ d p, run_action E (fire E n (act_of act p)) (act_of act p) e d p.2) d1 Q ≠ Err ECheck).
  { induction Q as [|p Q IHQ]; intros P d1 Htd Hs Hz; [done|]. rewrite foldM_cons.
    assert (Hp : p ∈ todo act e (e_trigs E)) by (rewrite Htd; apply elem_of_app; right; left).
    apply todo_in in Hp as (Hit & Hx & Het & Hek).
    assert (Hval : ∀ m f a rel, agg_field S m f a rel → ∀ P' Q', todo act e (e_trigs E) = P' ++ Q' → ∀ k r, getrow d1 (m_table m) k = Some r →
      ∃ v0, col r (f_col f) = VInt (v0 + zsum (λ p, eff m f a e p.2 k) P) ∧ 0 ≤ v0 + zsum (λ p, eff m f a e p.2 k) P').
    { intros m f a rel Haf P' Q' HPQ k r Hr. destruct (getrow d (m_table m) k) as [r0|] eqn:Hr0; [|by rewrite (skel_none E _ _ _ _ Hs Hr0) in Hr].
      destruct (Ho _ _ _ _ Haf _ _ Hr0) as (v0 & Hv0 & Hv1 & Hv2). destruct (Hz _ _ _ _ Haf _ _ _ Hr0 Hv0) as (r2 & Hr2 & Hv3).
      rewrite Hr2 in Hr. injection Hr as ->. exists v0. split; [done|].
      eapply prefix_nonneg; [exact Haf|done| |done|done|exact HPQ]. destruct (decide (ev_tab e = m_table rel)); auto. }
    assert (Hok : ok d1).
    { intros m f a rel Haf k r Hr. destruct (Hval _ _ _ _ Haf P _ Htd k r Hr) as (v0 & H1 & H2). eauto. }
    assert (Hw1 : wok d1) by (by eapply wok_skel).
    assert (Hc : run_action E (fire E n (act_of act p)) (act_of act p) e d1 p.2 ≠ Err ECheck).
    { eapply (action_nocheck _ _ p.1); [done|done|done|done|..|done|done|].
      - intros d2 e2 Ho2 Hw2 He2 Hew2. apply IH; [by apply edelta_okd|done|done].
      - intros d2 e2 d3. apply fire_Rz0.
      - intros m f a rel Haf k r Hr. destruct (Hval _ _ _ _ Haf (P ++ [p]) Q ltac:(by rewrite <- app_assoc) k r Hr) as (v0 & H1 & H2).
        eexists. split; [done|]. rewrite zsum_app in H2. simpl in H2. lia. }
    destruct (run_action E (fire E n (act_of act p)) (act_of act p) e d1 p.2) as [d2|er] eqn:Hr; simpl; [|congruence].
    apply (IHQ (P ++ [p])); [by rewrite <- app_assoc|..].
    - eapply skel_trans; [exact Hs|]. eapply (run_action_rel E (skel E)); [apply skel_refl|apply skel_trans|apply skel_mark| |exact Hit|exact Hx| |exact Hr].
      + intros. by eapply skel_upd.
      + intros d3 e3 d4. apply fire_skel.
    - intros m f a rel Haf. eapply Rz_ext; [|eapply Rz_trans; [by eapply Hz|]].
      2: { eapply (action_Rz b S rand true depth E l Hwf HE Hl Hnames m f a rel Haf (cols_not_tw b S rand true depth E l Hwf HE Hl m f a rel Haf)); [exact Hit|exact Hx|done|done| |exact Hr].
           intros d3 e3 d4 Hd0 Hf. eapply Rz_ext; [|eapply (fire_agg b S rand true depth E l Hwf HE Hl Hnames m f a rel Haf (cols_not_tw b S rand true depth E l Hwf HE Hl m f a rel Haf)); [by right|exact Hf]].
           intros k r _. apply Hd0. }
      intros k r _. rewrite zsum_app. simpl. lia. }
  apply (Hgo _ []); [done|apply skel_refl|]. intros. apply Rz_refl.
Qed.

(** ** Statements *)
Definition wr_ok (t : string) (ch : change) : Prop := ∀ m f a rel, agg_field S m f a rel → t = m_table rel →
  match ch with
  | CIns _ r => 0 ≤ weight a r
  | CUpd _ g => ∀ d o p, 0 ≤ weight a o → g d o = Ok p → 0 ≤ weight a p.1
  | CDel _ => True
  end.
Definition tame (ch : change) : Prop := match ch with CUpd _ g => ∀ d o, g d o ≠ Err ECheck | _ => True end.
Definition all_exact (d : db) : Prop := ∀ m f a rel, agg_field S m f a rel → exact m f a rel d.
Definition all_clean (t : string) (ch : change) : Prop := ∀ m f a rel, agg_field S m f a rel → ∀ d, clean_in m f d t ch.

Lemma recount_nonneg m f a rel d k : agg_field S m f a rel → wok d → 0 ≤ recount a (m_table rel) d k.
Proof.
  intros Haf Hw. unfold recount. apply msum_nonneg. intros j z Hz. rewrite lookup_fmap in Hz.
  destruct (tab d (m_table rel) !! j) as [r|] eqn:Hj; [|done]. injection Hz as <-.
  apply (oc_nonneg a (Some r)). intros ? [= <-]. by eapply Hw.
Qed.
Lemma change_wok t d ch d' evs : ch_quiet ch → wr_ok t ch → wok d → apply_change E t d ch = Ok (d', evs) →
  wok d' ∧ (∀ e, e ∈ evs → ewok e) ∧ (evs = [] ∨ ∃ e, evs = [e]) ∧
  ∀ m f a rel, agg_field S m f a rel → ∀ k, recount a (m_table rel) d' k = recount a (m_table rel) d k + evsum a rel evs k.
Proof.
  intros Hq Hwr Hw H. destruct ch as [k r|k g|k]; simpl in H.
  - destruct (getrow d t k) eqn:Hg; [done|]. case_match; [|done]. injection H as <- <-. split_and!.
    + intros m f a rel Haf j r' Hr'. rewrite getrow_put in Hr'. case_decide as Hd; [|by eapply Hw].
      destruct Hd as [Ht _]. injection Hr' as <-. apply (Hwr _ _ _ _ Haf). done.
    + intros e ->%elem_of_list_singleton m f a rel Haf Ht r' Hr'. simpl in Ht. unfold ev_old, ev_new in Hr'. simpl in Hr'.
      destruct Hr' as [?|[= <-]]; [done|]. by apply (Hwr _ _ _ _ Haf).
    + right. by eexists.
    + intros m f a rel Haf k'. rewrite recount_put. unfold evsum. simpl. unfold delta. cbn [ev_tab].
      destruct (decide (t = m_table rel)) as [->|]; [|lia]. rewrite Hg. simpl. lia.
  - destruct (getrow d t k) as [o|] eqn:Hg.
    2: { injection H as <- <-. split_and!; [done|by intros ? ?%elem_of_nil|by left|]. intros. unfold evsum. simpl. lia. }
    inv_bind H. case_match; [|done]. injection H as <- <-. destruct a as [r d1]. simpl in *. pose proof (Hq _ _ _ H0) as [_ Hts]. simpl in Hts.
    assert (Heq : ∀ t' k', getrow d1 t' k' = getrow d t' k') by (intros; unfold getrow, tab; by rewrite Hts).
    split_and!.
    + intros m f a rel Haf j r' Hr'. rewrite getrow_put in Hr'. case_decide as Hd; [|rewrite Heq in Hr'; by eapply Hw].
      destruct Hd as [Ht _]. injection Hr' as <-. rewrite <- Ht in Hg. apply (Hwr _ _ _ _ Haf ltac:(done) _ _ _ (Hw _ _ _ _ Haf _ _ Hg) H0).
    + intros e ->%elem_of_list_singleton m f a rel Haf Ht r' Hr'. simpl in Ht. unfold ev_old, ev_new in Hr'. simpl in Hr'.
      destruct Hr' as [[= <-]|[= <-]]; [subst t; by eapply Hw|]. rewrite Ht in Hg. apply (Hwr _ _ _ _ Haf Ht _ _ _ (Hw _ _ _ _ Haf _ _ Hg) H0).
    + right. by eexists.
    + intros m f a rel Haf k'. rewrite recount_put, (recount_tabs _ _ d) by done. unfold evsum. simpl. unfold delta. cbn [ev_tab].
      destruct (decide (t = m_table rel)) as [->|]; [|lia]. rewrite Heq, Hg. simpl. lia.
  - destruct (getrow d t k) as [o|] eqn:Hg.
    2: { injection H as <- <-. split_and!; [done|by intros ? ?%elem_of_nil|by left|]. intros. unfold evsum. simpl. lia. }
    case_match; [|done]. injection H as <- <-. split_and!.
    + intros m f a rel Haf j r' Hr'. rewrite getrow_del in Hr'. case_decide; [done|]. by eapply Hw.
    + intros e ->%elem_of_list_singleton m f a rel Haf Ht r' Hr'. simpl in Ht. unfold ev_old, ev_new in Hr'. simpl in Hr'.
      destruct Hr' as [[= <-]|?]; [subst t; by eapply Hw|done].
    + right. by eexists.
    + intros m f a rel Haf k'. rewrite recount_del. unfold evsum. simpl. unfold delta. cbn [ev_tab].
      destruct (decide (t = m_table rel)) as [->|]; [|lia]. rewrite Hg. simpl. lia.
Qed.
Lemma changes_wok t cs : ∀ d d' evs, Forall ch_quiet cs → Forall (wr_ok t) cs → wok d → apply_all E t cs d = Ok (d', evs) →
  wok d' ∧ (∀ e, e ∈ evs → ewok e) ∧ ∀ m f a rel, agg_field S m f a rel → ∀ k,
    recount a (m_table rel) d' k = recount a (m_table rel) d k + evsum a rel evs k ∧
    ∀ P Q, evs = P ++ Q → 0 ≤ recount a (m_table rel) d k + evsum a rel P k.
Proof.
  induction cs as [|ch cs IH]; intros d d' evs Hq Hwr Hw H.
  { injection H as <- <-. split_and!; [done|by intros ? ?%elem_of_nil|]. intros m f a rel Haf k. split; [unfold evsum; simpl; lia|].
    intros P Q HP. symmetry in HP. apply app_eq_nil in HP as [-> _]. unfold evsum. simpl. rewrite Z.add_0_r. by eapply recount_nonneg. }
  rewrite apply_all_cons in H. inv_bind H. destruct a as [d1 e1]. simpl in H. inv_bind H. destruct a as [d2 e2]. simpl in H. injection H as <- <-.
  apply Forall_cons in Hq as [Hq1 Hq2]. apply Forall_cons in Hwr as [Hr1 Hr2].
  destruct (change_wok _ _ _ _ _ Hq1 Hr1 Hw H0) as (W1 & V1 & L1 & R1). destruct (IH _ _ _ Hq2 Hr2 W1 H1) as (W2 & V2 & R2).
  split_and!; [done|by intros e' [?|?]%elem_of_app; auto|]. intros m f a rel Haf k. destruct (R2 _ _ _ _ Haf k) as [R3 R4]. specialize (R1 _ _ _ _ Haf k). split.
  - rewrite R3, R1. unfold evsum. rewrite zsum_app. lia.
  - intros P Q HP. destruct L1 as [->|[e ->]]; simpl in HP.
    + rewrite R1 in R4. unfold evsum in R4 at 1. simpl in R4. specialize (R4 _ _ HP). lia.
    + destruct P as [|e' P]; simpl in HP; [unfold evsum; simpl; rewrite Z.add_0_r; by eapply recount_nonneg|].
      injection HP as <- HP. specialize (R4 _ _ HP). rewrite R1 in R4. unfold evsum in *. simpl in *. lia.
Qed.
Lemma change_tame t d ch : tame ch → apply_change E t d ch ≠ Err ECheck.
Proof.
  destruct ch as [k r|k g|k]; simpl; intros Ht; repeat case_match; try done. destruct (g d _) eqn:Hg; simpl; [by case_match|]. intros [= ->]. by apply Ht in Hg.
Qed.
Lemma changes_tame t cs : ∀ d, Forall tame cs → apply_all E t cs d ≠ Err ECheck.
Proof.
  induction cs as [|ch cs IH]; intros d Ht; [done|]. apply Forall_cons in Ht as [Ht1 Ht2]. rewrite apply_all_cons.
  pose proof (change_tame t d ch Ht1). destruct (apply_change E t d ch) as [[d1 e1]|]; simpl; [|congruence].
  pose proof (IH d1 Ht2). destruct (apply_all E t cs d1) as [[d2 e2]|]; simpl; [done|congruence].
Qed.
Lemma batch_owed_nocheck n t cs d : Forall ch_quiet cs → Forall (wr_ok t) cs → Forall tame cs →
  (∀ d1 evs, apply_all E t cs d = Ok (d1, evs) → ∀ m f a rel, agg_field S m f a rel → ∃ D, owed m f a rel D (λ k, Z0 k + evsum a rel evs k) d1) → wok d →
  run_batch E (fire E n []) t cs d ≠ Err ECheck.
Proof.
  intros Hq Hwr Ht How Hw. unfold run_batch. pose proof (changes_tame t cs d Ht) as Hnc.
  destruct (apply_all E t cs d) as [[d1 evs]|] eqn:Hap; simpl; [|congruence]. specialize (How _ _ eq_refl).
  destruct (changes_wok _ _ _ _ _ Hq Hwr Hw Hap) as (W1 & V1 & R1).
  assert (Hv : ∀ m f a rel, agg_field S m f a rel → ∀ k r, getrow d1 (m_table m) k = Some r → col r (f_col f) = VInt (recount a (m_table rel) d k)).
  { intros m f a rel Haf k r Hr. destruct (How _ _ _ _ Haf) as [D' Ho].
    destruct (ow_row _ _ _ _ _ _ _ Ho _ _ Hr) as (v & Hv & Hz). destruct (R1 _ _ _ _ Haf k) as [Hrc _]. rewrite Hv. f_equal. unfold Z0 in Hz. lia. }
  assert (Hgo : ∀ Q P dd, evs = P ++ Q → skel E d1 dd → (∀ m f a rel, agg_field S m f a rel → Rz m f (evsum a rel P) d1 dd) →
    foldM (fire E n []) dd Q ≠ Err ECheck).
  { induction Q as [|e Q IHQ]; intros P dd HPQ Hs Hz; [done|]. rewrite foldM_cons.
    assert (Hokd : okd e dd).
    { intros m f a rel Haf k r Hr. destruct (getrow d1 (m_table m) k) as [r0|] eqn:Hr0; [|by rewrite (skel_none E _ _ _ _ Hs Hr0) in Hr].
      destruct (Hz _ _ _ _ Haf _ _ _ Hr0 (Hv _ _ _ _ Haf _ _ Hr0)) as (r2 & Hr2 & Hv2). rewrite Hr2 in Hr. injection Hr as ->.
      eexists. split; [exact Hv2|]. destruct (R1 _ _ _ _ Haf k) as [_ R2]. split; [by eapply R2|].
      specialize (R2 (P ++ [e]) Q ltac:(by rewrite <- app_assoc)). unfold evsum in *. rewrite zsum_app in R2. simpl in R2. lia. }
    assert (Hc : fire E n [] dd e ≠ Err ECheck).
    { apply fire_nocheck; [done|by eapply wok_skel|]. apply V1. rewrite HPQ. apply elem_of_app. right. left. }
    destruct (fire E n [] dd e) as [d2|] eqn:Hf; simpl; [|congruence]. apply (IHQ (P ++ [e])); [by rewrite <- app_assoc|..].
    - eapply skel_trans; [exact Hs|]. by eapply fire_skel.
    - intros m f a rel Haf. eapply Rz_ext; [|eapply Rz_trans; [by eapply Hz|eapply (fire_agg b S rand true depth E l Hwf HE Hl Hnames m f a rel Haf (cols_not_tw b S rand true depth E l Hwf HE Hl m f a rel Haf)); [|exact Hf]]].
      + intros k r _. unfold evsum. rewrite zsum_app. simpl. lia.
      + left. apply unblocked_nil. }
  apply (Hgo _ []); [done|apply skel_refl|]. intros. apply Rz_refl.
Qed.
Lemma batch_nocheck n t cs d : Forall (all_clean t) cs → Forall ch_quiet cs → Forall (wr_ok t) cs → Forall tame cs →
  (∀ p, apply_all E t cs d = Ok p → NoDup (ch_key <$> cs)) → all_exact d → wok d →
  run_batch E (fire E n []) t cs d ≠ Err ECheck.
Proof.
  intros Hcl Hq Hwr Ht Hnd Hex Hw. apply batch_owed_nocheck; try done. intros d1 evs Hap m f a rel Haf.
  apply (changes_owed b S rand depth E l Hwf HE Hl m f a rel Haf t cs) with (D := @nil Z) (z := Z0) (d := d) (d' := d1) (evs := evs).
  - intros d2 ch Hch. eapply Forall_forall in Hcl; [|exact Hch]. by eapply Hcl.
  - done.
  - by eapply Hnd.
  - intros; by apply not_elem_of_nil.
  - done.
  - apply exact_owed. by apply Hex.
Qed.
Lemma exec1_nocheck t ch d : (∀ m f a rel, agg_field S m f a rel → clean_in m f d t ch) → ch_quiet ch → wr_ok t ch → tame ch → all_exact d → wok d →
  exec E t [ch] d ≠ Err ECheck.
Proof.
  intros Hcl Hq Hwr Ht Hex Hw. assert (Hb : run_batch E (fire E (e_depth E) []) t [ch] d ≠ Err ECheck).
  { apply batch_owed_nocheck; [by apply Forall_singleton..| |done]. intros d1 evs Hap m f a rel Haf. rewrite apply_all_cons in Hap. inv_bind Hap. destruct a0 as [d2 e2]. simpl in Hap. injection Hap as <- <-.
    eexists. rewrite app_nil_r. eapply (change_owed b S rand depth E l Hwf HE Hl m f a rel Haf [] Z0 t d ch); [done|by eapply Hcl|by apply not_elem_of_nil|done|]. apply exact_owed. by apply Hex. }
  unfold exec, run_stmt. rewrite foldM_cons. destruct (e_be E); [|done|]; by destruct (run_batch E (fire E (e_depth E) []) t [ch] d).
Qed.
Lemma batch_wok n t cs d d' : Forall ch_quiet cs → Forall (wr_ok t) cs → wok d → run_batch E (fire E n []) t cs d = Ok d' → wok d'.
Proof.
  intros Hq Hwr Hw H. unfold run_batch in H. inv_bind H. destruct a as [d1 evs]. simpl in H.
  destruct (changes_wok _ _ _ _ _ Hq Hwr Hw H0) as (W1 & _). eapply wok_skel; [|exact W1].
  eapply (foldM_rel (skel E)); [apply skel_refl|apply skel_trans| |exact H]. intros d2 e d3 _ Hf. by eapply fire_skel.
Qed.
Lemma exec_nocheck t cs d : Forall (all_clean t) cs → Forall ch_quiet cs → Forall (wr_ok t) cs → Forall tame cs →
  (∀ p, apply_all E t cs d = Ok p → NoDup (ch_key <$> cs)) → all_exact d → wok d → exec E t cs d ≠ Err ECheck.
Proof.
  intros Hcl Hq Hwr Ht Hnd Hex Hw. unfold exec, run_stmt.
  assert (Hs : foldM (λ d ch, run_batch E (fire E (e_depth E) []) t [ch] d) d cs ≠ Err ECheck).
  { clear Hnd. revert d Hex Hw. induction cs as [|ch cs IH]; intros d Hex Hw; [done|]. rewrite foldM_cons.
    apply Forall_cons in Hcl as [Hcl1 Hcl2]. apply Forall_cons in Hq as [Hq1 Hq2]. apply Forall_cons in Hwr as [Hwr1 Hwr2]. apply Forall_cons in Ht as [Ht1 Ht2].
    assert (Hc : run_batch E (fire E (e_depth E) []) t [ch] d ≠ Err ECheck).
    { apply batch_nocheck; [by apply Forall_singleton..| |done|done]. intros _ _. apply NoDup_singleton. }
    destruct (run_batch E (fire E (e_depth E) []) t [ch] d) as [d1|] eqn:Hr; simpl; [|congruence]. apply IH; [done..| |].
    - intros m f a rel Haf. eapply (single_exact b S rand depth E l Hwf HE Hl m f a rel Haf (field_settling b S rand depth E l Hwf HE Hl Hnames m f a rel Haf)); [by eapply Hcl1|exact Hq1|exact Hr|by apply Hex].
    - eapply batch_wok; [by apply Forall_singleton|by apply Forall_singleton|exact Hw|exact Hr]. }
  destruct (e_be E); [done|by apply batch_nocheck|done].
Qed.

(** ** Operations other than save(), whose callbacks may raise anything *)
Definition nonneg_op (o : op) : Prop := ∀ m f a rel, agg_field S m f a rel →
  match o with
  | OSave mn _ r => find_model S mn = Some rel → nonneg_row a r
  | OInsert t rows => t = m_table rel → ∀ k r, (k, r) ∈ rows → nonneg_row a r
  | OUpdate t _ g => t = m_table rel → ∀ r, nonneg_row a r → nonneg_row a (g r)
  | ODelete _ _ => True
  end.
Lemma weight_nonneg a r : nonneg_row a r → 0 ≤ weight a r.
Proof. unfold nonneg_row, weight. destruct (ag_sum a); [|done]. auto. Qed.
Lemma weight_nonneg' a r : 0 ≤ weight a r → nonneg_row a r.
Proof. intros H c Hc. unfold weight in H. by rewrite Hc in H. Qed.
Lemma run_op_nocheck o d : (∀ m f a rel, agg_field S m f a rel → clean_op m f o) → (∀ mn pk r, o ≠ OSave mn pk r) → nonneg_op o →
  all_exact d → wok d → run_op E S o d ≠ Err ECheck.
Proof.
  intros Hcl Hns Hnn Hex Hw. destruct o as [mn pk r|t rows|t ks g|t ks]; simpl; [by destruct (Hns mn pk r)|..].
  - apply exec_nocheck; [..|done|done].
    + apply Forall_forall. intros ch Hch m f a rel Haf d1 HT. apply elem_of_list_fmap in Hch as ([k r] & -> & Hin). simpl. by eapply (Hcl _ _ _ _ Haf).
    + apply Forall_forall. intros x Hx. by apply elem_of_list_fmap in Hx as (y & -> & _).
    + apply Forall_forall. intros ch Hch m f a rel Haf HT. apply elem_of_list_fmap in Hch as ([k r] & -> & Hin). apply weight_nonneg. by eapply (Hnn _ _ _ _ Haf).
    + apply Forall_forall. intros x Hx. by apply elem_of_list_fmap in Hx as (y & -> & _).
    + intros [d1 evs] Hap. rewrite <- list_fmap_compose. rewrite (list_fmap_ext _ fst) by done. by apply apply_ins_nodup in Hap as [].
  - apply exec_nocheck; [..|done|done].
    + apply Forall_forall. intros ch Hch m f a rel Haf d1 HT. apply elem_of_list_fmap in Hch as (k & -> & Hin). simpl. intros o p _ [= <-]. simpl. by eapply (Hcl _ _ _ _ Haf).
    + apply Forall_forall. intros x Hx. apply elem_of_list_fmap in Hx as (y & -> & _). simpl. by intros ??? [= <-].
    + apply Forall_forall. intros ch Hch m f a rel Haf HT. apply elem_of_list_fmap in Hch as (k & -> & Hin). intros d1 o p Ho [= <-]. apply weight_nonneg. eapply (Hnn _ _ _ _ Haf); [done|by apply weight_nonneg'].
    + apply Forall_forall. intros x Hx. by apply elem_of_list_fmap in Hx as (y & -> & _).
    + intros _ _. rewrite <- list_fmap_compose. rewrite (list_fmap_ext _ id) by done. rewrite list_fmap_id. apply NoDup_remove_dups.
  - apply exec_nocheck; [..|done|done].
    + apply Forall_forall. intros ch Hch m f a rel Haf d1 HT. by apply elem_of_list_fmap in Hch as (k & -> & Hin).
    + apply Forall_forall. intros x Hx. by apply elem_of_list_fmap in Hx as (y & -> & _).
    + apply Forall_forall. intros ch Hch m f a rel Haf HT. by apply elem_of_list_fmap in Hch as (k & -> & Hin).
    + apply Forall_forall. intros x Hx. by apply elem_of_list_fmap in Hx as (y & -> & _).
    + intros _ _. rewrite <- list_fmap_compose. rewrite (list_fmap_ext _ id) by done. rewrite list_fmap_id. apply NoDup_remove_dups.
Qed.
End check.
