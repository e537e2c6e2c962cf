(** * Cache keys of rows that no trigger selects keep their value. *)
From Verif Require Import Base BaseLemmas Schema TrigSet Gen Exec Orm Flush Spec SpecAgg SpecOrder Engine GenLemmas Marking Conditions Invariant Settle Sessions KeyDraw KeyObs.

(** ** Specification *)
(** The row [j] of table [t] is related to the row [k] of [m], stored as [r], through one of the
    dependencies [ds]: *)
Inductive key_related (S : schema) (m : model) (ds : list dep) (d : db) (k : Z) (r : row) : string → Z → Prop :=
  | kr_forward dp o fk j : dp ∈ ds → find_model S (dep_other dp) = Some o → dep_rel dp = RelForward fk →
      col r fk = VInt j → key_related S m ds d k r (m_table o) j
  | kr_backward dp o fk j rj : dp ∈ ds → find_model S (dep_other dp) = Some o → dep_rel dp = RelBackward fk →
      getrow d (m_table o) j = Some rj → col rj fk = VInt k → key_related S m ds d k r (m_table o) j
  | kr_link dp t c rc i lr : dp ∈ ds → dep_rel dp = RelM2M t c rc →
      getrow d t i = Some lr → col lr c = VInt k → key_related S m ds d k r t i
  | kr_far dp o t c rc i lr j : dp ∈ ds → find_model S (dep_other dp) = Some o → dep_rel dp = RelM2M t c rc →
      getrow d t i = Some lr → col lr c = VInt k → col lr rc = VInt j → key_related S m ds d k r (m_table o) j
  | kr_generic dp o ctc oidc j rj : dp ∈ ds → find_model S (dep_other dp) = Some o → dep_rel dp = RelGenForward ctc oidc →
      getrow d (m_table o) j = Some rj → col rj oidc = VInt k → key_related S m ds d k r (m_table o) j
  | kr_own dp ctc oidc : dp ∈ ds → dep_rel dp = RelGenBackward ctc oidc → key_related S m ds d k r (m_table m) k.
(** A change in table [t] makes triggers update rows of [t'], directly or through other updates. *)
Definition leads_to (S : schema) : string → string → Prop := tc (updates S).
Definition fwd_cols (S : schema) (ds : list dep) : list string :=
  omap (λ dp, match dep_rel dp, find_model S (dep_other dp) with RelForward fk, Some _ => Some fk | _, _ => None end) ds.

(** ** Running a statement with an invariant of states and of events. *)
Section keep.
  Context (E : env) (St : db → Prop) (P : event → Prop).
  Lemma foldM_keep {A} (Q : A → Prop) fr evs : (∀ x e y, Q e → St x → fr x e = Ok y → St y) → Forall Q evs →
    ∀ x y, foldM fr x evs = Ok y → St x → St y.
  Proof.
    intros Hf. induction evs as [|e evs IH]; intros HP x y H Hx; simpl in H; [by injection H as <-|].
    apply Forall_cons in HP as [HP1 HP2]. inv_bind H. eapply IH; [done|exact H|]. by eapply Hf.
  Qed.
  Lemma run_batch_keep fr t cs :
    (∀ x ch y evs, ch ∈ cs → St x → apply_change E t x ch = Ok (y, evs) → St y ∧ Forall P evs) →
    (∀ x e y, P e → St x → fr x e = Ok y → St y) →
    ∀ x y, run_batch E fr t cs x = Ok y → St x → St y.
  Proof.
    intros Hc Hf x y H Hx. unfold run_batch in H. inv_bind H. destruct a as [x1 evs]. simpl in H.
    assert (Ha : St x1 ∧ Forall P evs).
    { clear H. revert x x1 evs Hx H0. induction cs as [|c cs IH]; intros x x1 evs Hx H.
      - injection H as <- <-. by split.
      - rewrite apply_all_cons in H. inv_bind H. inv_bind H. destruct a as [x2 e2], a0 as [x3 e3]. simpl in *.
        injection H as <- <-. destruct (Hc x c _ _ ltac:(by left) Hx H0) as [S1 P1].
        destruct (IH (λ x ch y evs Hin, Hc x ch y evs (elem_of_list_further _ _ _ Hin)) _ _ _ S1 H1) as [S2 P2].
        split; [done|]. by apply Forall_app. }
    destruct Ha as [S1 P1]. by eapply foldM_keep.
  Qed.
  Lemma run_stmt_keep fr t cs :
    (∀ x ch y evs, ch ∈ cs → St x → apply_change E t x ch = Ok (y, evs) → St y ∧ Forall P evs) →
    (∀ x e y, P e → St x → fr x e = Ok y → St y) →
    ∀ x y, run_stmt E fr t cs x = Ok y → St x → St y.
  Proof.
    intros Hc Hf x y H. unfold run_stmt in H.
    assert (Hs : foldM (λ d c, run_batch E fr t [c] d) x cs = Ok y → St x → St y).
    { clear H. intros H Hx. revert x Hx H. induction cs as [|c cs IH]; intros x Hx H; simpl in H; [by injection H as <-|].
      inv_bind H. eapply (IH (λ x ch y evs Hin, Hc x ch y evs (elem_of_list_further _ _ _ Hin))); [|exact H].
      eapply run_batch_keep; [|done|exact H0|done]. intros ???? ->%elem_of_list_singleton. apply Hc. by left. }
    destruct (e_be E); eauto. by eapply run_batch_keep.
  Qed.
End keep.

Section frame.
Context (b : backend) (S : schema) (rand : nat → Z) (imm : bool) (depth : nat) (E : env) (l : list trigger).
Context (Hwf : wf_schema S) (HE : mk_env b S rand imm depth = Ok E) (Hl : gen_all S = Ok l).
Context (Hnames : names_ok b l).
Context (m : model) (f : field) (ds : list dep).
Context (Hm : m ∈ s_models S) (Hf : f ∈ m_fields m) (Hk : f_kind f = KCacheKey ds).
Context (k : Z) (d d' : db) (r : row).
Notation tm := (m_table m).
Notation fc := (f_name f).
Notation pk_table := (pk_table b S rand imm depth E l Hwf HE Hl).
Notation pk_link := (pk_link b S rand imm depth E l HE Hl).
Notation column_not_tw := (column_not_tw b S rand imm depth E l Hwf HE Hl).
Notation link_not_tw := (link_not_tw b S rand imm depth E l Hwf HE Hl).
Notation column_not_pk := (column_not_pk b S rand imm depth E l Hwf HE Hl).
Notation tw := (tw E).

Definition sel (t : string) (j : Z) : Prop := key_related S m ds d k r t j ∨ key_related S m ds d' k r t j.
Definition eqs (t : string) (r1 r2 : row) : Prop := ∀ c, ¬ tw t c → col r1 c = col r2 c.
Definition known (t : string) (j : Z) (rw : row) : Prop :=
  ∃ y r0, (y = d ∨ y = d') ∧ getrow y t j = Some r0 ∧ eqs t r0 rw.
Definition ev_ok (e : event) : Prop := ∀ rf rw, ev_row e rf = Some rw → known (ev_tab e) (ev_key e) rw.
Definition rest_ok (x : db) : Prop := ∀ t j rw, getrow x t j = Some rw → known t j rw.
Definition key_ok (x : db) : Prop :=
  ∃ rx, getrow x tm k = Some rx ∧ col rx fc = col r fc ∧ ∀ c, c ∈ fwd_cols S ds → col rx c = col r c.
Definition st_ok (x : db) : Prop := rest_ok x ∧ key_ok x.

Lemma fwd_cols_spec dp fk o : dp ∈ ds → find_model S (dep_other dp) = Some o → dep_rel dp = RelForward fk → fk ∈ fwd_cols S ds.
Proof. intros Hdp Ho Hr. unfold fwd_cols. apply elem_of_list_omap. exists dp. by rewrite Hr, Ho. Qed.
Lemma fwd_cols_column c : c ∈ fwd_cols S ds → column_of m c.
Proof.
  intros Hc. apply elem_of_list_omap in Hc as (dp & Hdp & Hr). destruct (find_model S (dep_other dp)) as [o|] eqn:Ho; [|by destruct (dep_rel dp)].
  pose proof (key_dep_wf S Hwf m f ds Hm Hf Hk dp Hdp _ Ho) as Wd. destruct (dep_rel dp); try done. by injection Hr as <-.
Qed.

Ltac cases_in H :=
  repeat (apply elem_of_cons in H as [->|H]); try (by apply elem_of_nil in H); simpl in *.

Lemma sql_eq_int v w : sql_eq v w = true → v = w.
Proof. destruct v, w; simpl; try done; intros H; by apply bool_decide_eq_true in H. Qed.
Lemma ref_known e rf c v : ev_ok e → ref_val E e rf c = VInt v → c ≠ e_pk E (ev_tab e) → ¬ tw (ev_tab e) c →
  ∃ y r0, (y = d ∨ y = d') ∧ getrow y (ev_tab e) (ev_key e) = Some r0 ∧ col r0 c = VInt v.
Proof.
  intros He Hv Hc Htw. unfold ref_val in Hv. destruct (ev_row e rf) as [rw|] eqn:Hrw; [|done].
  unfold cell in Hv. rewrite decide_False in Hv by done.
  destruct (He _ _ Hrw) as (y & r0 & Hy & Hg & Hq). exists y, r0. split_and!; [done|done|]. by rewrite Hq.
Qed.
Lemma ref_pk e rf v : ref_val E e rf (e_pk E (ev_tab e)) = VInt v → v = ev_key e.
Proof.
  unfold ref_val. destruct (ev_row e rf); [|done]. unfold cell. rewrite decide_True by done. congruence.
Qed.

Lemma selected_related x e it w rx : rest_ok x → ev_ok e → it ∈ e_trigs E → i_tab it = ev_tab e →
  AUpd tm fc XRand w ∈ i_acts it → getrow x tm k = Some rx → (∀ c, c ∈ fwd_cols S ds → col rx c = col r c) →
  where_holds E x e tm k rx w = true → sel (ev_tab e) (ev_key e).
Proof.
  intros Hx He Hit Htab Ha Hrx Hown Hw.
  destruct (key_writers b S rand imm depth E l Hwf HE Hl Hnames m f ds Hm Hf Hk _ _ _ Hit Ha) as (dp & o & tr & Hdp & Hfo & Htr & Hin & Htt).
  rewrite Htab in Htt. pose proof (key_dep_wf S Hwf m f ds Hm Hf Hk dp Hdp _ Hfo) as Wd. destruct (find_model_in _ _ _ Hfo) as [Ho _].
  assert (Hcell : cell (e_pk E tm) k rx (m_pk m) = VInt k).
  { rewrite (pk_table m Hm). unfold cell. by rewrite decide_True. }
  assert (Hsel : ∀ t j, (∃ y, (y = d ∨ y = d') ∧ key_related S m ds y k r t j) → sel t j).
  { intros t j (y & [-> | ->] & ?); [by left|by right]. }
  unfold ck_dep_triggers in Htr. destruct (dep_rel dp) eqn:Hr.
  - assert (∃ rf, w = WEq fk rf (m_pk o) [] [] ∧ m_table o = ev_tab e) as (rf & -> & Hto) by (cases_in Htr; set_solver).
    simpl in Hw. rewrite andb_true_r in Hw. apply sql_eq_int in Hw as Hw'.
    assert (Hfk : cell (e_pk E tm) k rx fk = col r fk).
    { unfold cell. rewrite decide_False by (by apply column_not_pk). apply Hown. by eapply fwd_cols_spec. }
    rewrite Hfk in Hw, Hw'. rewrite <- (pk_table o Ho), Hto in Hw'.
    unfold ref_val in Hw'. destruct (ev_row e rf); [|rewrite Hw' in Hw; done].
    unfold cell in Hw'. rewrite decide_True in Hw' by done. left. rewrite <- Hto. by eapply kr_forward.
  - assert (∃ rf, w = WEq (m_pk m) rf fk [] [] ∧ m_table o = ev_tab e) as (rf & -> & Hto) by (cases_in Htr; set_solver).
    simpl in Hw. rewrite andb_true_r, Hcell in Hw. apply sql_eq_int in Hw. symmetry in Hw.
    destruct (ref_known e rf fk k He Hw) as (y & r0 & Hy & Hg & Hc).
    { rewrite <- Hto. by apply column_not_pk. } { rewrite <- Hto. by apply column_not_tw. }
    apply Hsel. exists y. split; [done|]. rewrite <- Hto in *. by eapply kr_backward.
  - destruct Wd as (Wt & Wc & Wrc).
    assert ((∃ rf, w = WEq (m_pk m) rf c [] [] ∧ tab = ev_tab e) ∨ (w = WIn (m_pk m) tab c rc RNew (m_pk o) ∧ m_table o = ev_tab e))
      as [(rf & -> & Hto)|[-> Hto]] by (cases_in Htr; set_solver).
    + simpl in Hw. rewrite andb_true_r, Hcell in Hw. apply sql_eq_int in Hw. symmetry in Hw.
      destruct (ref_known e rf c k He Hw) as (y & r0 & Hy & Hg & Hc).
      { rewrite <- Hto, pk_link by done. done. } { rewrite <- Hto. by apply link_not_tw. }
      apply Hsel. exists y. split; [done|]. rewrite <- Hto in *. by eapply kr_link.
    + simpl in Hw. apply existsb_exists in Hw as (v & Hv & Hq). rewrite Hcell in Hq. apply sql_eq_int in Hq as <-.
      apply elem_of_list_In, select_col_spec in Hv as (i & lr & Hlr & Hq & Hv).
      rewrite pk_link in Hq, Hv by done. unfold cell in Hq, Hv. rewrite decide_False in Hq by done. rewrite decide_False in Hv by done.
      apply sql_eq_int in Hq as Hq'. rewrite <- (pk_table o Ho), Hto in Hq'.
      destruct (Hx _ _ _ Hlr) as (y & r0 & Hy & Hg & He0).
      unfold ref_val in Hq'. destruct (ev_row e RNew); [|rewrite Hq' in Hq; done].
      unfold cell in Hq'. rewrite decide_True in Hq' by done.
      apply Hsel. exists y. split; [done|]. rewrite <- Hto in *.
      eapply kr_far; [exact Hdp|exact Hfo|exact Hr|exact Hg|..]; rewrite He0 by (by apply link_not_tw); done.
  - destruct Wd as [Wc Wo].
    assert (∃ rf, w = WEq (m_pk m) rf oidc [] [] ∧ m_table o = ev_tab e) as (rf & -> & Hto) by (cases_in Htr; set_solver).
    simpl in Hw. rewrite andb_true_r, Hcell in Hw. apply sql_eq_int in Hw. symmetry in Hw.
    destruct (ref_known e rf oidc k He Hw) as (y & r0 & Hy & Hg & Hc).
    { rewrite <- Hto. by apply column_not_pk. } { rewrite <- Hto. by apply column_not_tw. }
    apply Hsel. exists y. split; [done|]. rewrite <- Hto in *. by eapply kr_generic.
  - assert (∃ rf, w = WEq (m_pk m) rf (m_pk m) [] [] ∧ tm = ev_tab e) as (rf & -> & Hto) by (cases_in Htr; set_solver).
    simpl in Hw. rewrite andb_true_r, Hcell in Hw. apply sql_eq_int in Hw. symmetry in Hw.
    rewrite <- (pk_table m Hm), Hto in Hw. apply ref_pk in Hw. left. rewrite <- Hto, <- Hw. by eapply kr_own.
Qed.

(** ** Firing *)
Context (t0 : string) (Hfree : ∀ t j, leads_to S t0 t → ¬ sel t j).
Definition near (t : string) : Prop := t = t0 ∨ leads_to S t0 t.

Lemma fire_keep n : ∀ act x e y, fire E n act x e = Ok y → ev_ok e → near (ev_tab e) → ¬ sel (ev_tab e) (ev_key e) → st_ok x → st_ok y.
Proof.
  induction n as [|n IH]; intros act x e y H He Hnr Hns Hx; [done|]. simpl in H.
  eapply (foldM_keep st_ok (λ tr, tr ∈ e_trigs E)); [| |exact H|exact Hx]; [|by apply Forall_forall].
  clear x y H Hx. intros x tr y Htr Hx H. cbv beta in H. destruct (trig_applies E act e tr) eqn:Happ; [|by injection H as <-].
  assert (i_tab tr = ev_tab e) as Htab.
  { unfold trig_applies in Happ. apply andb_true_iff in Happ as [Happ _].
    apply andb_true_iff in Happ as [Happ _]. apply andb_true_iff in Happ as [Happ _].
    by apply bool_decide_eq_true in Happ. }
  eapply (foldM_keep st_ok (λ a, a ∈ i_acts tr)); [| |exact H|exact Hx]; [|by apply Forall_forall].
  clear x y H Hx. intros x a y Ha Hx H. destruct a as [| |t c xx w]; simpl in H.
  - injection H as <-. exact Hx.
  - injection H as <-. exact Hx.
  - case_decide; [done|].
    assert (Htw : tw t c) by by exists tr, xx, w.
    assert (Hto : leads_to S t0 t).
    { destruct (aupd_source b S rand imm depth E l Hwf HE Hl tr t c xx w Hnames Htr Ha) as (m1 & Hm1 & <- & Hs1).
      assert (Hu : updates S (ev_tab e) (m_table m1)) by (rewrite <- Htab; by constructor).
      destruct Hnr as [Hnr|Hnr]; [rewrite Hnr in Hu; by apply tc_once|by eapply tc_r]. }
    eapply (run_stmt_keep E st_ok (λ e, ev_ok e ∧ near (ev_tab e) ∧ ¬ sel (ev_tab e) (ev_key e))); [| |exact H|exact Hx].
    2:{ intros x1 e1 y1 (He1 & Hnr1 & Hn1) Hx1 Hf1. by eapply IH. }
    assert (Hnk : t = tm → c = fc → ∀ r0, getrow x t k = Some r0 → where_holds E x e t k r0 w ≠ true).
    { intros -> -> r0 Hr0 Hw. apply Hns. destruct Hx as [Hx1 (rx & Hrx & _ & Hown)].
      assert (xx = XRand) as -> by (eapply (key_only b S rand imm depth E l); eauto).
      eapply selected_related; [done|done|exact Htr|done|exact Ha|exact Hrx|exact Hown|congruence]. }
    clear H y. intros x1 ch y evs Hch [Hx1 (rx & Hrx & Hv & Hown)] H. apply elem_of_list_fmap in Hch as ([k' r'] & -> & Hin).
    apply elem_of_list_filter in Hin as [Hw Hin]. apply elem_of_map_to_list in Hin. simpl in *.
    destruct (getrow x1 t k') as [o|] eqn:Hg; [|injection H as <- <-; split; [split; [done|by exists rx]|done]].
    destruct (expr_val _ _ _ _ _) as [[v x2]|] eqn:H2; [|done]. simpl in H. case_match; [|done]. injection H as <- <-.
    assert (Heq : ∀ t' j', getrow x2 t' j' = getrow x1 t' j') by (by apply expr_val_db in H2 as [-> | ->]).
    assert (Hk1 : known t k' (<[c := v]> o)).
    { destruct (Hx1 _ _ _ Hg) as (y & r0 & Hy & Hg0 & Hq). exists y, r0. split_and!; [done|done|].
      intros c' Hc'. rewrite col_insert_ne by (intros ->; done). by apply Hq. }
    split; [split|].
    + intros t' j rw Hrw. rewrite getrow_put in Hrw. case_decide as Hd; [destruct Hd as [-> ->]; by injection Hrw as <-|].
      rewrite Heq in Hrw. by apply Hx1.
    + destruct (decide (tm = t ∧ k = k')) as [[<- <-]|Hne].
      * exists (<[c := v]> o). rewrite getrow_put_eq. split; [done|]. assert (o = rx) as -> by congruence.
        split.
        -- rewrite col_insert_ne; [done|]. intros <-. eapply Hnk; [done|done|exact Hin|done].
        -- intros c' Hc'. rewrite col_insert_ne; [by apply Hown|]. intros ->. eapply column_not_tw; [exact Hm| |exact Htw].
           by apply fwd_cols_column.
      * exists rx. rewrite getrow_put_ne by done. by rewrite Heq.
    + apply Forall_singleton. split; [|split; [by right|by apply Hfree]].
      intros rf rw Hrw. destruct rf; simpl in Hrw; injection Hrw as <-; [done|by apply Hx1].
Qed.

(** ** Statements *)
Notation sk := (λ t j a c, match getrow a t j, getrow c t j with
  | None, None => True
  | Some r1, Some r2 => eqs t r1 r2
  | _, _ => False
  end).
Lemma sk_refl t j a : sk t j a a.
Proof. simpl. by destruct (getrow a t j). Qed.
Lemma sk_trans t j a1 a2 a3 : sk t j a1 a2 → sk t j a2 a3 → sk t j a1 a3.
Proof.
  simpl. destruct (getrow a1 t j), (getrow a2 t j), (getrow a3 t j); try done.
  intros H1 H2 c Hc. rewrite H1 by done. by apply H2.
Qed.
Lemma sk_known t j x rw y : (y = d ∨ y = d') → sk t j y x → getrow x t j = Some rw → known t j rw.
Proof. simpl. intros Hy Hs Hr. rewrite Hr in Hs. destruct (getrow y t j) as [r0|] eqn:Hg; [|done]. by exists y, r0. Qed.
Lemma sk_sym t j a1 a2 : sk t j a1 a2 → sk t j a2 a1.
Proof. simpl. destruct (getrow a1 t j), (getrow a2 t j); try done. intros H1 c Hc. symmetry. by apply H1. Qed.

(** The change leaves row [k] of the keyed table in place, with its key and its own links. *)
Definition key_spared (t : string) (ch : change) : Prop :=
  match ch with
  | CIns _ _ => True
  | CUpd k' g => t = tm → k' = k → ∀ x o p, g x o = Ok p → ∀ c, c = fc ∨ c ∈ fwd_cols S ds → col p.1 c = col o c
  | CDel k' => t = tm → k' ≠ k
  end.

Section batches.
  Notation t := t0.
  Notation fr := (fire E (e_depth E) []).
  Notation fine := (λ ch, ch_quiet ch ∧ key_spared t ch ∧ ¬ sel t (ch_key ch)).

  Lemma key_ok_apply ch x y evs : ch_quiet ch → key_spared t ch → apply_change E t x ch = Ok (y, evs) → key_ok x → key_ok y.
  Proof.
    intros Hq Hs H (rx & Hrx & Hv & Hown). destruct ch as [k' r'|k' g|k']; simpl in *.
    - destruct (getrow x t k') eqn:Hg; [done|]. case_match; [|done]. injection H as <- <-.
      exists rx. rewrite getrow_put_ne; [done|]. intros [<- <-]. congruence.
    - destruct (getrow x t k') as [o|] eqn:Hg; [|injection H as <- <-; by exists rx].
      inv_bind H. case_match; [|done]. injection H as <- <-. destruct (Hq _ _ _ H0) as [_ Hts].
      destruct (decide (t = tm ∧ k' = k)) as [[-> ->]|Hne].
      + exists a.1. rewrite getrow_put_eq. split; [done|]. assert (o = rx) as -> by congruence.
        split; [rewrite (Hs eq_refl eq_refl _ _ _ H0); auto|]. intros c Hc. rewrite (Hs eq_refl eq_refl _ _ _ H0); auto.
      + exists rx. rewrite getrow_put_ne by naive_solver.
        assert (getrow a.2 tm k = getrow x tm k) as -> by (unfold getrow, tab; by rewrite Hts). done.
    - destruct (getrow x t k') as [o|] eqn:Hg; [|injection H as <- <-; by exists rx].
      case_match; [|done]. injection H as <- <-. exists rx. rewrite getrow_del. rewrite decide_False; [done|]. naive_solver.
  Qed.
  Lemma key_ok_all cs : Forall fine cs → ∀ x y evs, apply_all E t cs x = Ok (y, evs) → key_ok x → key_ok y.
  Proof.
    induction cs as [|c cs IH]; intros Hq x y evs H Hx; [by injection H as <- <-|].
    apply Forall_cons in Hq as [(Hq1 & Hq2 & _) Hq].
    rewrite apply_all_cons in H. inv_bind H. destruct a. simpl in H. inv_bind H. destruct a. simpl in H.
    injection H as <- <-. eapply IH; [done|done|]. by eapply key_ok_apply.
  Qed.

  (** Rows not named by a batch keep their columns. *)
  Lemma batch_sk cs x y t' j : Forall fine cs → NoDup (ch_key <$> cs) → run_batch E fr t cs x = Ok y →
    (t' = t → j ∉ ch_key <$> cs) → sk t' j x y.
  Proof.
    intros Hq Hnd H Hj. unfold run_batch in H. inv_bind H. destruct a as [x1 evs]. simpl in H.
    destruct (apply_all_applied E t cs x x1 evs) as (Ap & Hek & _); [|done|done|].
    { eapply Forall_impl; [exact Hq|]. by intros ? []. }
    apply (sk_trans _ _ _ x1).
    - assert (getrow x1 t' j = getrow x t' j) as ->.
      { destruct (decide (t' = t)) as [->|]; [|by apply (ap_other _ _ _ _ Ap)].
        apply (ap_none _ _ _ _ Ap). intros e He <-. by apply (Hj eq_refl), Hek. }
      by destruct (getrow x t' j).
    - assert (Hsk : skel E x1 y); [|apply (Hsk t' j)].
      eapply (foldM_rel (skel E)); [apply skel_refl|apply skel_trans| |exact H]. intros. by eapply fire_skel.
  Qed.
  Lemma batches_sk bs t' j : Forall fine (concat bs) → NoDup (ch_key <$> concat bs) →
    (t' = t → j ∉ ch_key <$> concat bs) → ∀ x y, foldM (λ d cs, run_batch E fr t cs d) x bs = Ok y → sk t' j x y.
  Proof.
    induction bs as [|cs bs IH]; intros Hq Hnd Hj x y H; simpl in H; [injection H as <-; apply sk_refl|].
    inv_bind H. simpl in *. rewrite fmap_app in Hnd, Hj. apply Forall_app in Hq as [Hq1 Hq2].
    apply NoDup_app in Hnd as (Hn1 & _ & Hn2). eapply sk_trans.
    - eapply batch_sk; [exact Hq1|done|exact H0|]. intros Ht Hin. apply (Hj Ht). set_solver.
    - eapply IH; [done..| |exact H]. intros Ht Hin. apply (Hj Ht). set_solver.
  Qed.

  Lemma batches_keep bs : Forall fine (concat bs) → NoDup (ch_key <$> concat bs) →
    ∀ x (dn : list Z), foldM (λ d cs, run_batch E fr t cs d) x bs = Ok d' →
      (∀ j, j ∈ dn → j ∉ ch_key <$> concat bs) →
      (∀ t' j, (t' = t → j ∉ dn) → sk t' j d x) → key_ok x → key_ok d'.
  Proof.
    induction bs as [|cs bs IH]; intros Hq Hnd x dn H Hdn Hd Hkx; simpl in H; [by injection H as <-|].
    inv_bind H. rename a into y. simpl in *. rewrite fmap_app in Hnd, Hdn. pose proof Hq as Hq'. apply Forall_app in Hq' as [Hq1 Hq2].
    apply NoDup_app in Hnd as (Hn1 & Hn12 & Hn2).
    eapply (IH Hq2 Hn2 y (dn ++ (ch_key <$> cs)) H).
    - intros j [Hj|Hj]%elem_of_app; [|by apply Hn12]. intros Hin. apply (Hdn _ Hj). set_solver.
    - intros t' j Hj. eapply sk_trans; [apply Hd; intros Ht Hin; apply (Hj Ht); set_solver|].
      apply (batch_sk cs); [done..|]. intros Ht Hin. apply (Hj Ht). set_solver.
    - pose proof H0 as Hb. unfold run_batch in H0. inv_bind H0. destruct a as [x1 evs]. simpl in H0.
      destruct (apply_all_applied E t cs x x1 evs) as (Ap & Hek & _); [|done|done|].
      { eapply Forall_impl; [exact Hq1|]. by intros ? []. }
      assert (Hs1 : skel E x1 y).
      { eapply (foldM_rel (skel E)); [apply skel_refl|apply skel_trans| |exact H0]. intros. by eapply fire_skel. }
      assert (Hafter : ∀ j, j ∈ dn ∨ j ∈ ch_key <$> cs → sk t j d' x1).
      { intros j Hj. apply sk_sym. eapply sk_trans; [apply (Hs1 t j)|].
        eapply batches_sk; [exact Hq2|exact Hn2| |exact H]. intros _ Hin.
        destruct Hj as [Hj|Hj]; [apply (Hdn _ Hj); set_solver|by apply (Hn12 _ Hj)]. }
      assert (Hbefore : ∀ t' j, (t' = t → j ∉ dn) → (t' = t → j ∉ ch_key <$> cs) → sk t' j d x1).
      { intros t' j Hj1 Hj2. eapply sk_trans; [by apply Hd|].
        assert (getrow x1 t' j = getrow x t' j) as ->; [|apply sk_refl].
        destruct (decide (t' = t)) as [->|]; [|by apply (ap_other _ _ _ _ Ap)].
        apply (ap_none _ _ _ _ Ap). intros e He <-. by apply (Hj2 eq_refl), Hek. }
      assert (Hst : st_ok x1).
      { split; [|by apply (key_ok_all cs Hq1 x x1 evs)].
        intros t' j rw Hrw. destruct (decide (t' = t ∧ (j ∈ dn ∨ j ∈ ch_key <$> cs))) as [[-> Hj]|Hj].
        - eapply (sk_known t j x1 rw d'); [by right|by apply Hafter|done].
        - eapply (sk_known t' j x1 rw d); [by left|apply Hbefore; naive_solver|done]. }
      eapply (foldM_keep st_ok (λ e, e ∈ evs)) in H0; [by destruct H0| |by apply Forall_forall|done].
      intros x2 e y2 He Hx2 Hf2. destruct (ap_ev _ _ _ _ Ap _ He) as [Eo En]. pose proof (ap_tab _ _ _ _ Ap _ He) as Het.
      pose proof (Hek _ He) as Hke. eapply (fire_keep _ [] x2 e y2); [exact Hf2| |by left| |done].
      + intros rf rw Hrw. rewrite Het. destruct rf.
        * eapply (sk_known t _ x1 rw d'); [by right|apply Hafter; auto|by rewrite En].
        * eapply (sk_known t _ x rw d); [by left| |by rewrite Eo].
          apply Hd. intros _ Hin. apply (Hdn _ Hin). set_solver.
      + rewrite Het. apply elem_of_list_fmap in Hke as (ch & -> & Hch). eapply Forall_forall in Hq1; [|exact Hch]. by destruct Hq1 as (_ & _ & ?).
  Qed.

  Lemma exec_keep cs : Forall fine cs → NoDup (ch_key <$> cs) → exec E t cs d = Ok d' → key_ok d → key_ok d'.
  Proof.
    intros Hq Hnd H Hkd. unfold exec, run_stmt in H.
    assert (∃ bs, concat bs = cs ∧ foldM (λ d cs, run_batch E fr t cs d) d bs = Ok d') as (bs & <- & Hbs).
    { assert (Hsing : foldM (λ d c, run_batch E fr t [c] d) d cs = Ok d' →
        ∃ bs, concat bs = cs ∧ foldM (λ d cs, run_batch E fr t cs d) d bs = Ok d').
      { clear. intros H. exists ((λ c, [c]) <$> cs). generalize dependent d.
        induction cs as [|c cs IH]; intros x H; [done|]. rewrite fmap_cons. simpl in *. inv_bind H. rewrite H0. simpl.
        destruct (IH _ H) as [He Hf]. split; [by f_equal|done]. }
      destruct (e_be E); [by apply Hsing| |by apply Hsing]. exists [cs]. simpl. rewrite app_nil_r. split; [done|]. by rewrite H. }
    eapply (batches_keep bs Hq Hnd d []); [done|by intros ? ?%elem_of_nil| |done]. intros t' j _. apply sk_refl.
  Qed.
End batches.

Lemma exec_ins_nodup t rows : ∀ x y, exec E t ((λ p : Z * row, CIns p.1 p.2) <$> rows) x = Ok y → NoDup rows.*1.
Proof.
  intros x y H. unfold exec, run_stmt in H.
  assert (Hsing : foldM (λ d c, run_batch E (fire E (e_depth E) []) t [c] d) x ((λ p : Z * row, CIns p.1 p.2) <$> rows) = Ok y → NoDup rows.*1).
  2:{ destruct (e_be E); [by apply Hsing| |by apply Hsing]. unfold run_batch in H. inv_bind H. destruct a. by apply apply_ins_nodup in H0 as []. }
  clear H. intros H.
  assert (Hg : NoDup rows.*1 ∧ ∀ j, j ∈ rows.*1 → getrow x t j = None); [|by destruct Hg].
  revert x H. induction rows as [|[k1 r1] rows IH]; intros x H; [split; [apply NoDup_nil_2|by intros ? ?%elem_of_nil]|].
  rewrite fmap_cons in H. simpl in H. inv_bind H. destruct (IH _ H) as [I1 I2]. clear IH H. rename a into x2.
  unfold run_batch in H0. inv_bind H0. destruct a as [x1 evs]. simpl in H0.
  rewrite apply_all_cons in H1. simpl in H1. destruct (getrow x t k1) eqn:Hg; [done|]. case_match; [|done]. simpl in H1. injection H1 as <- <-.
  assert (Hs : skel E (put_row x t k1 r1) x2).
  { eapply (foldM_rel (skel E)); [apply skel_refl|apply skel_trans| |exact H0]. intros. by eapply fire_skel. }
  assert (Hno : ∀ j, j ∈ rows.*1 → j ≠ k1 ∧ getrow x t j = None).
  { intros j Hj. specialize (Hs t j). rewrite (I2 _ Hj), getrow_put in Hs. case_decide as Hd; [done|].
    destruct (getrow x t j); [done|]. split; [|done]. intros ->. by apply Hd. }
  csimpl. split.
  - constructor; [|done]. intros Hin. by apply (Hno _ Hin).
  - intros j [->|Hj]%elem_of_cons; [done|]. by apply Hno.
Qed.

Lemma run_op_keep op : is_statement op t0 → run_op E S op d = Ok d' → getrow d tm k = Some r →
  spares op tm k (fc :: fwd_cols S ds) → (∀ j, j ∈ stmt_keys op → ¬ sel t0 j) → key_ok d'.
Proof.
  intros Ht H Hr Hsp Hns. assert (Hkd : key_ok d) by by exists r.
  destruct op as [|t' rows|t' ks g|t' ks]; simpl in Ht, H, Hsp, Hns; [done|subst t'..].
  - eapply exec_keep; [| |exact H|exact Hkd].
    + apply Forall_forall. intros x Hx. apply elem_of_list_fmap in Hx as (y & -> & Hy). simpl. split_and!; [done..|].
      apply Hns. by apply elem_of_list_fmap_1.
    + rewrite <- list_fmap_compose. rewrite (list_fmap_ext _ fst) by done. by eapply exec_ins_nodup.
  - eapply exec_keep; [| |exact H|exact Hkd].
    + apply Forall_forall. intros x Hx. apply elem_of_list_fmap in Hx as (y & -> & Hy). rewrite elem_of_remove_dups in Hy. simpl.
      split_and!; [by intros ??? [= <-]| |by apply Hns].
      intros -> -> x o p [= <-] c Hc. simpl. apply Hsp; [done|done|]. rewrite elem_of_cons. naive_solver.
    + rewrite <- list_fmap_compose. rewrite (list_fmap_ext _ id) by done. rewrite list_fmap_id. apply NoDup_remove_dups.
  - eapply exec_keep; [| |exact H|exact Hkd].
    + apply Forall_forall. intros x Hx. apply elem_of_list_fmap in Hx as (y & -> & Hy). rewrite elem_of_remove_dups in Hy. simpl.
      split_and!; [done| |by apply Hns]. intros -> ->. by apply Hsp.
    + rewrite <- list_fmap_compose. rewrite (list_fmap_ext _ id) by done. rewrite list_fmap_id. apply NoDup_remove_dups.
Qed.
End frame.

Section kept.
Context (b : backend) (S : schema) (rand : nat → Z) (imm : bool) (depth : nat) (E : env).
Context (HE : mk_env b S rand imm depth = Ok E) (Hwf : wf_schema S) (Hna : names_apart S).
Context (m : model) (f : field) (ds : list dep).
Context (Hm : m ∈ s_models S) (Hf : f ∈ m_fields m) (Hk : f_kind f = KCacheKey ds).

Lemma key_kept op t d d' k r :
  is_statement op t → run_op E S op d = Ok d' → getrow d (m_table m) k = Some r →
  spares op (m_table m) k (f_col f :: fwd_cols S ds) →
  (∀ x t' j, x = d ∨ x = d' → key_related S m ds x k r t' j → ¬ leads_to S t t' ∧ ¬ (t' = t ∧ j ∈ stmt_keys op)) →
  ∃ r', getrow d' (m_table m) k = Some r' ∧ col r' (f_col f) = col r (f_col f).
Proof.
  intros Ht Ho Hr Hsp Hno. destruct (mk_env_gen _ _ _ _ _ _ HE) as [l Hl].
  assert (Hn : names_ok b l) by by eapply names_apart_ok.
  pose proof (key_col S Hwf m f ds Hm Hf Hk) as Hc. rewrite Hc in Hsp |- *.
  assert (Hs : ∀ t' j, sel S m ds k d d' r t' j → ¬ leads_to S t t' ∧ ¬ (t' = t ∧ j ∈ stmt_keys op)).
  { intros t' j [Hk'|Hk']; [apply (Hno d)|apply (Hno d')]; auto. }
  destruct (run_op_keep b S rand imm depth E l Hwf HE Hl Hn m f ds Hm Hf Hk k d d' r t) with (op := op) as (r' & Hr' & Hv & _); eauto.
  - intros t' j Hto Hsel. by destruct (Hs _ _ Hsel).
  - intros j Hj Hsel. destruct (Hs _ _ Hsel) as [_ Hn2]. by apply Hn2.
Qed.
End kept.
