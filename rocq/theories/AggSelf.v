(** * Aggregates over a relation of a model to itself.

    The triggers write the table they are installed on.  MySQL refuses that always;
    PostgreSQL recurses, which never ends when the rows refer to each other in a cycle. *)
From Verif Require Import Base BaseLemmas Schema TrigSet Gen Exec Orm Flush Machine Spec SpecAgg Engine GenLemmas Marking Conditions Invariant Settle Sessions Frame Hist Agg AggEngine AggOps Merge.

(** Every row with a key in [C] is counted and refers to a row with a key in [C]; in a
    finite table such rows form a cycle. *)
Definition closed_refs (m : model) (a : agg) (C : gset Z) (d : db) : Prop := ∀ k, k ∈ C →
  ∃ r k', getrow d (m_table m) k = Some r ∧ selected a r ∧ k' ∈ C ∧ col r (ag_fk a) = VInt k'.

Lemma foldM_at {A B} (g : A → B → res A) (Rel : A → A → Prop) xs : (∀ d, Rel d d) → (∀ x y z, Rel x y → Rel y z → Rel x z) →
  (∀ x d d', x ∈ xs → g d x = Ok d' → Rel d d') → ∀ d d' x, x ∈ xs → foldM g d xs = Ok d' → ∃ d1 d2, Rel d d1 ∧ g d1 x = Ok d2.
Proof.
  intros Hr Ht. induction xs as [|y xs IH]; intros Hg d d' x Hx H; [by apply elem_of_nil in Hx|]. rewrite foldM_cons in H. inv_bind H.
  apply elem_of_cons in Hx as [->|Hx]; [by exists d, a|].
  destruct (IH ltac:(intros; eapply Hg; [by right|done]) _ _ _ Hx H) as (d1 & d2 & H1 & H2). exists d1, d2. split; [|done].
  eapply Ht; [|exact H1]. eapply Hg; [left|done].
Qed.

Lemma selected_cols a r r' : (∀ c, c ∈ agg_cols a → col r c = col r' c) → selected a r → selected a r'.
Proof.
  intros H. assert (Hs : selected a r' ↔ selected a r); [|by apply Hs]. unfold selected.
  assert (Hf : ∀ l, (∀ x, x ∈ l → col r' (c_col x) = col r (c_col x)) →
    Forall (λ c, lookup_true c (col r' (c_col c))) l ↔ Forall (λ c, lookup_true c (col r (c_col c))) l).
  { intros l Hl. rewrite !Forall_forall. split; intros Ha x Hx; [rewrite <- Hl by done|rewrite Hl by done]; by apply Ha. }
  rewrite !Hf; [done|..]; intros x Hx; symmetry; apply H; right; rewrite !elem_of_app; [right; left|left]; apply elem_of_list_fmap; by exists x.
Qed.

Section self.
Context (b : backend) (S : schema) (rand : nat → Z) (imm : bool) (depth : nat) (E : env) (l : list trigger).
Context (Hwf : wf_schema S) (HE : mk_env b S rand imm depth = Ok E) (Hl : gen_all S = Ok l) (Hnames : names_ok b l).
Context (m : model) (f : field) (a : agg) (Haf : agg_field S m f a m).
Notation T := (m_table m).
Notation c := (f_col f).
Notation inc := (inc m f a).
Notation dec := (dec m f a).

Lemma fire_action n act it x d e d' : it ∈ e_trigs E → trig_applies E act e it = true → x ∈ i_acts it → fire E (Datatypes.S n) act d e = Ok d' →
  ∃ d1 d2, skel E d d1 ∧ run_action E (fire E n ((i_name it, i_tab it) :: act)) ((i_name it, i_tab it) :: act) e d1 x = Ok d2.
Proof.
  intros Hit Hap Hx H. cbn [fire] in H.
  assert (Hact : ∀ it0 x d d', it0 ∈ e_trigs E → trig_applies E act e it0 = true → x ∈ i_acts it0 →
    run_action E (fire E n ((i_name it0, i_tab it0) :: act)) ((i_name it0, i_tab it0) :: act) e d x = Ok d' → skel E d d').
  { intros it0 x0 d1 d2 Hit0 _ Hx0 Hr. eapply (run_action_rel E (skel E)); eauto using skel_refl, skel_trans, skel_mark.
    - intros. by eapply skel_upd.
    - intros. by eapply fire_skel. }
  apply (foldM_at _ (skel E)) with (x := it) in H as (d1 & d2 & Hs & H1); [|apply skel_refl|apply skel_trans| |done].
  2: { intros it0 d1 d2 Hit0 H1. destruct (trig_applies E act e it0) eqn:Hap0; [|injection H1 as <-; apply skel_refl].
    eapply (foldM_rel (skel E)); [apply skel_refl|apply skel_trans| |exact H1]. intros d3 x0 d4 Hx0 Hr. by eapply Hact. }
  cbv beta in H1. rewrite Hap in H1.
  apply (foldM_at _ (skel E)) with (x := x) in H1 as (d3 & d4 & Hs' & H2); [|apply skel_refl|apply skel_trans| |done].
  2: { intros x0 d3 d4 Hx0 Hr. by eapply Hact. }
  exists d3, d4. split; [by eapply skel_trans|done].
Qed.

(** ** PostgreSQL *)
Lemma closed_skel C d d' : skel E d d' → closed_refs m a C d → closed_refs m a C d'.
Proof.
  intros Hs H k Hk. destruct (H k Hk) as (r & k' & Hr & Hsel & Hk' & Hfk). 
  pose proof (Hs T k) as Hsk. rewrite Hr in Hsk. destruct (getrow d' T k) as [r'|]; [|done].
  assert (Hc : ∀ x, x ∈ agg_cols a → col r' x = col r x).
  { intros x Hx. symmetry. apply Hsk. by eapply (cols_not_tw b S rand imm depth E l Hwf HE Hl m f a m Haf). }
  exists r', k'. split; [done|].
  split; [|split; [done|rewrite Hc; [done|left]]]. eapply selected_cols; [|exact Hsel]. intros. symmetry. by apply Hc.
Qed.
Lemma apply_at t cs : (∀ ch, ch ∈ cs → ∃ c0 x w e d0, tw E t c0 ∧ ch ∈ upd_changes E e d0 t c0 x w) → ∀ d d' evs k g, CUpd k g ∈ cs → is_Some (getrow d t k) → apply_all E t cs d = Ok (d', evs) →
  ∃ d1 o p, skel E d d1 ∧ getrow d1 t k = Some o ∧ g d1 o = Ok p ∧ Ev t k (ChUpd o p.1) ∈ evs.
Proof.
  induction cs as [|ch cs IH]; intros Hcs d d' evs k g Hin Hrow H; [by apply elem_of_nil in Hin|].
  rewrite apply_all_cons in H. inv_bind H. destruct a0 as [d1 e1]. simpl in H. inv_bind H. destruct a0 as [d2 e2]. simpl in H. injection H as <- <-.
  apply elem_of_cons in Hin as [<-|Hin].
  - simpl in H0. destruct Hrow as [o Ho]. rewrite Ho in H0. inv_bind H0. destruct (_ || _); [|done]. injection H0 as <- <-.
    exists d, o, a0. split; [apply skel_refl|]. split; [done|]. split; [done|]. left.
  - assert (Hs : skel E d d1).
    { destruct (Hcs ch ltac:(left)) as (c0 & x & w & e & d0 & Htw & Hch). eapply (upd_change_rel E (skel E)); eauto using skel_refl, skel_trans, skel_mark.
      intros. by eapply skel_upd. }
    destruct (IH ltac:(intros; apply Hcs; by right) _ _ _ _ _ Hin ltac:(by eapply skel_some) H1) as (d3 & o & p & Hs3 & Ho & Hg & He).
    exists d3, o, p. split; [by eapply skel_trans|]. split; [done|]. split; [done|]. apply elem_of_app. by right.
Qed.

(** ** MySQL *)
Lemma mysql_fire n d e d' : b = MySQL → ev_tab e = T → (ev_kind e = EvIns ∨ ev_kind e = EvDel) → fire E n [] d e ≠ Ok d'.
Proof.
  intros Hb Het Hkind H. destruct n as [|n]; [done|].
  assert (Hinst : ∃ it x, it ∈ e_trigs E ∧ i_tab it = T ∧ trig_applies E [] e it = true ∧ x ∈ i_acts it ∧ (x = inc ∨ x = dec)).
  { destruct Hkind as [Hi|Hi].
    - destruct (inst_cond b S rand imm depth E l Hwf HE Hl Hnames m f a m Haf (trI m f a m) e) as (it & Hit & _ & Ht & Hev & Hacts & Hc);
        [right; left|done|done|]. exists it, inc. split; [done|]. split; [done|]. split; [|split; [apply Hacts; left|by left]].
      unfold trig_applies. rewrite !andb_true_iff, !bool_decide_eq_true. split_and!; [congruence|simpl in Hev; congruence| |].
      + apply negb_true_iff, andb_false_iff. right. apply bool_decide_eq_false. by intros ?%elem_of_nil.
      + destruct (cond_holds E e (i_cond it)); [done|]. by destruct (Hc eq_refl) as [? _].
    - destruct (inst_cond b S rand imm depth E l Hwf HE Hl Hnames m f a m Haf (trD m f a m) e) as (it & Hit & _ & Ht & Hev & Hacts & Hc);
        [right; right; left|done|done|]. exists it, dec. split; [done|]. split; [done|]. split; [|split; [apply Hacts; left|by right]].
      unfold trig_applies. rewrite !andb_true_iff, !bool_decide_eq_true. split_and!; [congruence|simpl in Hev; congruence| |].
      + apply negb_true_iff, andb_false_iff. right. apply bool_decide_eq_false. by intros ?%elem_of_nil.
      + destruct (cond_holds E e (i_cond it)); [done|]. by destruct (Hc eq_refl) as [? _]. }
  destruct Hinst as (it & x & Hit & Ht & Hap & Hx & Hxx). destruct (fire_action n [] it x d e d' Hit Hap Hx H) as (d1 & d2 & _ & Hr).
  assert (Hbe : e_be E = MySQL) by (rewrite (E_be b S rand imm depth E l HE Hl); done).
  destruct Hxx as [-> | ->]; unfold AggEngine.inc, AggEngine.dec, run_action in Hr; (rewrite decide_True in Hr; [done|split; [done|rewrite Ht; left]]).
Qed.
Lemma mysql_insert d k r rows d' : b = MySQL → run_op E S (OInsert T ((k, r) :: rows)) d ≠ Ok d'.
Proof.
  intros Hb H. simpl in H. assert (Hbe : e_be E = MySQL) by (rewrite (E_be b S rand imm depth E l HE Hl); done).
  unfold exec, run_stmt in H. rewrite Hbe in H. rewrite foldM_cons in H. inv_bind H. unfold run_batch in H0. inv_bind H0. destruct a1 as [d1 evs].
  rewrite apply_all_cons in H1. inv_bind H1. destruct a1 as [d2 e2]. simpl in H1, H2. injection H1 as <- <-. destruct (getrow d T k); [done|].
  destruct (_ || _); [|done]. injection H2 as <- <-. simpl in H0. inv_bind H0. eapply (mysql_fire _ _ (Ev T k (ChIns r))); [done|done|by left|exact H1].
Qed.
Lemma mysql_delete d k o d' : b = MySQL → getrow d T k = Some o → run_op E S (ODelete T [k]) d ≠ Ok d'.
Proof.
  intros Hb Ho H. simpl in H. assert (Hbe : e_be E = MySQL) by (rewrite (E_be b S rand imm depth E l HE Hl); done).
  unfold exec, run_stmt in H. rewrite Hbe in H. rewrite foldM_cons in H. inv_bind H. unfold run_batch in H0. inv_bind H0. destruct a1 as [d1 evs].
  rewrite apply_all_cons in H1. inv_bind H1. destruct a1 as [d2 e2]. simpl in H1, H2. injection H1 as <- <-. rewrite Ho in H2.
  destruct (_ || _); [|done]. injection H2 as <- <-. simpl in H0. inv_bind H0. eapply (mysql_fire _ _ (Ev T k (ChDel o))); [done|done|by right|exact H1].
Qed.
Lemma mysql_save d r p : b = MySQL → save E m None r d ≠ Ok p.
Proof.
  intros Hb H. unfold save in H. inv_bind H. inv_bind H. eapply (mysql_insert _ _ _ []); [done|]. simpl. exact H1.
Qed.
Context (Hcount : ag_sum a = None) (Htr : tracked S m c).
Lemma loop C n : e_be E = Postgres → ∀ act d e d' r k, closed_refs m a C d → k ∈ C → ev_tab e = T → ev_new e = Some r → col r (ag_fk a) = VInt k → selected a r →
  (ev_kind e = EvIns ∨ ev_kind e = EvUpd ∧ ∃ x, tracked S m x ∧ ref_val E e ROld x ≠ ref_val E e RNew x) → fire E n act d e ≠ Ok d'.
Proof.
  intros Hpg. induction n as [|n IH]; intros act d e d' r k Hcl Hk Het Hnew Hfk Hsel Hkind H; [done|].
  assert (Hinst : ∃ it, it ∈ e_trigs E ∧ trig_applies E act e it = true ∧ inc ∈ i_acts it).
  { destruct Hkind as [Hi|[Hu (x & Hx & Hne)]].
    - destruct (inst_cond b S rand imm depth E l Hwf HE Hl Hnames m f a m Haf (trI m f a m) e) as (it & Hit & _ & Ht & Hev & Hacts & Hc);
        [right; left|done|done|]. exists it. split; [done|]. split; [|apply Hacts; left].
      unfold trig_applies. rewrite !andb_true_iff, !bool_decide_eq_true. split_and!; [congruence|simpl in Hev; congruence| |].
      + apply negb_true_iff, andb_false_iff. left. apply bool_decide_eq_false. congruence.
      + destruct (cond_holds E e (i_cond it)); [done|]. by destruct (Hc eq_refl) as [? _].
    - destruct (inst_cond b S rand imm depth E l Hwf HE Hl Hnames m f a m Haf (trU m f a m) e) as (it & Hit & _ & Ht & Hev & Hacts & Hc);
        [left|done|done|]. exists it. split; [done|]. split; [|apply Hacts; left].
      unfold trig_applies. rewrite !andb_true_iff, !bool_decide_eq_true. split_and!; [congruence|simpl in Hev; congruence| |].
      + apply negb_true_iff, andb_false_iff. left. apply bool_decide_eq_false. congruence.
      + destruct (cond_holds E e (i_cond it)); [done|]. destruct (Hc eq_refl) as [_ Hsame]. by destruct Hne; apply Hsame. }
  destruct Hinst as (it & Hit & Hap & Hinc). destruct (fire_action n act it inc d e d' Hit Hap Hinc H) as (d1 & d2 & Hs & Hr).
  pose proof (closed_skel C _ _ Hs Hcl) as Hcl1. destruct (Hcl1 k Hk) as (r1 & k' & Hr1 & Hsel1 & Hk' & Hfk1).
  unfold AggEngine.inc, run_action in Hr. rewrite decide_False in Hr by (rewrite Hpg; by intros []).
  unfold run_stmt in Hr. rewrite Hpg in Hr. unfold run_batch in Hr. inv_bind Hr. destruct a0 as [d3 evs]. simpl in Hr.
  assert (Htw : tw E T c) by (by eexists it, _, _).
  assert (Hin : ∃ g, CUpd k g ∈ upd_changes E e d1 T c (inc_x a) (WEq (m_pk m) RNew (ag_fk a) (ag_filter a) (ag_exclude a)) ∧
    ∀ d o p, g d o = Ok p → ∃ v, col o c = VInt v ∧ p.1 = <[c := VInt (v + 1)]> o).
  { eexists. split.
    - apply elem_of_list_fmap. exists (k, r1). split; [reflexivity|]. apply elem_of_list_filter. split; [|by apply elem_of_map_to_list].
      cbn [fst snd]. apply (where_contrib b S rand imm depth E l Hwf HE Hl m f a m Haf e d1 k r1 RNew (Some r)); [done|done|]. by exists r.
    - intros d4 o p Hg. cbn [fst snd] in Hg. unfold inc_x in Hg. rewrite Hcount in Hg. simpl in Hg. inv_bind Hg. injection Hg as <-. inv_bind Hg0. injection Hg0 as <-. rename Hg1 into Hg.
      unfold cell in Hg. rewrite (pk_T b S rand imm depth E l Hwf HE Hl m f a m Haf), decide_False in Hg by apply (c_not_pk S Hwf m f a m Haf).
      unfold arith in Hg. destruct (col o c) as [|v|]; try done. case_decide; [done|]. injection Hg as <-. simpl. exists v. split; [done|]. by do 2 f_equal. }
  destruct Hin as (g & Hin & Hg).
  destruct (apply_at T (upd_changes E e d1 T c (inc_x a) (WEq (m_pk m) RNew (ag_fk a) (ag_filter a) (ag_exclude a))) ltac:(intros ch Hch; by eexists _, _, _, _, _)
    _ _ _ _ _ Hin ltac:(by rewrite Hr1) Hr0) as (d4 & o & p & Hs4 & Ho & Hgo & He).
  destruct (Hg _ _ _ Hgo) as (v & Hv & Hp).
  assert (Hs3 : skel E d1 d3).
  { eapply (apply_all_rel E (skel E)); [apply skel_refl|apply skel_trans| |exact Hr0]. intros d5 ch d6 evs' Hch Hap'.
    eapply (upd_change_rel E (skel E)); eauto using skel_refl, skel_trans, skel_mark. intros. by eapply skel_upd. }
  destruct (foldM_at _ (skel E) evs (skel_refl E) (skel_trans E) ltac:(intros; by eapply fire_skel) d3 d2 _ He Hr) as (d5 & d6 & Hs5 & Hfire).
  revert Hfire. destruct (closed_skel C _ _ Hs4 Hcl1 k Hk) as (o' & k2 & Ho' & Hsel' & Hk2 & Hfk').
  assert (o' = o) as -> by congruence.
  assert (Hcne : ∀ x, x ∈ agg_cols a → x ≠ c).
  { intros x Hx ->. by eapply (cols_not_tw b S rand imm depth E l Hwf HE Hl m f a m Haf). }
  eapply (IH _ _ _ _ p.1 k2); [|done|done|done| | |].
  - eapply closed_skel; [|exact Hcl1]. by eapply skel_trans.
  - rewrite Hp. unfold col. rewrite lookup_insert_ne; [exact Hfk'|]. intros Hx. eapply Hcne; [left|done].
  - rewrite Hp. eapply selected_cols; [|exact Hsel']. intros x Hx. unfold col. rewrite lookup_insert_ne; [done|]. intros Hxx. by eapply Hcne.
  - right. split; [done|]. exists c. split; [done|]. unfold ref_val. simpl. rewrite Hp. unfold cell.
    rewrite (pk_T b S rand imm depth E l Hwf HE Hl m f a m Haf), !decide_False by apply (c_not_pk S Hwf m f a m Haf).
    rewrite Hv, col_insert_eq. intros [= Hx]. lia.
Qed.
Lemma pg_insert C d k r d' : b = Postgres → closed_refs m a C (put_row d T k r) → k ∈ C → run_op E S (OInsert T [(k, r)]) d ≠ Ok d'.
Proof.
  intros Hb Hcl Hk H. assert (Hbe : e_be E = Postgres) by (rewrite (E_be b S rand imm depth E l HE Hl); done).
  simpl in H. unfold exec in H. apply run_stmt_single in H. unfold run_batch in H. inv_bind H. destruct a0 as [d1 evs].
  rewrite apply_all_cons in H0. inv_bind H0. destruct a0 as [d2 e2]. simpl in H0, H1. injection H0 as <- <-. destruct (getrow d T k); [done|].
  destruct (_ || _); [|done]. injection H1 as <- <-. simpl in H. inv_bind H. revert H0.
  destruct (Hcl k Hk) as (r' & k' & Hr' & Hsel & Hk' & Hfk). rewrite getrow_put, decide_True in Hr' by done. injection Hr' as <-.
  eapply (loop C); [done|done|exact Hk'|done|done|done|done|by left].
Qed.
Lemma pg_update C d k o g d' : b = Postgres → getrow d T k = Some o → closed_refs m a C (put_row d T k (g o)) → k ∈ C →
  col (g o) (ag_fk a) ≠ col o (ag_fk a) → run_op E S (OUpdate T [k] g) d ≠ Ok d'.
Proof.
  intros Hb Ho Hcl Hk Hne H. assert (Hbe : e_be E = Postgres) by (rewrite (E_be b S rand imm depth E l HE Hl); done).
  simpl in H. unfold exec in H. apply run_stmt_single in H. unfold run_batch in H. inv_bind H. destruct a0 as [d1 evs].
  rewrite apply_all_cons in H0. inv_bind H0. destruct a0 as [d2 e2]. simpl in H0, H1. injection H0 as <- <-. rewrite Ho in H1. simpl in H1.
  destruct (_ || _); [|done]. injection H1 as <- <-. simpl in H. inv_bind H. revert H0.
  destruct (Hcl k Hk) as (r' & k' & Hr' & Hsel & Hk' & Hfk). rewrite getrow_put, decide_True in Hr' by done. injection Hr' as <-.
  eapply (loop C); [done|done|exact Hk'|done|done|done|done|]. right. split; [done|]. exists (ag_fk a).
  destruct (af_cols _ _ _ _ _ Haf (ag_fk a) ltac:(left)) as [_ Ht]. split; [done|]. unfold ref_val. simpl.
  rewrite !(cell_col b S rand imm depth E l Hwf HE Hl m f a m Haf) by left. congruence.
Qed.
End self.

(** ** Under the conditions of Spec.v *)
Section props.
Context (S : schema) (rand : nat → Z) (imm : bool) (depth : nat) (E : env) (Hwf : wf_schema S) (Hna : names_apart S).
Section mysql.
Context (HE : mk_env MySQL S rand imm depth = Ok E) (m : model) (f : field) (a : agg) (Haf : agg_field S m f a m).
Lemma self_mysql_insert d k r rows d' : run_op E S (OInsert (m_table m) ((k, r) :: rows)) d ≠ Ok d'.
Proof. destruct (mk_env_gen _ _ _ _ _ _ HE) as [l Hl]. eapply (mysql_insert MySQL S rand imm depth E l); eauto. by eapply names_apart_ok. Qed.
Lemma self_mysql_save d r p : save E m None r d ≠ Ok p.
Proof. destruct (mk_env_gen _ _ _ _ _ _ HE) as [l Hl]. eapply (mysql_save MySQL S rand imm depth E l); eauto. by eapply names_apart_ok. Qed.
Lemma self_mysql_delete d k o d' : getrow d (m_table m) k = Some o → run_op E S (ODelete (m_table m) [k]) d ≠ Ok d'.
Proof. destruct (mk_env_gen _ _ _ _ _ _ HE) as [l Hl]. eapply (mysql_delete MySQL S rand imm depth E l); eauto. by eapply names_apart_ok. Qed.
End mysql.
Context (HE : mk_env Postgres S rand imm depth = Ok E) (m : model) (f : field) (a : agg) (Haf : agg_field S m f a m).
Lemma self_pg_insert C d k r d' : ag_sum a = None → tracked S m (f_col f) →
  closed_refs m a C (put_row d (m_table m) k r) → k ∈ C → run_op E S (OInsert (m_table m) [(k, r)]) d ≠ Ok d'.
Proof. intros. destruct (mk_env_gen _ _ _ _ _ _ HE) as [l Hl]. eapply (pg_insert Postgres S rand imm depth E l); eauto. by eapply names_apart_ok. Qed.
Lemma self_pg_update C d k o g d' : ag_sum a = None → tracked S m (f_col f) →
  getrow d (m_table m) k = Some o → closed_refs m a C (put_row d (m_table m) k (g o)) → k ∈ C → col (g o) (ag_fk a) ≠ col o (ag_fk a) →
  run_op E S (OUpdate (m_table m) [k] g) d ≠ Ok d'.
Proof. intros. destruct (mk_env_gen _ _ _ _ _ _ HE) as [l Hl]. eapply (pg_update Postgres S rand imm depth E l); eauto. by eapply names_apart_ok. Qed.
End props.
