(** * Saves as several database accesses, interleaved with other sessions.

    [Orm.v] makes [Model.save()] one step.  Django runs it as separate statements:
    the pre_save signal (denorms.py:18-51), then one [pre_save] per field -- that
    of an aggregate field is a SELECT of the stored value (fields.py:171-177) --
    and only then the UPDATE of all columns.  In autocommit mode another session
    can run between any two of them.

    Simplifications: the many-to-many part of the signal is one step; if no row
    matches the UPDATE, the following INSERT (with its [pre_save(add=True)] and
    post_save) is one step; a body of flush is one step (Machine.v splits it). *)
From stdpp Require Import relations.
From Verif Require Import Base BaseLemmas Schema TrigSet Gen Exec Orm Flush Machine Spec SpecAgg Engine GenLemmas Marking Conditions Invariant Settle Sessions Frame Hist Passes Merge Agg AggEngine AggOps AggDrift AggProps SaveModes SaveModesAgg.

(** A session in the middle of a save: the instance as far as it is prepared and
    the fields whose [pre_save] has still to be called (fields.py:56-80, 159-178,
    282-285; Django calls them in the order of the fields). *)
Record hold := Hold { h_model : model; h_key : Z; h_row : row; h_todo : list field }.

(** [P]: the operations the other sessions run. *)
Inductive race_step (E : env) (S : schema) (P : op → Prop) : db * list (option hold) → db * list (option hold) → Prop :=
  (** any operation of a session that is not in the middle of a save *)
  | rs_op d hs o d' : P o → run_op E S o d = Ok d' → race_step E S P (d, hs) (d', hs)
  (** a body of flush, denorms.py:625-635 *)
  | rs_body d hs mk d' : process E S mk d = Ok d' → race_step E S P (d, hs) (d', hs)
  (** save() of any instance begins: the signal, denorms.py:18-51 *)
  | rs_begin d hs i m k r d' : m ∈ s_models S → hs !! i = Some None → m2m_pre_save E m (Some k) r d = Ok d' →
      race_step E S P (d, hs) (d', <[i := Some (Hold m k r (m_fields m))]> hs)
  (** one field.pre_save(instance, False): fields.py:56-80, 166-178, 282-285 *)
  | rs_field d hs i m k r f fs p : hs !! i = Some (Some (Hold m k r (f :: fs))) →
      presave_field E m false (Some k) (d, r) f = Ok p → race_step E S P (d, hs) (p.1, <[i := Some (Hold m k p.2 fs)]> hs)
  (** the UPDATE of all columns *)
  | rs_write d hs i m k r d' : hs !! i = Some (Some (Hold m k r [])) → is_Some (getrow d (m_table m) k) →
      exec E (m_table m) [upd_all k r] d = Ok d' → race_step E S P (d, hs) (d', <[i := None]> hs)
  (** the row is gone: Django inserts it again *)
  | rs_insert d hs i m k r q d1 s : hs !! i = Some (Some (Hold m k r [])) → getrow d (m_table m) k = None →
      presave_all E m true (Some k) d r = Ok q → exec E (m_table m) [CIns k q.2] q.1 = Ok d1 →
      post_save_created E m k q.2 d1 = Ok s → race_step E S P (d, hs) (s.1, <[i := None]> hs)
  (** an exception ends the save *)
  | rs_fail d hs i h : hs !! i = Some (Some h) → race_step E S P (d, hs) (d, <[i := None]> hs).

(** The step leaves the true value of the aggregate alone in every row that some session is
    still about to save.  (The steps of a save before its UPDATE always do.) *)
Definition apart (m : model) (a : agg) (rel : model) (s s' : db * list (option hold)) : Prop :=
  ∀ i k r fs, s'.2 !! i = Some (Some (Hold m k r fs)) → agg_value s'.1 rel a k = agg_value s.1 rel a k.

(** ** An uninterrupted save is a run of these steps *)
Section whole.
Context (E : env) (S : schema) (P : op → Prop).
Lemma fields_steps hs i m k fs : ∀ d r q, hs !! i = Some (Some (Hold m k r fs)) → foldM (presave_field E m false (Some k)) (d, r) fs = Ok q →
  rtc (race_step E S P) (d, hs) (q.1, <[i := Some (Hold m k q.2 [])]> hs).
Proof.
  revert hs. induction fs as [|f fs IH]; intros hs d r q Hi H.
  - injection H as <-. simpl. rewrite list_insert_id by done. done.
  - rewrite foldM_cons in H. inv_bind H. eapply rtc_l; [by eapply rs_field|]. destruct a as [d1 r1]. simpl.
    rewrite <- (list_insert_insert hs i (Some (Hold m k q.2 [])) (Some (Hold m k r1 fs))). apply (IH _ d1 r1); [|done].
    apply list_lookup_insert. by eapply lookup_lt_Some.
Qed.
Lemma read_steps hs i m k r d d1 q : m ∈ s_models S → hs !! i = Some None → m2m_pre_save E m (Some k) r d = Ok d1 →
  presave_all E m false (Some k) d1 r = Ok q → rtc (race_step E S P) (d, hs) (q.1, <[i := Some (Hold m k q.2 [])]> hs).
Proof.
  intros Hm Hi H1 H2. eapply rtc_l; [by eapply rs_begin|].
  rewrite <- (list_insert_insert hs i (Some (Hold m k q.2 [])) (Some (Hold m k r (m_fields m)))).
  apply (fields_steps _ i m k (m_fields m) d1 r); [|done]. apply list_lookup_insert. by eapply lookup_lt_Some.
Qed.
Lemma save_steps hs i m k r d p : m ∈ s_models S → hs !! i = Some None → save E m (Some k) r d = Ok p →
  (∀ mm, mm ∈ m_m2m m → mm_denorm mm = None) → rtc (race_step E S P) (d, hs) (p.1.1, hs).
Proof.
  intros Hm Hi H Hmm. pose proof (lookup_lt_Some _ _ _ Hi) as Hlt.
  assert (Hpre : m2m_pre_save E m (Some k) r d = Ok d).
  { unfold m2m_pre_save. case_decide; [done|]. clear -Hmm. induction (m_m2m m) as [|mm ms IH]; [done|]. rewrite foldM_cons, (Hmm mm) by left. simpl.
    apply IH. intros; apply Hmm. by right. }
  assert (Hend : ∀ h, <[i := None]> (<[i := Some h]> hs) = hs) by (intros h; by rewrite list_insert_insert, list_insert_id).
  unfold save in H. destruct (getrow d (m_table m) k) as [o|] eqn:Ho.
  - inv_bind H. injection H as <-. simpl. unfold save_existing in H0. rewrite Hpre in H0. cbn [rbind] in H0. inv_bind H0. inv_bind H0. injection H0 as <-. simpl.
    eapply rtc_r; [by eapply read_steps|]. pose proof H1 as Hdb. apply presave_all_db in Hdb as [Ht _].
    rewrite <- (Hend (Hold m k a0.2 [])) at 2. eapply rs_write; [by apply list_lookup_insert| |exact H2].
    unfold getrow, tab in *. rewrite Ht. eauto.
  - rewrite Hpre in H. cbn [rbind] in H. inv_bind H. inv_bind H. inv_bind H. inv_bind H. injection H as <-. simpl.
    eapply rtc_r; [by eapply read_steps|]. pose proof H0 as Hdb. apply presave_all_db in Hdb as [Ht _].
    rewrite <- (Hend (Hold m k a.2 [])) at 2. eapply rs_insert; [by apply list_lookup_insert| |done..]. unfold getrow, tab in *. by rewrite Ht.
Qed.
End whole.

(** ** Callback fields *)
Section callbacks.
Context (b : backend) (S : schema) (rand : nat → Z) (imm : bool) (depth : nat) (E : env) (rank : string → nat).
Context (HE : mk_env b S rand imm depth = Ok E) (Hfl : flushable S rank imm).
Lemma R_inv d d' (HR : ∀ R : db → db → Prop, (∀ x y z, R x y → R y z → R x z) →
    (∀ d d', d_tabs d' = d_tabs d → d_dirty d' = d_dirty d → R d d') →
    (∀ t cs d d', Forall ch_quiet cs → (e_be E = Postgres → NoDup (ch_key <$> cs)) → exec E t cs d = Ok d' → R d d') → R d d') :
  links_ok S d → consistent_or_marked S d → links_ok S d' ∧ consistent_or_marked S d'.
Proof.
  intros L C. destruct (mk_env_gen _ _ _ _ _ _ HE) as [l Hl].
  pose proof (fl_names_ok b S rand imm depth E rank HE Hfl l Hl) as Hn.
  pose proof (fl_ac b S rand imm depth E rank HE Hfl) as Hac. pose proof (flushable_covered S imm rank Hfl) as Hcov. destruct Hfl. split.
  - apply (HR (lgood S)); [..|exact L].
    + intros x y z H1 H2 L1. auto.
    + intros ?? ?? ?. by eapply links_tabs.
    + intros. by eapply exec_lgood with (l := l).
  - intros m k r' Hm Hr'. eapply row_inv; [done|done| | |done|by intros; apply C].
    + intros f fn ds sk rd Hf Hk Hrd. apply (HR (vgood S m rd k)); [..|exact L].
      * apply vgood_trans.
      * apply vgood_tabs.
      * intros. eapply exec_vgood with (l := l) (rank := rank); eauto.
    + apply (HR dmono); [apply dmono_trans|intros; by apply dmono_eq|intros; by eapply exec_dmono].
Qed.
Lemma race_inv s s' : race_step E S (λ _, True) s s' → no_self_relation S s'.1 → finv S s.1 → finv S s'.1.
Proof.
  intros H N Hi. destruct Hi as (L & C & N0). destruct H; cbn [fst snd] in *.
  - destruct (fop_inv b S rand imm depth E rank HE Hfl o d d' H0 L C). by split_and!.
  - by eapply fprocess_inv.
  - destruct (R_inv d d') as [L' C']; [|done|done|by split_and!]. intros R Rt Rtabs Rx. eapply (m2m_pre_save_R E R Rt Rtabs Rx). exact H1.
  - destruct (R_inv d p.1) as [L' C']; [|done|done|by split_and!]. intros R Rt Rtabs Rx. apply presave_field_db in H0 as [? ?]. by apply Rtabs.
  - destruct (R_inv d d') as [L' C']; [|done|done|by split_and!]. intros R Rt Rtabs Rx. eapply (exec1_R E R Rx); [|exact H1]. simpl. by intros ??? [= <-].
  - destruct (R_inv d s.1) as [L' C']; [|done|done|by split_and!]. intros R Rt Rtabs Rx. apply presave_all_db in H1 as [? ?].
    eapply Rt; [by apply (Rtabs d q.1)|]. eapply Rt; [by eapply (exec1_R E R Rx); [|exact H2]|]. by eapply post_save_R.
  - by split_and!.
Qed.
Definition seen_step (s s' : db * list (option hold)) : Prop := race_step E S (λ _, True) s s' ∧ no_self_relation S s'.1.
Lemma race_flush s s' ord n d' : rtc seen_step s s' → finv S s.1 → flush E S ord n s'.1 = (d', Done) → consistent S d' ∧ d_dirty d' = [].
Proof.
  intros Hs Hi Hf. assert (Hi' : finv S s'.1).
  { clear Hf. induction Hs as [|x y z [H1 H2] _ IH]; [done|]. apply IH. by eapply race_inv. }
  destruct Hi' as (L & C & N). split; [|by eapply flush_done_clean]. by eapply fflush_consistent.
Qed.
End callbacks.

(** ** Aggregates *)
Section aggregates.
Context (b : backend) (S : schema) (rand : nat → Z) (depth : nat) (E : env) (l : list trigger).
Context (Hwf : wf_schema S) (HE : mk_env b S rand true depth = Ok E) (Hl : gen_all S = Ok l) (Hnames : names_ok b l).
Context (m : model) (f : field) (a : agg) (rel : model) (Haf : agg_field S m f a rel).
Notation T := (m_table m).
Notation c := (f_col f).
Local Lemma Hal : agg_link S m f a rel. Proof. by apply agg_field_link. Qed.
Local Lemma Hset : settling E m f a rel. Proof. by eapply field_settling. Qed.
Definition held_right (d : db) (h : option hold) : Prop := ∀ m' k r fs, h = Some (Hold m' k r fs) →
  m' ∈ s_models S ∧ (∀ g, g ∈ fs → g ∈ m_fields m') ∧ (m' = m → f ∉ fs → col r c = VInt (agg_value d rel a k)).
Definition race_ok (s : db * list (option hold)) : Prop :=
  (fk_valid m a rel s.1 ∧ agg_exact m f a rel s.1) ∧ ∀ i h, s.2 !! i = Some h → held_right s.1 h.
(** The values held by the sessions stay right. *)
Lemma held_kept s s' : apart m a rel s s' → (∀ i h, s.2 !! i = Some h → held_right s.1 h) →
  (∀ i h, s'.2 !! i = Some h → s.2 !! i = Some h ∨ held_right s'.1 h) → ∀ i h, s'.2 !! i = Some h → held_right s'.1 h.
Proof.
  intros Ha H1 H2 i h Hh. destruct (H2 i h Hh) as [H|H]; [|done]. intros m' k r fs ->. destruct (H1 i _ H m' k r fs eq_refl) as (A & B & C).
  split_and!; [done|done|]. intros -> Hf. rewrite (Ha _ _ _ _ Hh). by apply C.
Qed.
Lemma held_insert d (hs : list (option hold)) i x : held_right d x → ∀ j h, <[i := x]> hs !! j = Some h → hs !! j = Some h ∨ held_right d h.
Proof.
  intros Hx j h. destruct (decide (i = j)) as [<-|Hne].
  - destruct (decide (i < length hs)%nat) as [Hlt|Hge].
    + rewrite list_lookup_insert by done. intros [= <-]. by right.
    + rewrite list_insert_ge by lia. by left.
  - rewrite list_lookup_insert_ne by done. by left.
Qed.
Lemma held_none d : held_right d None.
Proof. by intros ????. Qed.
Lemma race_agg s s' : race_step E S (clean_op m f) s s' → apart m a rel s s' → race_ok s → race_ok s'.
Proof.
  intros H Ha [He Hh]. pose proof Hal as Hal. pose proof Hset as Hset.
  assert (Hkeep : ∀ d d' hs hs', (d, hs) = s → (d', hs') = s' → (exact m f a rel d → exact m f a rel d') →
    (∀ j h, hs' !! j = Some h → hs !! j = Some h ∨ held_right d' h) → race_ok s').
  { intros d d' hs hs' <- <- Hd Hx. split; [|by eapply held_kept]. apply (exact_spec m f a rel). apply Hd. by apply (exact_spec m f a rel). }
  destruct H; cbn [fst snd] in *.
  - eapply Hkeep; [reflexivity..| |by left]. by eapply run_op_exact.
  - eapply Hkeep; [reflexivity..| |by left]. by eapply process_exact.
  - eapply Hkeep; [reflexivity..| |].
    + by eapply m2m_pre_save_exact.
    + apply held_insert. intros m' k' r' fs [= -> -> -> <-]. split_and!; [done|done|]. intros -> Hn. by destruct Hn; apply Haf.
  - destruct (Hh _ _ H _ _ _ _ eq_refl) as (Hm0 & Hsub & Hval). pose proof H0 as Hdb. apply presave_field_db in Hdb as [Ht _]. simpl in Ht.
    eapply Hkeep; [reflexivity..| |].
    + by apply exact_tabs.
    + apply held_insert. intros m' k' r' fs' [= <- <- <- <-]. split_and!; [done|intros; apply Hsub; by right|]. intros -> Hn.
      rewrite agg_value_recount, (recount_tabs _ _ d) by done. rewrite <- agg_value_recount.
      assert (Hg : f0 ∈ m_fields m) by (apply Hsub; left).
      destruct (decide (f_col f0 = c)) as [Heq|Hne].
      * assert (f0 = f) as ->.
        { eapply NoDup_fmap_eq; [exact (wf_cols _ _ (wf_models _ Hwf _ (al_model _ _ _ _ _ Hal)))|done|apply Haf|done]. }
        unfold presave_field in H0. rewrite (al_kind _ _ _ _ _ Hal) in H0. simpl in H0. destruct (getrow d T k) as [r0|] eqn:Hr0; [|done].
        case_match; [|done]. injection H0 as <-. simpl. rewrite col_insert_eq. by apply He.
      * assert (Hp : foldM (presave_field E m false (Some k)) (d, r) [f0] = Ok p) by (by rewrite foldM_cons, H0).
        apply (presave_other E m f) in Hp as [_ ->]; [|by intros g ->%elem_of_list_singleton]. simpl. apply Hval; [done|].
        intros [->|?]%elem_of_cons; [done|]. by apply Hn.
  - destruct (Hh _ _ H _ _ _ _ eq_refl) as (Hm0 & _ & Hval).
    eapply Hkeep; [reflexivity..| |apply held_insert, held_none].
    intros Hex. eapply exec1_exact; [done..| | |exact H1|done]; [|simpl; by intros ??? [= <-]].
    intros HT. eapply model_T in HT as ->; [|done..]. simpl. intros o p Ho [= <-]. simpl.
    rewrite Hval; [|done|apply not_elem_of_nil]. symmetry. by apply He.
  - destruct (Hh _ _ H _ _ _ _ eq_refl) as (Hm0 & _ & _).
    eapply Hkeep; [reflexivity..| |apply held_insert, held_none]. intros Hex.
    pose proof H1 as Hps. apply presave_all_db in H1 as [Ht _].
    eapply post_save_exact; [done..|exact H3|]. eapply exec1_exact; [done..| | |exact H2|by eapply exact_tabs]; [|done].
    intros HT. eapply model_T in HT as ->; [|done..]. by eapply presave_agg in Hps.
  - eapply Hkeep; [reflexivity..|done|apply held_insert, held_none].
Qed.
Lemma race_aggs s s' : rtc (λ x y, race_step E S (clean_op m f) x y ∧ apart m a rel x y) s s' → race_ok s → race_ok s'.
Proof. induction 1 as [|x y z [H1 H2] _ IH]; [done|]. intros Ho. apply IH. by eapply race_agg. Qed.
End aggregates.

(** ** The size of the error *)
Section error.
Context (b : backend) (S : schema) (rand : nat → Z) (imm : bool) (depth : nat) (E : env).
Context (Hwf : wf_schema S) (Hna : names_apart S).
(** Read in [d1], written in [d2], whatever happened in between. *)
Lemma race_error m f a rel k r d1 q d2 d3 r1 v : mk_env b S rand imm depth = Ok E → agg_field S m f a rel →
  getrow d1 (m_table m) k = Some r1 → col r1 (f_col f) = VInt v → presave_all E m false (Some k) d1 r = Ok q →
  is_Some (getrow d2 (m_table m) k) → exec E (m_table m) [upd_all k q.2] d2 = Ok d3 →
  ∃ r3, getrow d3 (m_table m) k = Some r3 ∧
    col r3 (f_col f) = VInt (agg_value d3 rel a k + (v - agg_value d1 rel a k) - (agg_value d2 rel a k - agg_value d1 rel a k)).
Proof.
  intros HE Haf Hr1 Hv Hq Hr2 Hx. destruct (mk_env_gen _ _ _ _ _ _ HE) as [l Hl]. rewrite !agg_value_recount.
  apply (presave_agg S E Hwf m f a rel (agg_field_link S m f a rel Haf)) in Hq as (k0 & r0 & [= <-] & Hr0 & Hc).
  assert (r0 = r1) as -> by congruence. rewrite Hv in Hc.
  edestruct (own_change b S rand imm depth E l Hwf HE Hl ltac:(by eapply names_apart_ok) m f a rel Haf k (upd_all k q.2) q.2 d2 d3 v) as (r3 & Hr3 & Hv3);
    [by left|done|done|]. exists r3. split; [done|]. rewrite Hv3. f_equal. lia.
Qed.
End error.
Section exact.
Context (b : backend) (S : schema) (rand : nat → Z) (depth : nat) (E : env) (Hwf : wf_schema S) (Hna : names_apart S).
Lemma race_exact m f a rel s s' : mk_env b S rand true depth = Ok E → agg_field S m f a rel →
  fk_valid m a rel s.1 → agg_exact m f a rel s.1 → (∀ i h, s.2 !! i = Some h → h = None) →
  rtc (λ x y, race_step E S (clean_op m f) x y ∧ apart m a rel x y) s s' → fk_valid m a rel s'.1 ∧ agg_exact m f a rel s'.1.
Proof.
  intros HE Haf H1 H2 H3 Hs. destruct (mk_env_gen _ _ _ _ _ _ HE) as [l Hl].
  refine (proj1 (race_aggs b S rand depth E l Hwf HE Hl _ m f a rel Haf s s' Hs _)); [by eapply names_apart_ok|].
  split; [done|]. intros i h Hi. rewrite (H3 i h Hi). intros ????. done.
Qed.
End exact.
