(** * QuerySet.bulk_create().

    Django's part: for every batch the compiler of INSERT calls [field.pre_save(obj, add=True)] of every
    concrete field of every object, in the order of the objects, and then sends one INSERT; no signals
    are sent, so denorms.py:18-63 (many_to_many_pre_save, many_to_many_post_save) do not run. *)
From Verif Require Import Base BaseLemmas Schema TrigSet Gen Exec Orm Flush Machine Spec SpecAgg Engine GenLemmas Marking Conditions Invariant Settle Sessions Hist AggOps AggProps SaveRace.

(** [field.pre_save(obj, add=True)] for all objects of a batch (fields.py:56-80, 159-178, 282-285). *)
Definition presave_objs (E : env) (m : model) (objs : list (option Z * row)) (d : db) : res (db * list (option Z * row)) :=
  foldM (λ p o, let* q := presave_all E m true o.1 p.1 o.2 in Ok (q.1, p.2 ++ [(o.1, q.2)])) (d, []) objs.
(** The database chooses the keys that are missing. *)
Fixpoint with_keys (n : Z) (objs : list (option Z * row)) : list (Z * row) :=
  match objs with
  | [] => []
  | (Some k, r) :: l => (k, r) :: with_keys n l
  | (None, r) :: l => (n, r) :: with_keys (n + 1) l
  end.
Definition bulk_batch (E : env) (m : model) (objs : list (option Z * row)) (d : db) : res db :=
  let* p := presave_objs E m objs d in
  exec E (m_table m) ((λ p : Z * row, CIns p.1 p.2) <$> with_keys (fresh_key (tab d (m_table m))) p.2) p.1.
(** The objects that have a key come first, in batches, then the others; all in one
    transaction.  The caller gives the batches here.  Models with a parent table are refused. *)
Definition bulk_create (E : env) (m : model) (batches : list (list (option Z * row))) (d : db) : res db :=
  if negb (m_proxy m) && existsb (λ f, negb (bool_decide (f_owner f = m_name m))) (m_fields m) then Err EValue
  else foldM (λ d objs, bulk_batch E m objs d) d batches.

(** ** The rows that are inserted *)
Lemma presave_objs_ok E m objs d p : presave_objs E m objs d = Ok p →
  d_tabs p.1 = d_tabs d ∧ d_dirty p.1 = d_dirty d ∧
  Forall2 (λ o o', o'.1 = o.1 ∧ ∃ d1 q, d_tabs d1 = d_tabs d ∧ presave_all E m true o.1 d1 o.2 = Ok q ∧ o'.2 = q.2) objs p.2.
Proof.
  unfold presave_objs. intros H.
  cut (∀ pre d1 acc p, d_tabs d1 = d_tabs d → d_dirty d1 = d_dirty d →
    Forall2 (λ o o', o'.1 = o.1 ∧ ∃ d1 q, d_tabs d1 = d_tabs d ∧ presave_all E m true o.1 d1 o.2 = Ok q ∧ o'.2 = q.2) pre acc →
    foldM (λ p o, let* q := presave_all E m true o.1 p.1 o.2 in Ok (q.1, p.2 ++ [(o.1, q.2)])) (d1, acc) objs = Ok p →
    d_tabs p.1 = d_tabs d ∧ d_dirty p.1 = d_dirty d ∧
    Forall2 (λ o o', o'.1 = o.1 ∧ ∃ d1 q, d_tabs d1 = d_tabs d ∧ presave_all E m true o.1 d1 o.2 = Ok q ∧ o'.2 = q.2) (pre ++ objs) p.2).
  { intros G. apply (G [] d [] p); [done|done|constructor|done]. }
  clear H p. induction objs as [|o objs IH]; intros pre d1 acc p T D F H.
  - simpl in H. injection H as <-. rewrite app_nil_r. done.
  - rewrite foldM_cons in H. inv_bind H. inv_bind H0. injection H0 as <-. cbn [fst snd] in *.
    pose proof (presave_all_db _ _ _ _ _ _ _ H1) as [T1 D1]. rewrite cons_middle, app_assoc. eapply IH; [..|exact H]; [congruence..|].
    apply Forall2_app; [done|]. constructor; [|constructor]. split; [done|]. exists d1, a0. done.
Qed.
Lemma with_keys_row n objs k r : (k, r) ∈ with_keys n objs → ∃ o, o ∈ objs ∧ o.2 = r.
Proof.
  revert n. induction objs as [|[[j|] r'] objs IH]; intros n H; simpl in H; [by apply elem_of_nil in H|..];
    (apply elem_of_cons in H as [[= -> ->]|H]; [eexists; split; [left|done]|]); apply IH in H as (o & Ho & <-); exists o; split; [by right|done|by right|done].
Qed.
(** One batch is an INSERT. *)
Lemma bulk_batch_op E S m objs d d' : bulk_batch E m objs d = Ok d' → ∃ rows d1,
  d_tabs d1 = d_tabs d ∧ d_dirty d1 = d_dirty d ∧ run_op E S (OInsert (m_table m) rows) d1 = Ok d' ∧
  ∀ k r, (k, r) ∈ rows → ∃ o d2 q, o ∈ objs ∧ d_tabs d2 = d_tabs d ∧ presave_all E m true o.1 d2 o.2 = Ok q ∧ r = q.2.
Proof.
  unfold bulk_batch. intros H. inv_bind H. apply presave_objs_ok in H0 as (T & D & F). exists (with_keys (fresh_key (tab d (m_table m))) a.2), a.1.
  split; [done|]. split; [done|]. split; [done|]. intros k r Hin. apply with_keys_row in Hin as (o' & Ho' & <-).
  apply elem_of_list_lookup in Ho' as [i Hi]. destruct (Forall2_lookup_r _ _ _ _ _ F Hi) as (o & Ho & _ & d2 & q & T2 & Hq & ->).
  exists o, d2, q. split; [by eapply elem_of_list_lookup_2|done].
Qed.
(** Every outcome of a batch: a field raised, or it is the outcome of an INSERT of one row per object,
    under new keys if the objects have none. *)
Lemma presave_objs_err E m objs d e : presave_objs E m objs d = Err e →
  ∃ o d2, o ∈ objs ∧ d_tabs d2 = d_tabs d ∧ presave_all E m true o.1 d2 o.2 = Err e.
Proof.
  unfold presave_objs. intros H.
  cut (∀ d1 acc, d_tabs d1 = d_tabs d →
    foldM (λ p o, let* q := presave_all E m true o.1 p.1 o.2 in Ok (q.1, p.2 ++ [(o.1, q.2)])) (d1, acc) objs = Err e →
    ∃ o d2, o ∈ objs ∧ d_tabs d2 = d_tabs d ∧ presave_all E m true o.1 d2 o.2 = Err e).
  { intros G. by apply (G d []). }
  clear H. induction objs as [|o objs IH]; intros d1 acc T H; [done|]. rewrite foldM_cons in H. cbn [fst snd] in H.
  destruct (presave_all E m true o.1 d1 o.2) as [q|e0] eqn:Hq; cbn [rbind] in H.
  - pose proof (presave_all_db _ _ _ _ _ _ _ Hq) as [T1 D1]. apply IH in H as (o' & d2 & Ho & ?); [|cbn [fst]; congruence]. exists o', d2. split; [by right|done].
  - injection H as <-. exists o, d1. split; [left|done].
Qed.
Lemma with_keys_all n objs : Forall2 (λ (o : option Z * row) (kr : Z * row), (∀ k, o.1 = Some k → kr.1 = k) ∧ kr.2 = o.2) objs (with_keys n objs).
Proof.
  revert n. induction objs as [|[[j|] r] objs IH]; intros n; simpl; constructor; try done; try apply IH.
  split; [|done]. intros k [= ->]. done.
Qed.
Lemma with_keys_new n objs : (∀ o, o ∈ objs → o.1 = None) → NoDup (with_keys n objs).*1 ∧ ∀ k, k ∈ (with_keys n objs).*1 → n <= k.
Proof.
  revert n. induction objs as [|[p r] objs IH]; intros n H; simpl; [split; [constructor|intros k Hk; by apply elem_of_nil in Hk]|].
  assert (p = None) as -> by (apply (H (p, r)); left). simpl. destruct (IH (n + 1)) as [N L]; [intros o Ho; apply H; by right|]. split.
  - constructor; [|done]. intros Hn. apply L in Hn. lia.
  - intros k [->|Hk]%elem_of_cons; [lia|]. apply L in Hk. lia.
Qed.
Lemma bulk_batch_total E S m objs d :
  (∃ e o d2, o ∈ objs ∧ d_tabs d2 = d_tabs d ∧ presave_all E m true o.1 d2 o.2 = Err e ∧ bulk_batch E m objs d = Err e) ∨
  ∃ rows d1, d_tabs d1 = d_tabs d ∧ d_dirty d1 = d_dirty d ∧ bulk_batch E m objs d = run_op E S (OInsert (m_table m) rows) d1 ∧
    Forall2 (λ o kr, (∀ k, o.1 = Some k → kr.1 = k) ∧ ∃ d2 q, d_tabs d2 = d_tabs d ∧ presave_all E m true o.1 d2 o.2 = Ok q ∧ kr.2 = q.2) objs rows ∧
    ((∀ o, o ∈ objs → o.1 = None) → NoDup rows.*1 ∧ ∀ k, k ∈ rows.*1 → getrow d (m_table m) k = None).
Proof.
  unfold bulk_batch. destruct (presave_objs E m objs d) as [p|e] eqn:Hp; cbn [rbind].
  - right. apply presave_objs_ok in Hp as (T & D & F). exists (with_keys (fresh_key (tab d (m_table m))) p.2), p.1.
    split; [done|]. split; [done|]. split; [done|]. split.
    + pose proof (with_keys_all (fresh_key (tab d (m_table m))) p.2) as W. apply Forall2_same_length_lookup. split.
      { apply Forall2_length in F, W. congruence. }
      intros i o kr Ho Hkr. destruct (Forall2_lookup_l _ _ _ _ _ F Ho) as (o' & Ho' & Hk & d2 & q & T2 & Hq & Hr).
      destruct (Forall2_lookup_l _ _ _ _ _ W Ho') as (kr' & Hkr' & Hk' & Hr'). rewrite Hkr in Hkr'. injection Hkr' as <-.
      split; [intros k Hok; apply Hk'; congruence|]. exists d2, q. split; [done|]. split; [done|congruence].
    + intros Hn. destruct (with_keys_new (fresh_key (tab d (m_table m))) p.2) as [N L].
      { intros o' [i Hi]%elem_of_list_lookup. destruct (Forall2_lookup_r _ _ _ _ _ F Hi) as (o & Ho & -> & _). apply Hn. by eapply elem_of_list_lookup_2. }
      split; [done|]. intros k Hk. apply L in Hk. unfold getrow. destruct (tab d (m_table m) !! k) as [r|] eqn:Hr; [|done].
      exfalso. unfold fresh_key in Hk.
      assert (k ∈ (map_to_list (tab d (m_table m))).*1) as Hin by (apply elem_of_list_fmap; exists (k, r); split; [done|by apply elem_of_map_to_list]).
      clear Hr L N F. revert Hk Hin. generalize (map_to_list (tab d (m_table m))).*1 as l. intros l. induction l as [|j l IH]; intros Hk Hin; [by apply elem_of_nil in Hin|].
      simpl in Hk. apply elem_of_cons in Hin as [->|Hin]; [lia|]. apply IH; [lia|done].
  - left. apply presave_objs_err in Hp as (o & d2 & ? & ? & ?). by exists e, o, d2.
Qed.
Lemma bulk_create_ind (P : db → Prop) E m bs d d' : bulk_create E m bs d = Ok d' → P d →
  (∀ objs d d', objs ∈ bs → bulk_batch E m objs d = Ok d' → P d → P d') → P d'.
Proof.
  unfold bulk_create. case_match; [done|]. intros Hf Hd Hs. revert d Hf Hd. induction bs as [|objs bs IH]; intros d Hf Hd; [by injection Hf as <-|].
  rewrite foldM_cons in Hf. inv_bind Hf. eapply IH; [|exact Hf|].
  - intros o x y Ho. apply Hs. by right.
  - eapply Hs; [left|exact Hf0|done].
Qed.
Lemma bulk_refused E m bs d f : m_proxy m = false → f ∈ m_fields m → f_owner f ≠ m_name m → bulk_create E m bs d = Err EValue.
Proof.
  intros Hp Hf Ho. unfold bulk_create. rewrite Hp. simpl. assert (existsb (λ f, negb (bool_decide (f_owner f = m_name m))) (m_fields m) = true) as ->; [|done].
  apply existsb_exists. exists f. split; [by apply elem_of_list_In|]. by rewrite bool_decide_false.
Qed.

Section inv.
Context (b : backend) (S : schema) (rand : nat → Z) (imm : bool) (depth : nat) (E : env) (rank : string → nat).
Context (HE : mk_env b S rand imm depth = Ok E) (Hfl : flushable S rank imm).
Lemma cm_same d d' : d_tabs d' = d_tabs d → d_dirty d' = d_dirty d → links_ok S d → consistent_or_marked S d → links_ok S d' ∧ consistent_or_marked S d'.
Proof. intros T D. apply (R_inv b S rand imm depth E rank HE Hfl). intros R _ Rt _. by apply Rt. Qed.
Lemma bulk_create_inv m bs d d' : bulk_create E m bs d = Ok d' → links_ok S d → consistent_or_marked S d → links_ok S d' ∧ consistent_or_marked S d'.
Proof.
  intros H L C. eapply (bulk_create_ind (λ d, links_ok S d ∧ consistent_or_marked S d)); [exact H|done|]. clear H L C d d'.
  intros objs d d' _ H [L C]. destruct (bulk_batch_op E S m objs d d' H) as (rows & d1 & T & D & Ho & _).
  destruct (cm_same d d1 T D L C). by eapply (fop_inv b S rand imm depth E rank HE Hfl).
Qed.
Lemma bulk_create_flush m bs d d1 ord n d' : links_ok S d → consistent_or_marked S d → bulk_create E m bs d = Ok d1 → no_self_relation S d1 →
  flush E S ord n d1 = (d', Done) → consistent S d' ∧ d_dirty d' = [].
Proof.
  intros L C H N Hf. apply bulk_create_inv in H as [L1 C1]; [|done..]. split; [by eapply fflush_consistent|by eapply flush_done_clean].
Qed.
End inv.
Section agg.
Context (b : backend) (S : schema) (rand : nat → Z) (depth : nat) (E : env) (Hwf : wf_schema S) (Hna : names_apart S).
Context (HE : mk_env b S rand true depth = Ok E).
Lemma bulk_create_exact m f a rel m' bs d d' : agg_field S m f a rel → m' ∈ s_models S → bulk_create E m' bs d = Ok d' →
  fk_valid m a rel d → agg_exact m f a rel d → fk_valid m a rel d' ∧ agg_exact m f a rel d'.
Proof.
  intros Haf Hm' H Hv Hx. destruct (mk_env_gen _ _ _ _ _ _ HE) as [l Hl]. pose proof (agg_field_link S m f a rel Haf) as Hal.
  assert (settling E m f a rel) as Hst by (eapply field_settling; eauto using names_apart_ok).
  apply (exact_spec m f a rel). eapply (bulk_create_ind (exact m f a rel)); [exact H|by apply exact_spec|]. clear H Hv Hx d d'.
  intros objs d d' _ H Hd. destruct (bulk_batch_op E S m' objs d d' H) as (rows & d1 & T & D & Ho & Hr).
  eapply (run_op_exact b S rand depth E l); eauto; [|by eapply exact_tabs].
  intros Ht k r Hin. destruct (Hr k r Hin) as (o & d2 & q & _ & T2 & Hq & ->).
  assert (m' = m) as -> by (eapply table_inj; eauto using al_model).
  exact (presave_agg S E Hwf m f a rel Hal true o.1 d2 o.2 q Hq).
Qed.
End agg.
