(** * Two things flush() and rebuildall() take for granted: which exception an unsupported
    DISTINCT ON raises, and that every model has a manager called [objects].

    Models denorms.py:556-566 and 593-635, fields.py:159-179 and middleware.py:21-26. *)
From Verif Require Import Base BaseLemmas Schema TrigSet Gen Exec Orm Flush Spec Engine GenLemmas Marking Invariant Settle Sessions Frame Passes Select.

(** ** DISTINCT ON *)
(** [qs.distinct('content_type', 'object_id')] evaluated by the database [b]: PostgreSQL can; the
    other backends of Django raise NotImplementedError before version 2.1 and, since then ([new]),
    django.db.NotSupportedError, which is a DatabaseError. *)
Definition distinct_error (new : bool) (b : backend) : option exn :=
  match b with
  | Postgres => None
  | _ => Some (if new then ENotSupported else ENotImplemented)
  end.
(** [except NotImplementedError]: denorms.py:612. *)
Definition distinct_caught (e : exn) : bool := bool_decide (e = ENotImplemented).
(** flush(), denorms.py:593-635, with the evaluation of the distinct queryset
    (denorms.py:607-614) made explicit; it comes before the test for an empty table
    (denorms.py:617). *)
Fixpoint flush_dj (new : bool) (E : env) (S : schema) (ord : db → list marker → list marker) (n : nat) (d : db) : db * outcome :=
  match n with
  | O => (d, Running)
  | Datatypes.S n' =>
      match distinct_error new (e_be E) with
      | Some e =>
          if distinct_caught e then
            if decide (d_dirty d = []) then (d, Done)
            else match flush_pass E S (ord d (d_dirty d)) d with
                 | (d', Done) => flush_dj new E S ord n' d'
                 | p => p
                 end
          else (d, Raised e)
      | None =>
          if decide (d_dirty d = []) then (d, Done)
          else match flush_pass E S (ord d (remove_dups (d_dirty d))) d with
               | (d', Done) => flush_dj new E S ord n' d'
               | p => p
               end
      end
  end.
(** rebuildall(), denorms.py:536-566. *)
Definition rebuild_dj (new : bool) (E : env) (S : schema) (ord : db → list marker → list marker) (n : nat)
    (model_name field_name : option string) (d : db) : db * outcome :=
  flush_dj new E S ord n (mark d (rebuild_marks S model_name field_name d)).
(** process_response, middleware.py:21-26. *)
Definition response_dj {R} (new : bool) (E : env) (S : schema) (ord : db → list marker → list marker) (n : nat)
    (d : db) (response : R) : option (db * (R + exn)) :=
  match flush_dj new E S ord n d with
  | (d', Done) => Some (d', inl response)
  | (d', Raised e) => Some (d', if is_database_error e then inl response else inr e)
  | (_, Running) => None
  end.

Lemma flush_dj_flush new E S ord n : new = false ∨ e_be E = Postgres → ∀ d, flush_dj new E S ord n d = flush E S ord n d.
Proof.
  intros Hv. induction n as [|n IH]; intros d; [done|]. cbn [flush_dj flush]. unfold snapshot.
  destruct Hv as [->|Hb].
  - destruct (e_be E); cbn -[flush_pass decide]; (case_decide; [done|]); destruct (flush_pass _ _ _ _) as [d' []]; try done; apply IH.
  - rewrite Hb. cbn -[flush_pass decide]. case_decide; [done|]. destruct (flush_pass _ _ _ _) as [d' []]; try done; apply IH.
Qed.
Lemma flush_dj_raises E S ord n d : e_be E ≠ Postgres → flush_dj true E S ord (Datatypes.S n) d = (d, Raised ENotSupported).
Proof. intros Hb. cbn [flush_dj]. by destruct (e_be E). Qed.

(** Rebuilding over and over. *)
Fixpoint rebuilds_dj (new : bool) (E : env) (S : schema) (ord : db → list marker → list marker) (n : nat)
    (model_name field_name : option string) (j : nat) (d : db) : db :=
  match j with
  | O => d
  | Datatypes.S j' => rebuilds_dj new E S ord n model_name field_name j' (rebuild_dj new E S ord n model_name field_name d).1
  end.
Lemma rebuild_marks_tabs S mn fn d d' : d_tabs d = d_tabs d' → rebuild_marks S mn fn d = rebuild_marks S mn fn d'.
Proof. intros H. unfold rebuild_marks, tab. by rewrite H. Qed.
Lemma rebuilds_dj_raises E S ord n mn fn j : e_be E ≠ Postgres → ∀ d,
  rebuilds_dj true E S ord (Datatypes.S n) mn fn j d = mark d (concat (replicate j (rebuild_marks S mn fn d))).
Proof.
  intros Hb. induction j as [|j IH]; intros d; cbn [rebuilds_dj replicate concat].
  - unfold mark, set_dirty. destruct d; simpl. by rewrite app_nil_r.
  - unfold rebuild_dj. rewrite flush_dj_raises by done. rewrite IH. cbn [fst].
    rewrite (rebuild_marks_tabs S mn fn (mark d (rebuild_marks S mn fn d)) d eq_refl). unfold mark, set_dirty. simpl. by rewrite <- app_assoc.
Qed.

(** ** Models without [objects] *)
(** A model that defines managers of its own, none of them called [objects], has no such attribute. *)
Definition has_objects (no : list string) (m : model) : bool := negb (bool_decide (m_name m ∈ no)).
(** rebuildall's loop over the models, denorms.py:556-565; what was created before the
    exception stays. *)
Fixpoint rebuild_loop (no : list string) (l : list model) (d : db) : db * outcome :=
  match l with
  | [] => (d, Done)
  | m :: l' =>
      if has_objects no m then
        rebuild_loop no l' (mark d ((λ p : Z * row, (m_ct m, Some (pretty p.1))) <$>
          filter (λ p : Z * row, m_visible m p.2 = true) (map_to_list (tab d (m_table m)))))
      else (d, Raised EAttribute)
  end.
(** AggregateField.pre_save, fields.py:159-179: [self.denorm.model.objects] of a row that is not
    being created. *)
Definition presave_field_no (no : list string) (E : env) (m : model) (add : bool) (pk : option Z) (p : db * row) (f : field) : res (db * row) :=
  match f_kind f with
  | KAgg _ => if add || has_objects no m then presave_field E m add pk p f else Err EAttribute
  | _ => presave_field E m add pk p f
  end.
Definition presave_all_no (no : list string) (E : env) (m : model) (add : bool) (pk : option Z) (d : db) (r : row) : res (db * row) :=
  foldM (presave_field_no no E m add pk) (d, r) (m_fields m).
(** As Orm.save_existing. *)
Definition save_existing_no (no : list string) (E : env) (m : model) (k : Z) (r : row) (d : db) : res (db * row) :=
  let* d1 := m2m_pre_save E m (Some k) r d in
  let* p := presave_all_no no E m false (Some k) d1 r in
  let* d2 := exec E (m_table m) [upd_all k p.2] p.1 in
  Ok (d2, p.2).
(** The loop body of flush(), denorms.py:625-635: content_object uses [_base_manager], which every
    model has; the save is the one above. *)
Definition process_no (no : list string) (E : env) (S : schema) (mk : marker) (d : db) : res db :=
  let* o := content_object S d mk in
  match o with
  | Some (m, k, r) =>
      if m_truthy m r then let* p := save_existing_no no E m k r d in Ok (unmark p.1 mk) else Ok (unmark d mk)
  | None => Ok (unmark d mk)
  end.
Fixpoint flush_pass_no (no : list string) (E : env) (S : schema) (l : list marker) (d : db) : db * outcome :=
  match l with
  | [] => (d, Done)
  | mk :: l' =>
      match process_no no E S mk d with
      | Ok d' => flush_pass_no no E S l' d'
      | Err e => (d, Raised e)
      end
  end.

(** flush(), denorms.py:593-635. *)
Fixpoint flush_no (no : list string) (E : env) (S : schema) (ord : db → list marker → list marker) (n : nat) (d : db) : db * outcome :=
  match n with
  | O => (d, Running)
  | Datatypes.S n' =>
      if decide (d_dirty d = []) then (d, Done)
      else match flush_pass_no no E S (snapshot E ord d) d with
           | (d', Done) => flush_no no E S ord n' d'
           | p => p
           end
  end.

(** rebuildall(), denorms.py:536-566. *)
Definition rebuild_no (no : list string) (E : env) (S : schema) (ord : db → list marker → list marker) (n : nat)
    (model_name field_name : option string) (d : db) : db * outcome :=
  match rebuild_loop no (rebuild_models S model_name field_name) d with
  | (d', Done) => flush_no no E S ord n d'
  | p => p
  end.

(** ** Specification *)
(** Does the model have an aggregate? *)
Definition has_aggregate (m : model) : bool := existsb (λ f, match f_kind f with KAgg _ => true | _ => false end) (m_fields m).
(** The markers for the rows of [m] that its managers show. *)
Definition marks_of (m : model) (d : db) : list marker :=
  (λ p : Z * row, (m_ct m, Some (pretty p.1))) <$> filter (λ p : Z * row, m_visible m p.2 = true) (map_to_list (tab d (m_table m))).

Lemma mark_mark d l l' : mark (mark d l) l' = mark d (l ++ l').
Proof. unfold mark, set_dirty. simpl. by rewrite app_assoc. Qed.
Lemma mark_nil d : mark d [] = d.
Proof. unfold mark, set_dirty. destruct d. simpl. by rewrite app_nil_r. Qed.
Lemma rebuild_loop_all no l : Forall (λ m, has_objects no m = true) l → ∀ d, rebuild_loop no l d = (mark d (l ≫= λ m, marks_of m d), Done).
Proof.
  induction 1 as [|m l Hm _ IH]; intros d; simpl; [by rewrite mark_nil|]. rewrite Hm, IH, mark_mark. done.
Qed.
Lemma rebuild_loop_stops no l1 m l2 d : Forall (λ m, has_objects no m = true) l1 → has_objects no m = false →
  rebuild_loop no (l1 ++ m :: l2) d = (mark d (l1 ≫= λ m, marks_of m d), Raised EAttribute).
Proof.
  intros Hl Hm. revert d. induction Hl as [|m' l Hm' _ IH]; intros d; simpl; [by rewrite Hm, mark_nil|].
  rewrite Hm', IH, mark_mark. done.
Qed.
Lemma rebuild_no_stops no E S ord n mn fn l1 m l2 d : rebuild_models S mn fn = l1 ++ m :: l2 →
  Forall (λ m, has_objects no m = true) l1 → has_objects no m = false →
  rebuild_no no E S ord n mn fn d = (mark d (l1 ≫= λ m, marks_of m d), Raised EAttribute).
Proof. intros Hl H1 Hm. unfold rebuild_no. by rewrite Hl, rebuild_loop_stops. Qed.

Lemma presave_no_agg no E m k l : has_objects no m = false → existsb (λ f, match f_kind f with KAgg _ => true | _ => false end) l = true →
  ∀ p, ∃ e, foldM (presave_field_no no E m false (Some k)) p l = Err e.
Proof.
  intros Hm. induction l as [|f l IH]; intros Hl p; [done|]. simpl in Hl |- *.
  destruct (presave_field_no no E m false (Some k) p f) as [p'|e] eqn:Hf; simpl; [|by eexists].
  apply orb_true_iff in Hl as [Hl|Hl]; [|by apply IH]. unfold presave_field_no in Hf. rewrite Hm in Hf. by destruct (f_kind f).
Qed.
Lemma presave_no_same no E m add k l : has_objects no m = true ∨ existsb (λ f, match f_kind f with KAgg _ => true | _ => false end) l = false →
  ∀ p, foldM (presave_field_no no E m add (Some k)) p l = foldM (presave_field E m add (Some k)) p l.
Proof.
  intros Hm. induction l as [|f l IH]; intros p; [done|]. simpl.
  assert (presave_field_no no E m add (Some k) p f = presave_field E m add (Some k) p f) as ->.
  { unfold presave_field_no. destruct (f_kind f) eqn:Hk; try done. destruct Hm as [->|Hm]; [by rewrite orb_true_r|].
    simpl in Hm. by rewrite Hk in Hm. }
  destruct (presave_field _ _ _ _ _ _); [|done]. apply IH. destruct Hm as [?|Hm]; [by left|right]. simpl in Hm. by apply orb_false_iff in Hm as [_ ?].
Qed.
Lemma save_no_raises no E m k r d : has_objects no m = false → has_aggregate m = true → ∃ e, save_existing_no no E m k r d = Err e.
Proof.
  intros Hm Ha. unfold save_existing_no. destruct (m2m_pre_save E m (Some k) r d) as [d1|e]; cbn [rbind]; [|by eexists].
  unfold presave_all_no. destruct (presave_no_agg no E m k (m_fields m) Hm Ha (d1, r)) as [e ->]. by eexists.
Qed.
Lemma save_no_same no E m k r d : has_objects no m = true ∨ has_aggregate m = false → save_existing_no no E m k r d = save_existing E m k r d.
Proof.
  intros Hm. unfold save_existing_no, save_existing. destruct (m2m_pre_save E m (Some k) r d) as [d1|e]; cbn [rbind]; [|done].
  unfold presave_all_no, presave_all. by rewrite presave_no_same.
Qed.
Lemma presave_no_add no E m pk d r : presave_all_no no E m true pk d r = presave_all E m true pk d r.
Proof.
  unfold presave_all_no, presave_all. generalize (d, r). induction (m_fields m) as [|f l IH]; intros p; [done|]. simpl.
  assert (presave_field_no no E m true pk p f = presave_field E m true pk p f) as -> by (unfold presave_field_no; by destruct (f_kind f)).
  destruct (presave_field _ _ _ _ _ _); [apply IH|done].
Qed.
(** A pass does not get beyond the marker of such a row. *)
Lemma process_no_raises no E S mk d m k r : content_object S d mk = Ok (Some (m, k, r)) → m_truthy m r = true →
  has_objects no m = false → has_aggregate m = true → ∃ e, process_no no E S mk d = Err e.
Proof.
  intros Ho Ht Hm Ha. unfold process_no. rewrite Ho. cbn [rbind]. rewrite Ht. destruct (save_no_raises no E m k r d Hm Ha) as [e ->]. by eexists.
Qed.

(** Where it succeeds, the loop body is the ordinary one. *)
Lemma process_no_ok no E S mk d d' : process_no no E S mk d = Ok d' → process E S mk d = Ok d'.
Proof.
  unfold process_no, process, process_save. intros H. inv_bind H. rewrite H0. cbn [rbind]. destruct a as [[[m k] r]|]; [|done].
  destruct (m_truthy m r); [|done]. destruct (has_objects no m) eqn:Hm.
  - rewrite save_no_same in H by by left. inv_bind H. rewrite H1. by injection H as <-.
  - destruct (has_aggregate m) eqn:Ha.
    + destruct (save_no_raises no E m k r d Hm Ha) as [e He]. by rewrite He in H.
    + rewrite save_no_same in H by by right. inv_bind H. rewrite H1. by injection H as <-.
Qed.
Section stuck.
Context (b : backend) (S : schema) (rand : nat → Z) (imm : bool) (depth : nat) (E : env) (no : list string).
Context (Hwf : wf_schema S) (HE : mk_env b S rand imm depth = Ok E).
Context (m : model) (k : Z) (Hm : m ∈ s_models S) (Hno : has_objects no m = false) (Ha : has_aggregate m = true) (Ht : ∀ r, m_truthy m r = true).
Lemma pass_stuck l : marker_of m k ∈ l → ∀ d, getrow d (m_table m) k ≠ None → marker_of m k ∈ d_dirty d →
  ∃ d' e, flush_pass_no no E S l d = (d', Raised e) ∧ marker_of m k ∈ d_dirty d'.
Proof.
  induction l as [|mk l IH]; intros Hl d Hr Hin; [by apply elem_of_nil in Hl|]. simpl.
  destruct (process_no no E S mk d) as [d1|e] eqn:Hp; [|by exists d, e].
  destruct (decide (mk = marker_of m k)) as [->|Hne].
  - exfalso. destruct (content_object S d (marker_of m k)) as [[[[m' k'] r]|]|e] eqn:Ho.
    + destruct (content_object_some _ _ _ _ _ _ Ho) as (Hm' & _ & Heq).
      apply marker_of_inj with (S := S) in Heq as [<- <-]; [|done..].
      destruct (process_no_raises no E S _ d m k r Ho (Ht r) Hno Ha) as [e He]. by rewrite He in Hp.
    + apply Hr. by eapply content_object_none.
    + unfold process_no in Hp. by rewrite Ho in Hp.
  - apply process_no_ok in Hp. apply IH.
    + apply elem_of_cons in Hl as [Hl|Hl]; [by symmetry in Hl|done].
    + destruct (process_kept _ _ _ _ _ _ Hwf HE _ _ _ Hp) as [Hk _]. specialize (Hk m Hm k).
      destruct (getrow d (m_table m) k), (getrow d1 (m_table m) k); done.
    + eapply process_keeps; [done|by apply not_eq_sym|done].
Qed.
Lemma flush_stuck ord n d : (∀ d l, marker_of m k ∈ l → marker_of m k ∈ ord d l) →
  getrow d (m_table m) k ≠ None → marker_of m k ∈ d_dirty d →
  ∃ d' e, flush_no no E S ord (Datatypes.S n) d = (d', Raised e) ∧ marker_of m k ∈ d_dirty d'.
Proof.
  intros Ho Hr Hin. cbn [flush_no]. rewrite decide_False by (intros H; rewrite H in Hin; by apply elem_of_nil in Hin).
  assert (marker_of m k ∈ snapshot E ord d) as Hs.
  { unfold snapshot. destruct (e_be E); apply Ho; [done| |done]. by apply elem_of_remove_dups. }
  destruct (pass_stuck _ Hs d Hr Hin) as (d' & e & -> & H). by exists d', e.
Qed.
End stuck.
Lemma flush_no_all no E S ord n : (∀ m, m ∈ s_models S → has_objects no m = true ∨ has_aggregate m = false) → wf_schema S →
  ∀ d, flush_no no E S ord n d = flush E S ord n d.
Proof.
  intros Hall Hwf.
  assert (Hp : ∀ mk d, process_no no E S mk d = process E S mk d).
  { intros mk d. unfold process_no, process, process_save. destruct (content_object S d mk) as [[[[m k] r]|]|e] eqn:Ho; cbn [rbind]; [|done..].
    destruct (content_object_some _ _ _ _ _ _ Ho) as (Hm & _). rewrite save_no_same by by apply Hall.
    destruct (m_truthy m r); [|done]. by destruct (save_existing E m k r d). }
  assert (Hps : ∀ l d, flush_pass_no no E S l d = flush_pass E S l d).
  { induction l as [|mk l IH]; intros d; [done|]. simpl. rewrite Hp. destruct (process E S mk d); [apply IH|done]. }
  induction n as [|n IH]; intros d; [done|]. cbn [flush_no flush]. case_decide; [done|]. rewrite Hps.
  destruct (flush_pass _ _ _ _) as [d' []]; [apply IH|done..].
Qed.
Lemma rebuild_no_all no E S ord n mn fn d : (∀ m, m ∈ s_models S → has_objects no m = true) → wf_schema S →
  rebuild_no no E S ord n mn fn d = rebuildall E S ord n mn fn d.
Proof.
  intros H Hwf. unfold rebuild_no. rewrite rebuild_loop_all.
  2: { apply Forall_forall. intros m Hm. apply rebuild_models_spec in Hm as (_ & f & Hf & _). apply H. destruct Hf as (Hf & _). by eapply find_model_in. }
  rewrite flush_no_all; [done| |done]. intros m Hm. left. by apply H.
Qed.
