(** * Several databases.

    Models what the code does with the [using] parameter of install_triggers and
    the [--database] option of denorm_init and denorm_drop (denorms.py:569-590,
    management/commands/denorm_init.py, denorm_drop.py) in a project with several
    entries in settings.DATABASES:
    - the triggers are created on the database [using], but the content type ids in
      them are read from the default database ([ContentType.objects.get_for_model],
      dependencies.py:105, 282, denorms.py:182, 245, 399), and the dialect is
      that of the default database (db/__init__.py:28-36);
    - flush() and rebuildall() use [DirtyInstance.objects] and [model.objects], which
      are those of the default database (denorms.py:536-566, 593-635);
    - AggregateField.pre_save reads the stored value with [self.denorm.model.objects],
      that is from the default database, whichever database is written to
      (fields.py:171-176).
    Functions of callback fields and denormalized ManyToManyFields read the database
    of the instance.  Database routers are not modelled (Django's default is used). *)
From Verif Require Import Base BaseLemmas Schema TrigSet Gen Exec Orm Flush Machine Spec Engine GenLemmas Marking Conditions Invariant Settle Sessions Frame Hist Text Read.

Definition default_alias : string := "default".

(** ** Saving to another database *)
(** field.pre_save: as [presave_field], except that an aggregate is looked up in
    [look d] (fields.py:159-178). *)
Definition presave_field_on (look : db → db) (E : env) (m : model) (add : bool) (pk : option Z) (p : db * row) (f : field) : res (db * row) :=
  match f_kind f with
  | KAgg _ =>
      if add then Ok (p.1, <[f_col f := VInt 0]> p.2)
      else match pk ≫= getrow (look p.1) (m_table m) with
           | Some r0 => if m_visible m r0 then Ok (p.1, <[f_col f := col r0 (f_col f)]> p.2) else Err EIndex
           | None => Err EIndex
           end
  | _ => presave_field E m add pk p f
  end.
Definition presave_all_on look (E : env) (m : model) (add : bool) (pk : option Z) (d : db) (r : row) : res (db * row) :=
  foldM (presave_field_on look E m add pk) (d, r) (m_fields m).
(** As [save_existing], [post_save_created], [save], [run_op], [step] of Orm.v. *)
Definition save_existing_on look (E : env) (m : model) (k : Z) (r : row) (d : db) : res (db * row) :=
  let* d1 := m2m_pre_save E m (Some k) r d in
  let* p := presave_all_on look E m false (Some k) d1 r in
  let* d2 := exec E (m_table m) [upd_all k p.2] p.1 in
  Ok (d2, p.2).
Definition post_save_created_on look (E : env) (m : model) (k : Z) (r : row) (d : db) : res (db * row) :=
  if has_m2m_denorm m then save_existing_on look E m k r d else Ok (d, r).
Definition save_on look (E : env) (m : model) (pk : option Z) (r : row) (d : db) : res (db * Z * row) :=
  match pk with
  | Some k =>
      match getrow d (m_table m) k with
      | Some _ => let* p := save_existing_on look E m k r d in Ok (p.1, k, p.2)
      | None =>
          let* d1 := m2m_pre_save E m (Some k) r d in
          let* p := presave_all_on look E m false (Some k) d1 r in
          let* q := presave_all_on look E m true (Some k) p.1 p.2 in
          let* d2 := exec E (m_table m) [CIns k q.2] q.1 in
          let* s := post_save_created_on look E m k q.2 d2 in Ok (s.1, k, s.2)
      end
  | None =>
      let* q := presave_all_on look E m true None d r in
      let k := fresh_key (tab q.1 (m_table m)) in
      let* d2 := exec E (m_table m) [CIns k q.2] q.1 in
      let* s := post_save_created_on look E m k q.2 d2 in Ok (s.1, k, s.2)
  end.
Definition run_op_on look (E : env) (S : schema) (o : op) (d : db) : res db :=
  match o with
  | OSave mn pk r =>
      match find_model S mn with
      | Some m => let* p := save_on look E m pk r d in Ok p.1.1
      | None => Err EValue
      end
  | _ => run_op E S o d
  end.
Definition step_on look (E : env) (S : schema) (d : db) (o : op) : db :=
  match run_op_on look E S o d with Ok d' => d' | Err _ => d end.

(** ** Histories *)
(** An operation on the database [u], or a flush or rebuild (which name no database). *)
Inductive mop :=
  | MOp (u : string) (o : op)
  | MFlush (ord : db → list marker → list marker) (n : nat)
  | MRebuild (ord : db → list marker → list marker) (n : nat) (model_name field_name : option string).
Definition put (st : string → db) (u : string) (d : db) : string → db := λ v, if decide (v = u) then d else st v.
(** [Es u]: the database [u] with the triggers installed there. *)
Definition mstep (Es : string → env) (S : schema) (st : string → db) (h : mop) : string → db :=
  match h with
  | MOp u o => put st u (step_on (λ d, if decide (u = default_alias) then d else st default_alias) (Es u) S (st u) o)
  | MFlush ord n => put st default_alias (flush (Es default_alias) S ord n (st default_alias)).1
  | MRebuild ord n mn fn => put st default_alias (rebuildall (Es default_alias) S ord n mn fn (st default_alias)).1
  end.

(** ** What is separate *)
(** The steps of a history on the default database, and the operations on another one. *)
Definition on_default (h : mop) : option hop :=
  match h with
  | MOp u o => if decide (u = default_alias) then Some (HOp o) else None
  | MFlush ord n => Some (HFlush ord n)
  | MRebuild ord n mn fn => Some (HRebuild ord n mn fn)
  end.
Definition on_other (u : string) (h : mop) : option op :=
  match h with MOp v o => if decide (v = u) then Some o else None | _ => None end.
(** An operation other than saving a stored instance of a model with aggregates. *)
Definition no_agg_save (S : schema) (o : op) : Prop :=
  match o with
  | OSave mn pk _ => ∀ m, find_model S mn = Some m →
      (pk = None ∧ ∀ mm, mm ∈ m_m2m m → mm_denorm mm = None) ∨ ∀ f a, f ∈ m_fields m → f_kind f ≠ KAgg a
  | _ => True
  end.

Lemma foldM_ext {A B} (g g' : A → B → res A) x l : (∀ y z, z ∈ l → g y z = g' y z) → foldM g x l = foldM g' x l.
Proof.
  revert x. induction l as [|z l IH]; intros x Hg; [done|]. rewrite !foldM_cons, (Hg x z) by left.
  destruct (g' x z); [|done]. apply IH. intros. apply Hg. by right.
Qed.
Lemma presave_on_same look E m add pk d r : (∀ d, look d = d) ∨ (∀ f a, f ∈ m_fields m → f_kind f ≠ KAgg a) →
  presave_all_on look E m add pk d r = presave_all E m add pk d r.
Proof.
  intros Hl. unfold presave_all_on, presave_all. apply foldM_ext. intros p f Hf. unfold presave_field_on, presave_field.
  destruct (f_kind f) eqn:Hk; try done. destruct Hl as [Hl|Hl]; [by rewrite Hl|]. by destruct (Hl f a Hf).
Qed.
Lemma save_on_same look E m pk r d : (∀ d, look d = d) ∨ (∀ f a, f ∈ m_fields m → f_kind f ≠ KAgg a) → save_on look E m pk r d = save E m pk r d.
Proof.
  intros Hl.
  assert (H1 : ∀ k r d, save_existing_on look E m k r d = save_existing E m k r d).
  { intros. unfold save_existing_on, save_existing. destruct (m2m_pre_save _ _ _ _ _); [|done]. simpl. by rewrite presave_on_same. }
  assert (H2 : ∀ k r d, post_save_created_on look E m k r d = post_save_created E m k r d).
  { intros. unfold post_save_created_on, post_save_created. by rewrite H1. }
  unfold save_on, save. destruct pk as [k|].
  - destruct (getrow _ _ _); [by rewrite H1|]. destruct (m2m_pre_save _ _ _ _ _); [|done]. simpl. rewrite presave_on_same by done.
    destruct (presave_all _ _ _ _ _ _); [|done]. simpl. rewrite presave_on_same by done.
    destruct (presave_all _ _ _ _ _ _); [|done]. simpl. destruct (exec _ _ _ _); [|done]. simpl. by rewrite H2.
  - rewrite presave_on_same by done. destruct (presave_all _ _ _ _ _ _); [|done]. simpl. destruct (exec _ _ _ _); [|done]. simpl. by rewrite H2.
Qed.
Lemma save_on_new look E m r d : (∀ mm, mm ∈ m_m2m m → mm_denorm mm = None) → save_on look E m None r d = save E m None r d.
Proof.
  intros Hm. assert (Hn : has_m2m_denorm m = false).
  { unfold has_m2m_denorm. destruct (existsb _ _) eqn:He; [|done]. apply existsb_exists in He as (mm & Hin%elem_of_list_In & He). by rewrite Hm in He. }
  unfold save_on, save, post_save_created_on, post_save_created. rewrite Hn.
  assert (presave_all_on look E m true None d r = presave_all E m true None d r) as ->; [|done].
  unfold presave_all_on, presave_all. apply foldM_ext. intros p f _. unfold presave_field_on, presave_field. by destruct (f_kind f).
Qed.
Lemma step_on_same look E S d o : (∀ d, look d = d) ∨ no_agg_save S o → step_on look E S d o = step E S d o.
Proof.
  intros Hl. unfold step_on, step, run_op_on. destruct o as [mn pk r| | |]; [|done..]. simpl. destruct (find_model S mn) as [m|] eqn:Hm; [|done].
  destruct Hl as [Hl|Hl]; [rewrite save_on_same; [done|by left]|]. destruct (Hl _ Hm) as [[-> Hn]|Hn]; [by rewrite save_on_new|rewrite save_on_same; [done|by right]].
Qed.
Lemma put_eq st u d : put st u d u = d.
Proof. unfold put. by rewrite decide_True. Qed.
Lemma put_ne st u d v : v ≠ u → put st u d v = st v.
Proof. intros. unfold put. by rewrite decide_False. Qed.

Lemma hist_default Es S hs st : foldl (mstep Es S) st hs default_alias = foldl (hstep (Es default_alias) S) (st default_alias) (omap on_default hs).
Proof.
  revert st. induction hs as [|h hs IH]; intros st; [done|]. cbn [foldl]. rewrite IH. cbn. destruct h as [u o|ord n|ord n mn fn]; simpl.
  - destruct (decide (u = default_alias)) as [->|Hne]; simpl; [|by rewrite put_ne].
    rewrite put_eq, step_on_same; [done|]. left. done.
  - by rewrite put_eq.
  - by rewrite put_eq.
Qed.
Lemma hist_other Es S u hs st : u ≠ default_alias → Forall (no_agg_save S) (omap (on_other u) hs) →
  foldl (mstep Es S) st hs u = foldl (step (Es u) S) (st u) (omap (on_other u) hs).
Proof.
  intros Hu. revert st. induction hs as [|h hs IH]; intros st Hf; [done|]. cbn [foldl]. cbn in Hf. destruct h as [v o|ord n|ord n mn fn]; simpl in Hf |- *.
  - destruct (decide (v = u)) as [->|Hne]; simpl in Hf |- *.
    + apply Forall_cons in Hf as [H1 H2]. rewrite IH by done. simpl. rewrite put_eq, step_on_same; [done|by right].
    + rewrite IH by done. simpl. by rewrite put_ne.
  - rewrite IH by done. simpl. by rewrite put_ne.
  - rewrite IH by done. simpl. by rewrite put_ne.
Qed.
(** The databases a step may change. *)
Definition target (h : mop) : string := match h with MOp u _ => u | _ => default_alias end.
Lemma mstep_frame Es S st h v : v ≠ target h → mstep Es S st h v = st v.
Proof. intros Hv. destruct h; simpl in *; by rewrite put_ne. Qed.

(** ** Other content type ids *)
(** The schema with the content type ids of another database. *)
Definition set_ct (ct : string → Z) (m : model) : model :=
  Model (m_name m) (m_app m) (m_table m) (m_pk m) (ct (m_name m)) (m_proxy m) (m_swapped m) (m_fields m) (m_m2m m) (m_always_skip m) (m_truthy m) (m_visible m).
Definition with_cts (ct : string → Z) (S : schema) : schema := Schema (set_ct ct <$> s_models S) (s_bulk_unsafe S).
Lemma with_same_cts ct S : (∀ m, m ∈ s_models S → ct (m_name m) = m_ct m) → with_cts ct S = S.
Proof.
  intros H. destruct S as [ms bu]. unfold with_cts. simpl in *. f_equal. rewrite <- (list_fmap_id ms) at 2. apply list_fmap_ext.
  intros i m Hm. unfold set_ct. rewrite H by (by eapply elem_of_list_lookup_2). by destruct m.
Qed.

(** ** Other dialects *)
(** PostgreSQL and SQLite quote names alike, so the text created on a database of the
    other kind is the one of the dialect of the default database. *)
Lemma other_dialect nu ut b b' n tr acts ps : (b = Postgres ∧ b' ≠ Postgres) ∨ (b ≠ Postgres ∧ b' = Postgres) →
  read b' (trig_text nu ut b n tr acts) ps = None.
Proof.
  intros Hb. unfold read.
  assert (Hlex : ∃ w r, lex MN (trig_text nu ut b n tr acts) = TId "CREATE" :: TId w :: r ∧ w = match b with Postgres => "OR" | _ => "TRIGGER" end).
  { destruct b; unfold trig_text; eexists _, _; split; reflexivity. }
  destruct Hlex as (w & r & -> & ->). cbn [Read.bind]. destruct (Read.bind r ps) as [ts|]; [|done]. cbn [fmap option_fmap option_map mbind option_bind].
  case_decide; [done|]. destruct Hb as [[-> Hb]|[Hb ->]]; [by destruct b'|by destruct b].
Qed.
