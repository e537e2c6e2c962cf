(** * What the code reads from Django's descriptors and [_meta.get_fields()].

    Gen.v represents the manager of an aggregate by the ForeignKey it belongs to and the
    fields of a model by the list of its concrete fields.  Here both are computed as the code
    does it (denorm/denorms.py:312-321, 371-442, denorm/db/base.py:52-122), with the
    AttributeErrors this can end in, for Django >= 1.9.  Meta.v's builder equals Gen.v's
    where no exception is raised ([full_build_eq] below). *)
From Verif Require Import Base BaseLemmas Schema TrigSet Gen GenLemmas.
Open Scope list_scope.

(** ** Managers of aggregates *)
(** The attribute [getattr(self.model, self.manager_name)] of the class (denorms.py:320-321). *)
Inductive manager :=
  | MgNone                                   (** no such attribute: self.manager stays None *)
  | MgReverseFk (rel fk : string)            (** ReverseManyToOneDescriptor of ForeignKey [fk] (attname) of model [rel] *)
  | MgReverseOne (rel fk : string)           (** ReverseOneToOneDescriptor of OneToOneField [fk] of model [rel] *)
  | MgM2M (decl : string) (mm : m2m)         (** ManyToManyDescriptor, in either direction, of field [mm] of model [decl] *)
  | MgGeneric (name : string).               (** ReverseGenericManyToOneDescriptor of the GenericRelation [name] of this model *)
(** The field behind the manager: its model (None: the model with the aggregate) and attname, or a ManyToManyField. *)
Inductive rfield := RfKey (model : option string) (att : string) | RfM2M (mm : m2m).
(** [manager.field]: set by ReverseManyToOneDescriptor.__init__ and its subclasses
    (ManyToManyDescriptor, ReverseGenericManyToOneDescriptor) only. *)
Definition mg_field (g : manager) : res rfield :=
  match g with
  | MgReverseFk rel fk => Ok (RfKey (Some rel) fk)
  | MgM2M _ mm => Ok (RfM2M mm)
  | MgGeneric n => Ok (RfKey None n)      (* GenericRelation: attname is the name, model the declaring model *)
  | MgNone | MgReverseOne _ _ => Err EAttribute
  end.
(** [manager.related]: an attribute of ReverseOneToOneDescriptor only. *)
Definition mg_related (g : manager) : res (string * string) :=
  match g with MgReverseOne rel fk => Ok (rel, fk) | _ => Err EAttribute end.
(** [try: manager.field except AttributeError: manager.related.field] (denorms.py:380-383) and
    [manager.field.model], or [manager.related.related_model] (401-404). *)
Definition mg_rfield (g : manager) : res rfield :=
  match mg_field g with
  | Err EAttribute => let* p := mg_related g in Ok (RfKey (Some p.1) p.2)
  | r => r
  end.

(** AggregateDenorm.get_triggers (denorms.py:371-442).  For a ManyToManyField the method
    m2m_triggers is called at the end (440-441), whose first statement reads
    [self.manager.related.model] (327).  [a] gives filter, exclude, sum and skip;
    relation and key come from the manager. *)
Definition mgr_triggers (S : schema) (this : model) (fname : string) (a : agg) (g : manager) : res (list trigger) :=
  let* rf := mg_rfield g in
  match rf with
  | RfM2M _ => let* _ := mg_related g in Ok []
  | RfKey rel att =>
      let go r := Ok (agg_triggers this r fname (Agg (m_name r) att (ag_filter a) (ag_exclude a) (ag_sum a) (ag_skip a))) in
      match rel with None => go this | Some n => with_model S n go end
  end.

(** ** [_meta.get_fields()] *)
(** The kinds of entries: concrete fields (ForeignKey and OneToOneField included), reverse
    one-to-one relations (to [owner]: the model itself or a parent), and the others:
    reverse ForeignKeys, ManyToManyFields in both directions, GenericForeignKeys and
    GenericRelations. *)
Inductive mitem := IField (f : field) | IReverseOne (owner : string) | IOther.
(** get_fields_with_model keeps [not is_relation or one_to_one or (many_to_one and
    related_model)], with the owner unless it is the model itself (db/base.py:52-66). *)
Definition fields_with_model (m : model) (l : list mitem) : list (mitem * bool) :=
  omap (λ i, match i with
             | IField f => Some (i, bool_decide (f_owner f = m_name m))
             | IReverseOne o => Some (i, bool_decide (o = m_name m))
             | IOther => None end) l.
(** [k.attname] *)
Definition item_att (i : mitem) : res string := match i with IField f => Ok (f_att f) | _ => Err EAttribute end.
(** The fields of a trigger on a model class (db/base.py:106-122): reverse relations
    (ForeignObjectRel) are passed over. *)
Definition class_fields (m : model) (l : list mitem) (skip : list string) : list string :=
  omap (λ p : mitem * bool, match p.1 with
    | IField f => if p.2 && bool_decide (f_att f ∉ eff_skip skip (m_always_skip m)) then Some (f_att f) else None
    | _ => None end) (fields_with_model m l).
(** The fields of a trigger on a GenericRelation (db/base.py:97): a list comprehension over
    [k.attname] of all local entries; reverse one-to-one relations are not passed over. *)
Definition generic_fields (m : model) (l : list mitem) : res (list string) :=
  mapM_res (λ p : mitem * bool, item_att p.1) (filter (λ p : mitem * bool, p.2 = true) (fields_with_model m l)).

(** ** The builder with both *)
(** [x_mgr]: the manager of an aggregate; [x_items]: the entries of [_meta.get_fields()]. *)
Record django := Django { x_mgr : string → string → manager; x_items : string → list mitem }.
(** The model whose table a generic trigger is on (db/base.py:96-97). *)
Definition gen_remote (this other : model) (dp : dep) : option model :=
  match dep_rel dp with RelGenForward _ _ => Some other | RelGenBackward _ _ => Some this | _ => None end.
Definition dep_raises (X : django) (this other : model) (dp : dep) : res unit :=
  match gen_remote this other dp with
  | Some r => let* _ := generic_fields r (x_items X (m_name r)) in Ok tt
  | None => Ok tt
  end.
Definition full_deps (S : schema) (X : django) (this : model) (g : model → model → dep → list trigger) (ds : list dep) : res (list trigger) :=
  foldM (λ acc dp, with_model S (dep_other dp) (λ o, let* _ := dep_raises X this o dp in Ok (acc ++ g this o dp))) [] ds.
Definition full_triggers (S : schema) (X : django) (this : model) (f : field) : res (list trigger) :=
  match f_kind f with
  | KCallback _ ds skip =>
      let* l := full_deps S X this cb_dep_triggers ds in
      Ok ((if s_bulk_unsafe S then [] else cb_self_triggers this skip) ++ l)
  | KCacheKey ds => full_deps S X this (λ t o dp, ck_dep_triggers t o (f_name f) dp) ds
  | KAgg a => mgr_triggers S this (f_name f) a (x_mgr X (m_name this) (f_name f))
  | _ => Ok []
  end.
(** build_triggerset (denorms.py:582-590); install_triggers raises the same exception before
    any trigger is created (575-579). *)
Definition full_build (b : backend) (S : schema) (X : django) : res tset :=
  foldM (λ ts p, let* l := full_triggers S X p.1 p.2 in Ok (tset_append b ts l)) [] (alldenorms S).

(** ** Facts *)
(** The entries of [_meta.get_fields()] contain exactly the concrete fields, primary key first. *)
Definition items_ok (m : model) (l : list mitem) : Prop :=
  ∃ pkf, f_att pkf = m_pk m ∧ f_owner pkf = m_name m ∧
    omap (λ i, match i with IField f => Some f | _ => None end) l = pkf :: m_fields m.

Lemma class_fields_concrete m l skip : class_fields m l skip =
  filter (λ a, a ∉ eff_skip skip (m_always_skip m)) (f_att <$> filter (λ f, f_owner f = m_name m) (omap (λ i, match i with IField f => Some f | _ => None end) l)).
Proof.
  unfold class_fields, fields_with_model. induction l as [|i l IH]; [done|]. destruct i as [f|o|]; cbn; [|exact IH|exact IH].
  case_bool_decide as H1; [rewrite (decide_True (P := f_owner f = m_name m)) by done|rewrite (decide_False (P := f_owner f = m_name m)) by done; exact IH].
  cbn. case_bool_decide as H2.
  - case_decide; [|done]. f_equal. exact IH.
  - case_decide; [done|]. exact IH.
Qed.
Lemma class_fields_eq m l skip : items_ok m l → class_fields m l skip = model_tfields m skip.
Proof.
  intros (pkf & Ha & Ho & Hl). rewrite class_fields_concrete, Hl. unfold model_tfields. rewrite (filter_cons _ pkf), decide_True by done. rewrite fmap_cons, Ha. done.
Qed.
Definition local_reverse_one (m : model) (l : list mitem) : Prop := IReverseOne (m_name m) ∈ l.
Lemma generic_fields_ok m l : ¬ local_reverse_one m l →
  generic_fields m l = Ok (f_att <$> filter (λ f, f_owner f = m_name m) (omap (λ i, match i with IField f => Some f | _ => None end) l)).
Proof.
  intros Hn. unfold generic_fields, fields_with_model. induction l as [|i l IH]; [done|].
  assert (Hn' : ¬ local_reverse_one m l) by (intros H; apply Hn; by right). specialize (IH Hn'). destruct i as [f|o|]; cbn [omap list_omap].
  - rewrite !filter_cons. cbn [snd]. case_bool_decide as H1.
    + do 2 rewrite decide_True by done. cbn [mapM_res item_att fst]. cbn. cbn in IH. rewrite IH. done.
    + rewrite (decide_False (P := false = true)) by done. rewrite (decide_False (P := f_owner f = m_name m)) by done. exact IH.
  - rewrite filter_cons. cbn [snd]. case_bool_decide as H1; [|rewrite decide_False by done; exact IH]. exfalso. apply Hn. subst o. left.
  - exact IH.
Qed.
Lemma generic_fields_raises m l : local_reverse_one m l → generic_fields m l = Err EAttribute.
Proof.
  unfold generic_fields, fields_with_model. induction l as [|i l IH]; intros Hin; [by apply elem_of_nil in Hin|]. apply elem_of_cons in Hin as [<-|Hin].
  - cbn [omap list_omap]. rewrite filter_cons. cbn [snd]. rewrite bool_decide_eq_true_2, decide_True by done. done.
  - specialize (IH Hin). destruct i as [f|o|]; cbn [omap list_omap]; [| |exact IH]; rewrite filter_cons; cbn [snd].
    + case_bool_decide; [rewrite decide_True by done|rewrite decide_False by done; exact IH]. cbn. cbn in IH. by rewrite IH.
    + case_bool_decide; [rewrite decide_True by done; done|rewrite decide_False by done; exact IH].
Qed.

Lemma mapM_res_len {A B} (f : A → res B) l : (∀ x, x ∈ l → ∃ y, f x = Ok y) → ∃ l', mapM_res f l = Ok l'.
Proof.
  induction l as [|x l IH]; intros H; [by eexists|]. destruct (H x ltac:(left)) as [y Hy]. destruct IH as [l' Hl']; [intros; apply H; by right|].
  cbn. rewrite Hy. cbn. rewrite Hl'. by eexists.
Qed.
Lemma foldM_eq {A B} (f g : A → B → res A) a l : (∀ a x, x ∈ l → f a x = g a x) → foldM f a l = foldM g a l.
Proof.
  revert a. induction l as [|x l IH]; intros a H; [done|]. rewrite !foldM_cons, H by left. destruct (g a x); cbn; [|done]. apply IH. intros. apply H. by right.
Qed.
Lemma foldM_raises {A B} (f : A → B → res A) l x : x ∈ l → (∀ a, ∃ e, f a x = Err e) → ∀ a, ∃ e, foldM f a l = Err e.
Proof.
  intros Hin Hx. induction Hin as [x l|x y l Hin IH]; intros a; rewrite foldM_cons.
  - destruct (Hx a) as [e ->]. by exists e.
  - destruct (f a y) as [a'|e]; cbn; [by apply IH|by exists e].
Qed.
Lemma foldM_okay {A B} (f : A → B → res A) l : (∀ a x, x ∈ l → ∃ a', f a x = Ok a') → ∀ a, ∃ a', foldM f a l = Ok a'.
Proof.
  induction l as [|x l IH]; intros H a; [by eexists|]. rewrite foldM_cons. destruct (H a x ltac:(left)) as [a' ->]. cbn. apply IH. intros. apply H. by right.
Qed.

(** Managers of a ForeignKey or OneToOneField, and GenericRelations to models without reverse
    one-to-one relations: as in Gen.v. *)
Definition key_manager (a : agg) (g : manager) : Prop := g = MgReverseFk (ag_rel a) (ag_fk a) ∨ g = MgReverseOne (ag_rel a) (ag_fk a).
Lemma mgr_triggers_eq S this fname a g : key_manager a g →
  mgr_triggers S this fname a g = with_model S (ag_rel a) (λ r, Ok (agg_triggers this r fname a)).
Proof.
  intros Hg. assert (H : mg_rfield g = Ok (RfKey (Some (ag_rel a)) (ag_fk a))) by (by destruct Hg as [-> | ->]).
  unfold mgr_triggers. rewrite H. cbn. unfold with_model. destruct (find_model S (ag_rel a)) as [r|] eqn:Hr; [|done].
  apply find_model_in in Hr as [_ Hn]. rewrite Hn. by destruct a.
Qed.
Lemma full_deps_eq S X this g ds : (∀ dp o, dp ∈ ds → find_model S (dep_other dp) = Some o → dep_raises X this o dp = Ok tt) →
  full_deps S X this g ds = deps_triggers S this g ds.
Proof.
  intros H. unfold full_deps, deps_triggers. apply foldM_eq. intros acc dp Hdp. unfold with_model. destruct (find_model S (dep_other dp)) as [o|] eqn:Ho; [|done]. by rewrite (H dp o Hdp Ho).
Qed.
Lemma full_triggers_eq S X m f : (∀ a, f_kind f = KAgg a → key_manager a (x_mgr X (m_name m) (f_name f))) →
  (∀ fn ds sk dp o, f_kind f = KCallback fn ds sk ∨ f_kind f = KCacheKey ds → dp ∈ ds → find_model S (dep_other dp) = Some o → dep_raises X m o dp = Ok tt) →
  full_triggers S X m f = field_triggers S m f.
Proof.
  intros Ha Hd. unfold full_triggers, field_triggers. destruct (f_kind f) as [| |fn ds sk|a|ds]; try done.
  - rewrite full_deps_eq; [done|]. intros dp o. apply (Hd fn ds sk). by left.
  - apply mgr_triggers_eq. by apply Ha.
  - apply full_deps_eq. intros dp o. apply (Hd (λ _ _ _, Ok (PVal VNull)) ds []). by right.
Qed.
Lemma full_build_eq b S X :
  (∀ m f, (m, f) ∈ alldenorms S → (∀ a, f_kind f = KAgg a → key_manager a (x_mgr X (m_name m) (f_name f))) ∧
    ∀ fn ds sk dp o, f_kind f = KCallback fn ds sk ∨ f_kind f = KCacheKey ds → dp ∈ ds → find_model S (dep_other dp) = Some o → dep_raises X m o dp = Ok tt) →
  full_build b S X = build_triggerset b S.
Proof.
  intros H. unfold full_build, build_triggerset. apply foldM_eq. intros ts [m f] Hin. cbn [fst snd]. destruct (H m f Hin) as [H1 H2]. by rewrite full_triggers_eq.
Qed.
Lemma full_build_raises b S X m f e : (m, f) ∈ alldenorms S → full_triggers S X m f = Err e → ∃ e', full_build b S X = Err e'.
Proof.
  intros Hin He. unfold full_build. eapply foldM_raises; [exact Hin|]. intros ts. cbn [fst snd]. rewrite He. by exists e.
Qed.
Lemma full_deps_raises S X this g ds dp o : dp ∈ ds → find_model S (dep_other dp) = Some o → dep_raises X this o dp = Err EAttribute →
  ∃ e, full_deps S X this g ds = Err e.
Proof.
  intros Hin Ho He. unfold full_deps. eapply foldM_raises; [exact Hin|]. intros acc. unfold with_model. rewrite Ho, He. by exists EAttribute.
Qed.

(** ** When install_triggers succeeds *)
(** AggregateField.__init__ (denorm/fields.py:130-142): a filter is refused on SQLite, as the
    default connection; exclude is not looked at. *)
Definition agg_init (default : backend) (a : agg) : res unit :=
  if decide (ag_filter a ≠ []) then if decide (default = SQLite) then Err ENotImplemented else Ok tt else Ok tt.
(** The lookups that become IS NULL bind no value. *)
Definition null_lookup (c : cond1) : Prop := c_op c = LIsNull ∨ (c_op c = LExact ∧ c_val c = VNull).

(** ** Exactly when the builder raises nothing *)
(** The manager is that of a ForeignKey or OneToOneField of an installed model, or a GenericRelation's. *)
Definition has_key (S : schema) (g : manager) : Prop :=
  match g with MgReverseFk rel _ | MgReverseOne rel _ => is_Some (find_model S rel) | MgGeneric _ => True | MgNone | MgM2M _ _ => False end.
Lemma mgr_okay S this fname a g : (∃ l, mgr_triggers S this fname a g = Ok l) ↔ has_key S g.
Proof.
  unfold mgr_triggers. destruct g as [|rel fk|rel fk|dc mm|n]; cbn; unfold with_model.
  - split; [by intros [? ?]|done].
  - destruct (find_model S rel); (split; [intros [? ?]; first [done|by eexists]|intros [? ?]; first [done|by eexists]]).
  - destruct (find_model S rel); (split; [intros [? ?]; first [done|by eexists]|intros [? ?]; first [done|by eexists]]).
  - split; [by intros [? ?]|done].
  - split; [done|by eexists].
Qed.
Lemma foldM_okay_iff {A B} (f : A → B → res A) (P : B → Prop) l a : (∀ x, x ∈ l → ∀ a, (∃ a', f a x = Ok a') ↔ P x) →
  (∃ a', foldM f a l = Ok a') ↔ ∀ x, x ∈ l → P x.
Proof.
  revert a. induction l as [|x l IH]; intros a H.
  - split; [intros _ x Hx; by apply elem_of_nil in Hx|by eexists].
  - rewrite foldM_cons. split.
    + intros [a' Ha]. destruct (f a x) as [a1|] eqn:E; [|done]. cbn in Ha. intros y [->|Hy]%elem_of_cons.
      * apply (H x ltac:(left) a). by eexists.
      * eapply (proj1 (IH a1 _)); [by eexists|done].
      Unshelve. intros y' Hy'. apply H. by right.
    + intros Hp. destruct (proj2 (H x ltac:(left) a)) as [a1 Ha1]; [apply Hp; left|]. rewrite Ha1. cbn. apply IH; [intros y Hy; apply H; by right|intros y Hy; apply Hp; by right].
Qed.
Definition dep_clean (S : schema) (X : django) (this : model) (dp : dep) : Prop :=
  ∃ o, find_model S (dep_other dp) = Some o ∧ ∀ r, gen_remote this o dp = Some r → ¬ local_reverse_one r (x_items X (m_name r)).
Lemma dep_raises_okay X this o dp : dep_raises X this o dp = Ok tt ↔ ∀ r, gen_remote this o dp = Some r → ¬ local_reverse_one r (x_items X (m_name r)).
Proof.
  unfold dep_raises. destruct (gen_remote this o dp) as [r|]; [|done]. split.
  - intros H r' [= <-] Hr. by rewrite (generic_fields_raises r _ Hr) in H.
  - intros H. by rewrite (generic_fields_ok r _ (H r eq_refl)).
Qed.
Lemma full_deps_okay S X this g ds : (∃ l, full_deps S X this g ds = Ok l) ↔ ∀ dp, dp ∈ ds → dep_clean S X this dp.
Proof.
  unfold full_deps. apply foldM_okay_iff. intros dp _ acc. unfold with_model, dep_clean. destruct (find_model S (dep_other dp)) as [o|] eqn:Ho.
  - split.
    + intros [a' H]. exists o. split; [done|]. apply dep_raises_okay. destruct (dep_raises X this o dp) as [[]|]; done.
    + intros (o' & [= <-] & H). apply dep_raises_okay in H. rewrite H. by eexists.
  - split; [by intros [? ?]|by intros (? & ? & _)].
Qed.
Lemma full_triggers_okay S X m f : (∃ l, full_triggers S X m f = Ok l) ↔
  (∀ a, f_kind f = KAgg a → has_key S (x_mgr X (m_name m) (f_name f))) ∧
  (∀ fn ds sk dp, f_kind f = KCallback fn ds sk ∨ f_kind f = KCacheKey ds → dp ∈ ds → dep_clean S X m dp).
Proof.
  unfold full_triggers. destruct (f_kind f) as [| |fn ds sk|a|ds].
  - split; [|by eexists]. intros _. split; [done|]. intros ???? [?|?]; done.
  - split; [|by eexists]. intros _. split; [done|]. intros ???? [?|?]; done.
  - split.
    + intros [l Hl]. split; [done|]. destruct (full_deps S X m cb_dep_triggers ds) as [l'|] eqn:E; [|done]. intros ? ? ? dp [[= <- <- <-]|?]; [|done].
      apply (proj1 (full_deps_okay S X m cb_dep_triggers ds)). by eexists.
    + intros [_ H]. destruct (proj2 (full_deps_okay S X m cb_dep_triggers ds)) as [l Hl]; [intros dp; apply (H fn ds sk); by left|]. rewrite Hl. by eexists.
  - rewrite mgr_okay. split; [intros H; split; [by intros|]; intros ???? [?|?]; done|]. intros [H _]. by eapply H.
  - rewrite full_deps_okay. split; [intros H; split; [done|]; intros ???? [?|[= <-]]; [done|apply H]|]. intros [_ H] dp. apply (H (λ _ _ _, Ok (PVal VNull)) ds []). by right.
Qed.
Lemma full_build_okay b S X : (∃ ts, full_build b S X = Ok ts) ↔ ∀ m f, (m, f) ∈ alldenorms S →
  (∀ a, f_kind f = KAgg a → has_key S (x_mgr X (m_name m) (f_name f))) ∧
  (∀ fn ds sk dp, f_kind f = KCallback fn ds sk ∨ f_kind f = KCacheKey ds → dp ∈ ds → dep_clean S X m dp).
Proof.
  unfold full_build. rewrite (foldM_okay_iff _ (λ p, ∃ l, full_triggers S X p.1 p.2 = Ok l)).
  - split; [intros H m f Hin; apply full_triggers_okay; by apply (H (m, f))|intros H [m f] Hin; cbn [fst snd]; apply full_triggers_okay; by apply H].
  - intros [m f] _ ts. cbn [fst snd]. destruct (full_triggers S X m f) as [l|]; cbn; (split; [intros [? ?]; first [done|by eexists]|intros [? ?]; first [done|by eexists]]).
Qed.
