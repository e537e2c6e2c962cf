(** * Fields in migrations.

    makemigrations stores [field.deconstruct()] of every field in the migration
    files, and migrate builds historical model classes from what is stored
    (import_string(path) called with args and kwargs).  Models DenormDBField.deconstruct
    (fields.py:92-95), AggregateField.deconstruct (fields.py:180-184) and the
    constructors (fields.py:34-38, 105-142, 207-227, 241-250, 264-271, 309-315).

    Simplified: a Django field class is given by its path and the parameters of its
    constructor with their defaults (a parameter without a default has [PNotProvided]);
    its constructor stores the parameters, and its deconstruct() returns those that
    differ from their defaults, by keyword (as all fields of Django do). *)
From Verif Require Import Base Schema.

(** Python values, as far as needed. *)
Inductive pv := PNotProvided | PNone | PBool (b : bool) | PInt (z : Z) | PStr (s : string) | PDict (l : list (string * val)) | PClass (s : string) | PFun (n : nat).
#[global] Instance pv_eq_dec : EqDecision pv.
Proof. solve_decision. Defined.
Notation kwargs := (gmap string pv).

(** A class of fields: its path and its parameters. *)
Record fclass := FClass { fc_path : string; fc_params : kwargs }.
(** Field.__init__: a keyword that is no parameter is a TypeError. *)
Definition django_init (c : fclass) (kw : kwargs) : res kwargs :=
  if decide (dom kw ⊆ dom (fc_params c)) then Ok (kw ∪ fc_params c) else Err EType.
(** Field.deconstruct. *)
Definition django_deconstruct (c : fclass) (at_ : kwargs) : kwargs :=
  filter (λ p : string * pv, fc_params c !! p.1 ≠ Some p.2) at_.

(** The two base classes of fields.py. *)
Definition common : kwargs := list_to_map [("verbose_name", PNone); ("name", PNone); ("primary_key", PBool false); ("max_length", PNone); ("unique", PBool false);
  ("blank", PBool false); ("null", PBool false); ("db_index", PBool false); ("default", PNotProvided); ("editable", PBool true); ("serialize", PBool true);
  ("unique_for_date", PNone); ("unique_for_month", PNone); ("unique_for_year", PNone); ("choices", PNone); ("help_text", PStr ""); ("db_column", PNone);
  ("db_tablespace", PNone); ("auto_created", PBool false); ("validators", PNone); ("error_messages", PNone)].
Definition PositiveIntegerField : fclass := FClass "django.db.models.PositiveIntegerField" common.
Definition BigIntegerField : fclass := FClass "django.db.models.BigIntegerField" common.

(** A field object: its class, the attributes stored by the constructor of the Django
    class, and what the classes of denorm add. *)
Inductive mfield :=
  | FOrdinary (c : fclass) (at_ : kwargs)
  | FDenorm (c : fclass) (at_ : kwargs) (func : pv) (skip : pv)
  | FCount (at_ : kwargs) (manager : pv) (flt exc : pv) (skip : pv)
  | FSum (at_ : kwargs) (manager : pv) (sum : pv) (flt exc : pv) (skip : pv)
  | FCacheKey (at_ : kwargs)
  | FCached (at_ : kwargs) (func cache : pv).

(** kwargs.pop(k, v). *)
Definition pop (k : string) (v : pv) (kw : kwargs) : pv * kwargs := (default v (kw !! k), delete k kw).

(** DenormDBField.__init__ without positional arguments for the class (fields.py:34-38). *)
Definition new_denorm (c : fclass) (func : pv) (kw : kwargs) : res mfield :=
  let s := pop "skip" PNone kw in
  let* at_ := django_init c (<["editable" := PBool false]> s.2) in Ok (FDenorm c at_ func s.1).
(** AggregateField.__init__ (fields.py:105-142); [sqlite] is connection.vendor. *)
Definition new_agg (sqlite : bool) (kw : kwargs) : res (kwargs * pv * pv * pv) :=
  let s := pop "skip" PNone (<["editable" := PBool false]> kw) in
  let q := pop "filter" (PDict []) s.2 in
  if sqlite && negb (bool_decide (q.1 = PDict [])) then Err ENotImplemented else
  let x := pop "exclude" (PDict []) q.2 in
  let* at_ := django_init PositiveIntegerField (<["editable" := PBool false]> (<["default" := PInt 0]> x.2)) in
  Ok (at_, q.1, x.1, s.1).
(** CountField.__init__ and SumField.__init__ (fields.py:207-227, 241-250). *)
Definition new_count (sqlite : bool) (manager : pv) (kw : kwargs) : res mfield :=
  let* p := new_agg sqlite kw in Ok (FCount p.1.1.1 manager p.1.1.2 p.1.2 p.2).
Definition new_sum (sqlite : bool) (manager : pv) (kw : kwargs) : res mfield :=
  let f := pop "field" PNone kw in
  let* p := new_agg sqlite f.2 in Ok (FSum p.1.1.1 manager f.1 p.1.1.2 p.1.2 p.2).
(** CacheKeyField.__init__ and CachedField.__init__ (fields.py:264-271, 309-315; the
    dependencies are not needed here). *)
Definition new_key (kw : kwargs) : res kwargs := django_init BigIntegerField (<["editable" := PBool false]> (<["default" := PInt 0]> kw)).
Definition new_cached (func cache : pv) (kw : kwargs) : res mfield := let* at_ := new_key kw in Ok (FCached at_ func cache).

(** ** deconstruct() *)
(** Path, positional arguments and keywords (the name is left out). *)
Definition deconstruct (f : mfield) : res (string * list pv * kwargs) :=
  match f with
  | FOrdinary c at_ => Ok (fc_path c, [], django_deconstruct c at_)
  | FDenorm c at_ _ _ =>
      (* super().deconstruct(), then the same of a DBField with args and kwargs (fields.py:92-95) *)
      let kw := django_deconstruct c at_ in
      let* _ := django_init c kw in Ok (fc_path c, [], kw)
  | FCount at_ mgr _ _ _ | FSum at_ mgr _ _ _ _ =>
      (* fields.py:180-184: del kwargs['editable'] *)
      let kw := django_deconstruct PositiveIntegerField at_ in
      match kw !! "editable" with
      | Some _ => Ok (match f with FCount _ _ _ _ _ => "denorm.fields.CountField" | _ => "denorm.fields.SumField" end, [mgr], delete "editable" kw)
      | None => Err EValue
      end
  | FCacheKey at_ => Ok ("denorm.fields.CacheKeyField", [], django_deconstruct BigIntegerField at_)
  | FCached at_ _ _ => Ok ("denorm.fields.CachedField", [], django_deconstruct BigIntegerField at_)
  end.

(** import_string(path) called with args and kwargs; [classes]: the other classes by their path.
    Positional arguments of those are not modelled (deconstruct gives none). *)
Definition construct (sqlite : bool) (classes : gmap string fclass) (p : string * list pv * kwargs) : res mfield :=
  let '(path, args, kw) := p in
  if decide (path = "denorm.fields.CountField") then match args with [m] => new_count sqlite m kw | _ => Err EType end
  else if decide (path = "denorm.fields.SumField") then match args with [m] => new_sum sqlite m kw | _ => Err EType end
  else if decide (path = "denorm.fields.CacheKeyField") then let* at_ := new_key kw in Ok (FCacheKey at_)
  else if decide (path = "denorm.fields.CachedField") then new_cached PNone PNone kw
  else match classes !! path, args with
       | Some c, [] => let* at_ := django_init c kw in Ok (FOrdinary c at_)
       | _, _ => Err EType
       end.

(** The attributes Django creates the column from. *)
Definition attributes (f : mfield) : kwargs :=
  match f with FOrdinary _ x | FDenorm _ x _ _ | FCount x _ _ _ _ | FSum x _ _ _ _ _ | FCacheKey x | FCached x _ _ => x end.
Definition base_class (f : mfield) : fclass :=
  match f with FOrdinary c _ | FDenorm c _ _ _ => c | FCount _ _ _ _ _ | FSum _ _ _ _ _ _ => PositiveIntegerField | FCacheKey _ | FCached _ _ _ => BigIntegerField end.

(** Setting the attribute of a new instance (Model.__init__ does so for every field):
    CacheWrapper.__set__ (fields.py:299-306) uses [self.field.cache]. *)
Definition set_attribute (f : mfield) : res unit :=
  match f with FCached _ _ PNone => Err EAttribute | _ => Ok () end.

(** ** Fields made by the constructors *)
Definition our_paths : list string := ["denorm.fields.CountField"; "denorm.fields.SumField"; "denorm.fields.CacheKeyField"; "denorm.fields.CachedField"].
(** A field declared in a model class. *)
Inductive declared (sqlite : bool) (classes : gmap string fclass) : mfield → Prop :=
  | d_ordinary c kw at_ : classes !! fc_path c = Some c → fc_path c ∉ our_paths → django_init c kw = Ok at_ → declared sqlite classes (FOrdinary c at_)
  | d_denorm c func kw f : classes !! fc_path c = Some c → fc_path c ∉ our_paths → fc_params c !! "editable" = Some (PBool true) →
      new_denorm c func kw = Ok f → declared sqlite classes f
  | d_count m kw f : new_count sqlite m kw = Ok f → declared sqlite classes f
  | d_sum m kw f : new_sum sqlite m kw = Ok f → declared sqlite classes f
  | d_key kw at_ : new_key kw = Ok at_ → declared sqlite classes (FCacheKey at_)
  | d_cached fn ca kw f : new_cached fn ca kw = Ok f → declared sqlite classes f.

(** What a migration keeps of a field. *)
Definition historical (f : mfield) : mfield :=
  match f with
  | FOrdinary c x | FDenorm c x _ _ => FOrdinary c x
  | FCount x m _ _ _ => FCount x m (PDict []) (PDict []) PNone
  | FSum x m _ _ _ _ => FSum x m PNone (PDict []) (PDict []) PNone
  | FCacheKey x => FCacheKey x
  | FCached x _ _ => FCached x PNone PNone
  end.

(** ** Proofs *)
Lemma init_deconstruct c at_ : dom at_ = dom (fc_params c) → django_init c (django_deconstruct c at_) = Ok at_.
Proof.
  intros Hd. unfold django_init, django_deconstruct. rewrite decide_True.
  2: { rewrite <- Hd. apply dom_filter_subseteq. }
  f_equal. apply map_eq. intros i. rewrite lookup_union. destruct (at_ !! i) as [v|] eqn:Hi.
  - destruct (decide (fc_params c !! i = Some v)) as [He|He].
    + rewrite (map_filter_lookup_None_2 _ at_ i); [by rewrite He|]. right. intros v' Hv'. simpl. intros Hn. congruence.
    + rewrite (map_filter_lookup_Some_2 _ at_ i v) by done. by destruct (fc_params c !! i).
  - rewrite map_filter_lookup_None_2 by (by left). assert (Hn : fc_params c !! i = None); [|by rewrite Hn].
    apply not_elem_of_dom. rewrite <- Hd. by apply not_elem_of_dom.
Qed.
Lemma init_dom c kw at_ : django_init c kw = Ok at_ → dom at_ = dom (fc_params c) ∧ (∀ k v, kw !! k = Some v → at_ !! k = Some v).
Proof.
  unfold django_init. case_decide as Hs; [|done]. intros [= <-]. split; [rewrite dom_union_L; set_solver|].
  intros k v Hk. rewrite lookup_union, Hk. by destruct (fc_params c !! k).
Qed.

(** A field is declared with attributes for exactly the parameters of its class, and
    an aggregate is not editable. *)
Lemma agg_init sqlite kw p : new_agg sqlite kw = Ok p → dom p.1.1.1 = dom common ∧ p.1.1.1 !! "editable" = Some (PBool false) ∧ p.1.1.1 !! "default" = Some (PInt 0).
Proof.
  unfold new_agg. case_match; [done|]. intros H1. destruct (django_init _ _) as [at_|] eqn:Hi; [|done]. injection H1 as <-. cbn [fst snd].
  apply init_dom in Hi as [Hd Hk]. split; [done|]. split; apply Hk; [apply lookup_insert|]. rewrite lookup_insert_ne by done. apply lookup_insert.
Qed.
Lemma new_agg_again sqlite at_ : dom at_ = dom common → at_ !! "editable" = Some (PBool false) → at_ !! "default" = Some (PInt 0) →
  django_deconstruct PositiveIntegerField at_ !! "editable" = Some (PBool false) ∧
  new_agg sqlite (delete "editable" (django_deconstruct PositiveIntegerField at_)) = Ok (at_, PDict [], PDict [], PNone).
Proof.
  intros Hd He Hdf. set (kw := django_deconstruct PositiveIntegerField at_).
  assert (Hke : kw !! "editable" = Some (PBool false)) by (apply map_filter_lookup_Some_2; [done|by vm_compute]).
  assert (Hkd : kw !! "default" = Some (PInt 0)) by (apply map_filter_lookup_Some_2; [done|by vm_compute]).
  assert (Hsub : dom kw ⊆ dom common) by (rewrite <- Hd; apply dom_filter_subseteq).
  assert (Hno : ∀ k, k ∉ dom common → kw !! k = None) by (intros k Hk; apply not_elem_of_dom; intros Hin; apply Hk, Hsub, Hin).
  assert (H1 : kw !! "skip" = None) by (apply Hno, not_elem_of_dom; by vm_compute).
  assert (H2 : kw !! "filter" = None) by (apply Hno, not_elem_of_dom; by vm_compute).
  assert (H3 : kw !! "exclude" = None) by (apply Hno, not_elem_of_dom; by vm_compute).
  split; [done|]. unfold new_agg, pop. cbn [fst snd]. rewrite insert_delete by done. rewrite H1. rewrite (delete_notin kw "skip") by done.
  rewrite H2, (delete_notin kw "filter") by done. rewrite H3, (delete_notin kw "exclude") by done. cbn [default from_option id]. rewrite bool_decide_true by done. rewrite andb_false_r.
  rewrite (insert_id kw "default") by done. rewrite (insert_id kw "editable") by done. subst kw. by rewrite (init_deconstruct PositiveIntegerField).
Qed.
Lemma new_key_again at_ kw : new_key kw = Ok at_ → new_key (django_deconstruct BigIntegerField at_) = Ok at_.
Proof.
  unfold new_key. intros Hi. pose proof (init_dom _ _ _ Hi) as [Hd Hk].
  assert (He : at_ !! "editable" = Some (PBool false)) by (apply Hk, lookup_insert).
  assert (Hdf : at_ !! "default" = Some (PInt 0)) by (apply Hk; rewrite lookup_insert_ne by done; apply lookup_insert).
  set (kw' := django_deconstruct BigIntegerField at_).
  assert (Hke : kw' !! "editable" = Some (PBool false)) by (apply map_filter_lookup_Some_2; [done|by vm_compute]).
  assert (Hkd : kw' !! "default" = Some (PInt 0)) by (apply map_filter_lookup_Some_2; [done|by vm_compute]).
  rewrite (insert_id kw' "default") by done. rewrite (insert_id kw' "editable") by done. by apply init_deconstruct.
Qed.

(** The field of the historical model. *)
Lemma declared_again sqlite sqlite' classes f : declared sqlite classes f → ∃ p, deconstruct f = Ok p ∧ construct sqlite' classes p = Ok (historical f).
Proof.
  intros Hf. assert (Hpath : ∀ path args kw, path ∉ our_paths → construct sqlite' classes (path, args, kw) =
    match classes !! path, args with Some c, [] => let* at_ := django_init c kw in Ok (FOrdinary c at_) | _, _ => Err EType end).
  { intros path args kw Hn. unfold construct. rewrite !decide_False; [done|..]; intros ->; apply Hn; unfold our_paths; set_solver. }
  destruct Hf as [c kw at_ Hc Hn Hi|c func kw f Hc Hn He Hi|m kw f Hi|m kw f Hi|kw at_ Hi|fn ca kw f Hi].
  - eexists. split; [done|]. rewrite Hpath, Hc by done. rewrite init_deconstruct; [done|]. by eapply init_dom.
  - unfold new_denorm in Hi. destruct (django_init c _) as [at_|] eqn:Ha; [|done]. injection Hi as <-. apply init_dom in Ha as [Hd _].
    eexists. cbn [deconstruct]. rewrite init_deconstruct by done. split; [done|]. rewrite Hpath, Hc by done. by rewrite init_deconstruct.
  - unfold new_count in Hi. destruct (new_agg sqlite kw) as [p|] eqn:Hp; [|done]. injection Hi as <-. apply agg_init in Hp as (Hd & He & Hdf).
    destruct (new_agg_again sqlite' _ Hd He Hdf) as [H1 H2]. eexists. cbn [deconstruct]. rewrite H1. split; [done|].
    unfold construct. rewrite decide_True by done. unfold new_count. by rewrite H2.
  - unfold new_sum in Hi. destruct (new_agg sqlite _) as [p|] eqn:Hp; [|done]. injection Hi as <-. apply agg_init in Hp as (Hd & He & Hdf).
    destruct (new_agg_again sqlite' _ Hd He Hdf) as [H1 H2]. eexists. cbn [deconstruct]. rewrite H1. split; [done|].
    unfold construct. rewrite decide_False by done. rewrite decide_True by done. unfold new_sum, pop. cbn [fst snd].
    assert (Hno : delete "editable" (django_deconstruct PositiveIntegerField p.1.1.1) !! "field" = None).
    { rewrite lookup_delete_ne by done. apply map_filter_lookup_None_2. left. apply not_elem_of_dom. rewrite Hd. apply not_elem_of_dom. by vm_compute. }
    rewrite Hno. rewrite (delete_notin _ "field") by done. by rewrite H2.
  - eexists. split; [done|]. unfold construct. rewrite !decide_False by done. rewrite decide_True by done. by rewrite (new_key_again _ _ Hi).
  - unfold new_cached in Hi. destruct (new_key kw) as [at_|] eqn:Ha; [|done]. injection Hi as <-. eexists. split; [done|].
    unfold construct. rewrite !decide_False by done. rewrite decide_True by done. unfold new_cached. by rewrite (new_key_again _ _ Ha).
Qed.
Lemma historical_same f : attributes (historical f) = attributes f ∧ base_class (historical f) = base_class f.
Proof. by destruct f. Qed.
Lemma historical_deconstruct sqlite classes f : declared sqlite classes f → deconstruct (historical f) = deconstruct f.
Proof.
  intros Hf. destruct Hf as [c kw at_ Hc Hn Hi|c func kw f Hc Hn He Hi|m kw f Hi|m kw f Hi|kw at_ Hi|fn ca kw f Hi]; try done.
  - unfold new_denorm in Hi. destruct (django_init c _) as [at_|] eqn:Ha; [|done]. injection Hi as <-. apply init_dom in Ha as [Hd _].
    cbn [deconstruct historical]. by rewrite init_deconstruct.
  - unfold new_count in Hi. destruct (new_agg sqlite kw); [|done]. by injection Hi as <-.
  - unfold new_sum in Hi. destruct (new_agg sqlite _); [|done]. by injection Hi as <-.
  - unfold new_cached in Hi. destruct (new_key kw); [|done]. by injection Hi as <-.
Qed.

(** For examples. *)
Lemma init_ok c kw at_ : bool_decide (dom kw ⊆ dom (fc_params c)) = true → bool_decide (kw ∪ fc_params c = at_) = true → django_init c kw = Ok at_.
Proof. intros H1%bool_decide_eq_true H2%bool_decide_eq_true. unfold django_init. by rewrite decide_True, H2 by done. Qed.
Lemma count_ok sqlite m kw at_ flt : kw !! "filter" = Some (PDict flt) → sqlite && negb (bool_decide (PDict flt = PDict [])) = false →
  django_init PositiveIntegerField (<["editable" := PBool false]> (<["default" := PInt 0]> (delete "exclude" (delete "filter" (delete "skip" (<["editable" := PBool false]> kw)))))) = Ok at_ →
  kw !! "skip" = None → kw !! "exclude" = None → new_count sqlite m kw = Ok (FCount at_ m (PDict flt) (PDict []) PNone).
Proof.
  intros H1 H2 H3 H4 H5. unfold new_count, new_agg, pop. cbn [fst snd]. rewrite H3.
  rewrite !lookup_insert_ne, H4 by done. rewrite !lookup_delete_ne, !lookup_insert_ne, H1, H5 by done. cbn [default from_option id]. by rewrite H2.
Qed.
Lemma sum_ok sqlite m at_ fld :
  django_init PositiveIntegerField (<["editable" := PBool false]> (<["default" := PInt 0]> (delete "exclude" (delete "filter" (delete "skip" (<["editable" := PBool false]> ∅)))))) = Ok at_ →
  new_sum sqlite m {["field" := fld]} = Ok (FSum at_ m fld (PDict []) (PDict []) PNone).
Proof.
  intros H3. unfold new_sum, new_agg, pop. cbn [fst snd]. rewrite delete_singleton, H3, lookup_singleton.
  rewrite !lookup_insert_ne, lookup_empty by done. rewrite !lookup_delete_ne, !lookup_insert_ne, !lookup_empty by done. cbn [default from_option id].
  rewrite bool_decide_true by done. by rewrite andb_false_r.
Qed.
