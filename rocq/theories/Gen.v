(** * Trigger generation: get_triggers of all denorms and dependencies.
    Models denorm/denorms.py:66-77, 144-203, 206-234, 305-533, 582-590 and
    denorm/dependencies.py:95-411. *)
From Verif Require Import Base Schema TrigSet.

(** [skip = skip or () + getattr(model, 'denorm_always_skip', ())]
    (db/base.py:103, 111).  [+] binds tighter than [or]: a non-empty skip wins alone. *)
Definition eff_skip (skip always : list string) : list string :=
  if decide (skip = []) then always else skip.

(** [if not v and k.attname not in skip] over the model's fields
    (db/base.py:117-122); the primary key is one of them. *)
Definition model_tfields (m : model) (skip : list string) : list string :=
  let sk := eff_skip skip (m_always_skip m) in
  filter (λ a, a ∉ sk)
    (m_pk m :: (f_att <$> filter (λ f, f_owner f = m_name m) (m_fields m))).

(** Trigger(model, "after", event, actions, content_type, using, skip): db/base.py:106-122. *)
Definition model_trigger (m : model) (ct : Z) (skip : list string) (e : evkind) (acts : list action) : trigger :=
  Trigger (m_table m) e (model_tfields m skip) None ct acts.
(** Trigger(ManyToManyField, ...): db/base.py:89-92; skip is ignored. *)
Definition m2m_trigger (t c rc : string) (ct : Z) (e : evkind) (acts : list action) : trigger :=
  Trigger t e [c; rc] None ct acts.
(** Trigger(GenericRelation, ...): db/base.py:94-98: the fields of the remote model,
    skip and denorm_always_skip ignored, content type condition. *)
Definition gen_trigger (rm : model) (ctc : string) (ct : Z) (e : evkind) (acts : list action) : trigger :=
  Trigger (m_table rm) e (m_pk rm :: (f_att <$> filter (λ f, f_owner f = m_name rm) (m_fields rm)))
    (Some ctc) ct acts.

(** CallbackDependOnRelated.get_triggers: dependencies.py:274-411.
    [this] is this_model, [other] the resolved other_model. *)
Definition cb_dep_triggers (this other : model) (dp : dep) : list trigger :=
  let ct := m_ct this in
  let sk := dep_skip dp in
  match dep_rel dp with
  | RelForward fk =>                                                   (* :284-313 *)
      let anew := AMarkSel ct (m_table this) (m_pk this) fk RNew (m_pk other) in
      let aold := AMarkSel ct (m_table this) (m_pk this) fk ROld (m_pk other) in
      [ model_trigger other ct sk EvUpd [anew];
        model_trigger other ct sk EvIns [anew];
        model_trigger other ct sk EvDel [aold] ]
  | RelBackward fk =>                                                  (* :315-343 *)
      let anew := AMarkSel ct (m_table other) fk (m_pk other) RNew (m_pk other) in
      let aold := AMark ct ROld fk in
      [ model_trigger other ct sk EvUpd [anew; aold];
        model_trigger other ct sk EvIns [anew];
        model_trigger other ct sk EvDel [aold] ]
  | RelM2M t c rc =>                                                   (* :345-409, ManyToManyField *)
      let anew := AMark ct RNew c in
      let aold := AMark ct ROld c in
      [ m2m_trigger t c rc ct EvUpd [anew; aold];
        m2m_trigger t c rc ct EvIns [anew];
        m2m_trigger t c rc ct EvDel [aold];
        model_trigger other ct sk EvUpd [AMarkSel ct t c rc RNew (m_pk other)] ]
  | RelGenForward ctc oidc =>                                          (* :345-409, GenericRelation on this_model *)
      let anew := AMark ct RNew oidc in
      let aold := AMark ct ROld oidc in
      [ gen_trigger other ctc ct EvUpd [anew; aold];
        gen_trigger other ctc ct EvIns [anew];
        gen_trigger other ctc ct EvDel [aold] ]
  | RelGenBackward ctc oidc =>                                         (* :359-361: column_name is the pk of the remote model, this_model itself *)
      let anew := AMark ct RNew (m_pk this) in
      let aold := AMark ct ROld (m_pk this) in
      [ gen_trigger this ctc ct EvUpd [anew; aold];
        gen_trigger this ctc ct EvIns [anew];
        gen_trigger this ctc ct EvDel [aold] ]
  end.

(** CacheKeyDependOnRelated.get_triggers: dependencies.py:97-235. *)
Definition ck_dep_triggers (this other : model) (fname : string) (dp : dep) : list trigger :=
  let ct := m_ct this in
  let sk := dep_skip dp in
  let upd w := AUpd (m_table this) fname XRand w in
  match dep_rel dp with
  | RelForward fk =>                                                   (* :107-133 *)
      let anew := upd (WEq fk RNew (m_pk other) [] []) in
      let aold := upd (WEq fk ROld (m_pk other) [] []) in
      [ model_trigger other ct sk EvUpd [anew];
        model_trigger other ct sk EvIns [anew];
        model_trigger other ct sk EvDel [aold] ]
  | RelBackward fk =>                                                  (* :135-163 *)
      let anew := upd (WEq (m_pk this) RNew fk [] []) in
      let aold := upd (WEq (m_pk this) ROld fk [] []) in
      [ model_trigger other ct sk EvUpd [anew; aold];
        model_trigger other ct sk EvIns [anew];
        model_trigger other ct sk EvDel [aold] ]
  | RelM2M t c rc =>                                                   (* :165-233 *)
      let anew := upd (WEq (m_pk this) RNew c [] []) in
      let aold := upd (WEq (m_pk this) ROld c [] []) in
      [ m2m_trigger t c rc ct EvUpd [anew; aold];
        m2m_trigger t c rc ct EvIns [anew];
        m2m_trigger t c rc ct EvDel [aold];
        model_trigger other ct sk EvUpd [upd (WIn (m_pk this) t c rc RNew (m_pk other))] ]
  | RelGenForward ctc oidc =>                                          (* :175-209 *)
      let anew := upd (WEq (m_pk this) RNew oidc [] []) in
      let aold := upd (WEq (m_pk this) ROld oidc [] []) in
      [ gen_trigger other ctc ct EvUpd [anew; aold];
        gen_trigger other ctc ct EvIns [anew];
        gen_trigger other ctc ct EvDel [aold] ]
  | RelGenBackward ctc oidc =>                                         (* :179-181 *)
      let anew := upd (WEq (m_pk this) RNew (m_pk this) [] []) in
      let aold := upd (WEq (m_pk this) ROld (m_pk this) [] []) in
      [ gen_trigger this ctc ct EvUpd [anew; aold];
        gen_trigger this ctc ct EvIns [anew];
        gen_trigger this ctc ct EvDel [aold] ]
  end.

(** CallbackDenorm.get_triggers, its own part: denorms.py:179-203.  Absent for
    BaseCallbackDenorm, i.e. with DENORM_BULK_UNSAFE_TRIGGERS (fields.py:41-44). *)
Definition cb_self_triggers (this : model) (skip : list string) : list trigger :=
  let a := AMark (m_ct this) RNew (m_pk this) in
  [ model_trigger this (m_ct this) skip EvUpd [a];
    model_trigger this (m_ct this) skip EvIns [a] ].

(** AggregateDenorm.get_triggers for a ForeignKey manager: denorms.py:371-442,
    with the values of SumDenorm (469-477) and CountDenorm (519-527).
    Managers of ManyToManyFields are not modelled: denorms.py:327 reads
    [self.manager.related], which does not exist for Django >= 1.9. *)
Definition agg_triggers (this rel : model) (fname : string) (a : agg) : list trigger :=
  let inc := match ag_sum a with None => XInc | Some c => XAdd RNew c end in
  let dec := match ag_sum a with None => XDec | Some c => XSub ROld c end in
  let increment := AUpd (m_table this) fname inc (WEq (m_pk this) RNew (ag_fk a) (ag_filter a) (ag_exclude a)) in
  let decrement := AUpd (m_table this) fname dec (WEq (m_pk this) ROld (ag_fk a) (ag_filter a) (ag_exclude a)) in
  [ model_trigger rel (m_ct this) (ag_skip a) EvUpd [increment; decrement];
    model_trigger rel (m_ct this) (ag_skip a) EvIns [increment];
    model_trigger rel (m_ct this) (ag_skip a) EvDel [decrement] ].

Definition with_model {A} (S : schema) (n : string) (k : model → res A) : res A :=
  match find_model S n with Some m => k m | None => Err EValue end.

(** [for dependency in self.depend: trigger_list += dependency.get_triggers()]
    (denorms.py:168-169, 231-232).  An unresolved model raises ValueError
    (dependencies.py:101-103, 278-280). *)
Definition deps_triggers (S : schema) (this : model) (g : model → model → dep → list trigger) (ds : list dep) : res (list trigger) :=
  foldM (λ acc dp, with_model S (dep_other dp) (λ o, Ok (acc ++ g this o dp))) [] ds.

(** denorm.get_triggers(using): denorms.py:159-171, 179-203, 222-234, 371-442.
    [this] is denorm.model. *)
Definition field_triggers (S : schema) (this : model) (f : field) : res (list trigger) :=
  match f_kind f with
  | KCallback _ ds skip =>
      let* l := deps_triggers S this cb_dep_triggers ds in
      Ok ((if s_bulk_unsafe S then [] else cb_self_triggers this skip) ++ l)
  | KCacheKey ds => deps_triggers S this (λ t o dp, ck_dep_triggers t o (f_name f) dp) ds
  | KAgg a => with_model S (ag_rel a) (λ r, Ok (agg_triggers this r (f_name f) a))
  | _ => Ok []
  end.

(** get_alldenorms: denorms.py:66-77: (denorm.model, field) pairs.  Only
    [_meta.fields] is scanned, which contains no ManyToManyField. *)
Definition alldenorms (S : schema) : list (model * field) :=
  m ← s_models S;
  if m_proxy m then [] else
  f ← m_fields m;
  if is_denorm f then
    match find_model S (f_owner f) with
    | Some o => if m_swapped o then [] else [(o, f)]
    | None => []
    end
  else [].

(** build_triggerset: denorms.py:582-590. *)
Definition build_triggerset (b : backend) (S : schema) : res tset :=
  foldM (λ ts p, let* l := field_triggers S p.1 p.2 in Ok (tset_append b ts l)) [] (alldenorms S).

(** install_triggers on an empty catalogue: denorms.py:575-579. *)
Definition installed (b : backend) (S : schema) : res (list itrig) :=
  let* ts := build_triggerset b S in tset_sql b ts.
