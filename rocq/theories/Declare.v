(** * Declaring fields: what the constructors fix, and which declarations raise. *)
From Verif Require Import Base Schema Migrate.

(** CopyField (fields.py:253-257) inherits AggregateField.__init__ (fields.py:111-142), which calls
    get_denorm (fields.py:105-109): [raise NotImplemented(...)] calls an object that is not callable,
    a TypeError.  The check of the filter comes first. *)
Definition new_copy (sqlite : bool) (manager : pv) (kw : kwargs) : res mfield :=
  let q := pop "filter" (PDict []) (pop "skip" PNone kw).2 in
  if sqlite && negb (bool_decide (q.1 = PDict [])) then Err ENotImplemented else Err EType.

(** [@cached(cache, **kw)] (fields.py:324-328) with CachedField.__init__ (fields.py:309-315): after
    the constructor of the base class, [self.func.depend] is read.  [depend]: the function has that
    attribute, which only depend_on_related sets (dependencies.py:418-432).  Function and cache are
    objects whose truth value is True. *)
Definition declare_cached (depend : bool) (func cache : pv) (kw : kwargs) : res mfield :=
  let* f := new_cached func cache kw in if depend then Ok f else Err EAttribute.
(** [@denormalized(DBField, **kw)] (fields.py:97-99): [getattr(self.func, 'depend', [])]
    (fields.py:46) does not need the attribute. *)
Definition declare_denormalized (depend : bool) (c : fclass) (func : pv) (kw : kwargs) : res mfield := new_denorm c func kw.

(** ** Specification *)
Definition is_denormalized (f : mfield) : bool := match f with FOrdinary _ _ => false | _ => true end.
(** Aggregates and cache keys start at 0. *)
Definition starts_at_zero (f : mfield) : bool := match f with FOrdinary _ _ | FDenorm _ _ _ _ => false | _ => true end.

Lemma new_key_init kw at_ : new_key kw = Ok at_ → at_ !! "editable" = Some (PBool false) ∧ at_ !! "default" = Some (PInt 0).
Proof.
  unfold new_key. intros Hi. apply init_dom in Hi as [_ Hk]. split; apply Hk; [apply lookup_insert|].
  rewrite lookup_insert_ne by done. apply lookup_insert.
Qed.
Lemma declared_fixed sqlite classes f : declared sqlite classes f → is_denormalized f = true →
  attributes f !! "editable" = Some (PBool false) ∧ (starts_at_zero f = true → attributes f !! "default" = Some (PInt 0)).
Proof.
  intros Hf Hd. destruct Hf as [c kw at_ Hc Hn Hi|c func kw f Hc Hn He Hi|m kw f Hi|m kw f Hi|kw at_ Hi|fn ca kw f Hi]; [done|..].
  - unfold new_denorm in Hi. destruct (django_init c _) as [at_|] eqn:Ha; [|done]. injection Hi as <-. cbn [attributes starts_at_zero].
    apply init_dom in Ha as [_ Hk]. split; [|done]. apply Hk, lookup_insert.
  - unfold new_count in Hi. destruct (new_agg sqlite kw) as [p|] eqn:Hp; [|done]. injection Hi as <-. by apply agg_init in Hp as (_ & ? & ?).
  - unfold new_sum in Hi. destruct (new_agg sqlite _) as [p|] eqn:Hp; [|done]. injection Hi as <-. by apply agg_init in Hp as (_ & ? & ?).
  - by apply new_key_init in Hi as [].
  - unfold new_cached in Hi. destruct (new_key kw) as [at_|] eqn:Ha; [|done]. injection Hi as <-. by apply new_key_init in Ha as [].
Qed.
Lemma new_copy_raises sqlite m kw : new_copy sqlite m kw = Err EType ∨ new_copy sqlite m kw = Err ENotImplemented ∧ sqlite = true.
Proof. unfold new_copy. destruct sqlite; simpl; [case_match; [right; done|by left]|by left]. Qed.
Lemma cached_needs_depend depend fn ca kw f : declare_cached depend fn ca kw = Ok f → depend = true ∧ new_cached fn ca kw = Ok f.
Proof. unfold declare_cached. destruct (new_cached fn ca kw); [|done]. by destruct depend. Qed.
