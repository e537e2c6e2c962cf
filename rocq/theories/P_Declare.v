(** * Claims on declarations (C89). *)
From Verif Require Import Base Schema Migrate Declare P_Migrate.

(** Whatever keywords are given ([editable=True] for instance), a denormalized field is not
    editable - forms leave it out - and aggregates and cache keys start at 0. *)
Theorem denorm_fields_not_editable sqlite classes f : declared sqlite classes f → is_denormalized f = true →
  attributes f !! "editable" = Some (PBool false) ∧ (starts_at_zero f = true → attributes f !! "default" = Some (PInt 0)).
Proof. exact (declared_fixed sqlite classes f). Qed.
Print Assumptions denorm_fields_not_editable.
Example not_editable_ex : new_denorm charfield (PFun 0) (<["editable" := PBool true]> (<["max_length" := PInt 100]> ∅)) = Ok (FDenorm charfield dn_at (PFun 0) PNone) ∧
  new_key (<["default" := PInt 5]> ∅) = Ok ag_at.
Proof.
  split; [|apply init_ok; by vm_compute]. unfold new_denorm, pop. cbn [fst snd]. rewrite (init_ok charfield _ dn_at) by (by vm_compute). by vm_compute.
Qed.

(** No CopyField can be declared, with whatever arguments: the constructor raises TypeError, or
    NotImplementedError for a filter on SQLite. *)
Theorem copy_field_never_declared sqlite m kw : new_copy sqlite m kw = Err EType ∨ new_copy sqlite m kw = Err ENotImplemented ∧ sqlite = true.
Proof. exact (new_copy_raises sqlite m kw). Qed.
Print Assumptions copy_field_never_declared.
(** "Field, which makes two fields identical" (fields.py:254-256). *)
Theorem copy_field_usable_refuted : ∃ sqlite m, ∀ kw f, new_copy sqlite m kw ≠ Ok f.
Proof. exists false, (PStr "item_set"). intros kw f H. by destruct (new_copy_raises false (PStr "item_set") kw) as [He|[He _]]; rewrite H in He. Qed.
Print Assumptions copy_field_usable_refuted.

(** @cached needs a function with dependencies; @denormalized takes any function. *)
Theorem cached_function_needs_dependencies depend fn ca kw f : declare_cached depend fn ca kw = Ok f →
  depend = true ∧ new_cached fn ca kw = Ok f.
Proof. exact (cached_needs_depend depend fn ca kw f). Qed.
Print Assumptions cached_function_needs_dependencies.
Theorem cached_any_function_refuted : ∃ fn ca kw f, new_cached fn ca kw = Ok f ∧ declare_cached true fn ca kw = Ok f ∧ declare_cached false fn ca kw = Err EAttribute ∧
  ∀ c, declare_denormalized false c fn kw = declare_denormalized true c fn kw.
Proof.
  exists (PFun 0), (PFun 1), ∅, (FCached ag_at (PFun 0) (PFun 1)).
  assert (H : new_cached (PFun 0) (PFun 1) ∅ = Ok (FCached ag_at (PFun 0) (PFun 1))).
  { unfold new_cached, new_key. rewrite (init_ok _ _ ag_at) by (by vm_compute). reflexivity. }
  split; [exact H|]. unfold declare_cached. rewrite H. split; [reflexivity|]. split; reflexivity.
Qed.
Print Assumptions cached_any_function_refuted.
