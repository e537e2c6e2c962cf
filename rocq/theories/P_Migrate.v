(** * C69: what migrations keep of denormalized fields. *)
From Verif Require Import Base Schema Migrate.

(** The field in the migration is the same column: migrate builds a field of the same
    Django class with the same attributes from it, whatever the database it runs on, and
    makemigrations finds no difference between that field and the declared one.  Nothing
    raises. *)
Theorem migration_same_column : ∀ sqlite sqlite' classes f, declared sqlite classes f →
  ∃ p g, deconstruct f = Ok p ∧ construct sqlite' classes p = Ok g ∧
    attributes g = attributes f ∧ base_class g = base_class f ∧ deconstruct g = Ok p.
Proof.
  intros sqlite sqlite' classes f Hf. destruct (declared_again sqlite sqlite' classes f Hf) as (p & H1 & H2).
  exists p, (historical f). pose proof (historical_same f) as [H3 H4]. split_and!; try done. rewrite <- H1. by eapply historical_deconstruct.
Qed.
Print Assumptions migration_same_column.

(** In a migration a denormalized field is an ordinary field: its function is not called. *)
Theorem migration_no_callback : ∀ sqlite sqlite' classes c at_ func skip, declared sqlite classes (FDenorm c at_ func skip) →
  ∃ p, deconstruct (FDenorm c at_ func skip) = Ok p ∧ construct sqlite' classes p = Ok (FOrdinary c at_).
Proof. intros sqlite sqlite' classes c at_ func skip Hf. exact (declared_again sqlite sqlite' classes _ Hf). Qed.
Print Assumptions migration_no_callback.

(** Classes of the examples. *)
Definition charfield : fclass := FClass "django.db.models.CharField" common.
Definition cls : gmap string fclass := {["django.db.models.CharField" := charfield]}.
Definition dn_kw : kwargs := list_to_map [("max_length", PInt 100); ("skip", PStr "none")].
Definition dn_at : kwargs := <["editable" := PBool false]> (<["max_length" := PInt 100]> common).
Example declared_denorm : declared false cls (FDenorm charfield dn_at (PFun 0) (PStr "none")).
Proof. eapply (d_denorm _ _ charfield (PFun 0) dn_kw); [by vm_compute|by apply (bool_decide_unpack _); vm_compute|by vm_compute|].
  assert (Hs : dn_kw !! "skip" = Some (PStr "none")) by (by vm_compute).
  unfold new_denorm, pop. cbn [fst snd]. rewrite (init_ok charfield _ dn_at) by (by vm_compute). by rewrite Hs.
Qed.
Example migration_ex : ∃ p, deconstruct (FDenorm charfield dn_at (PFun 0) (PStr "none")) = Ok p ∧ p.1 = ("django.db.models.CharField", []) ∧
  p.2 !! "max_length" = Some (PInt 100) ∧ p.2 !! "editable" = Some (PBool false) ∧ size p.2 = 2%nat.
Proof.
  assert (Hd : dom dn_at = dom (fc_params charfield)) by (apply (bool_decide_unpack _); by vm_compute).
  eexists. split; [unfold deconstruct; rewrite (init_deconstruct charfield dn_at Hd); reflexivity|]. cbn [fst snd]. split_and!; by vm_compute.
Qed.

(** Aggregates: the filter, the exclusion and the summed field are not stored.  Two
    declarations with different filters have the same migration, so makemigrations sees no
    change when the filter of a CountField is edited. *)
Definition ag_at : kwargs := <["editable" := PBool false]> (<["default" := PInt 0]> common).
Definition count_with (flt : list (string * val)) : mfield := FCount ag_at (PStr "item_set") (PDict flt) (PDict []) PNone.
Theorem filter_change_detected_refuted :
  ∃ f g, declared false cls f ∧ declared false cls g ∧ f ≠ g ∧ deconstruct f = deconstruct g.
Proof.
  assert (H1 : declared false cls (count_with [("active", VInt 1)])).
  { eapply (d_count _ _ (PStr "item_set") {["filter" := PDict [("active", VInt 1)]]}). apply count_ok; [apply lookup_singleton|reflexivity| |by rewrite lookup_singleton_ne..].
    apply init_ok; by vm_compute. }
  assert (H0 : declared false cls (count_with [("active", VInt 0)])).
  { eapply (d_count _ _ (PStr "item_set") {["filter" := PDict [("active", VInt 0)]]}). apply count_ok; [apply lookup_singleton|reflexivity| |by rewrite lookup_singleton_ne..].
    apply init_ok; by vm_compute. }
  exists (count_with [("active", VInt 1)]), (count_with [("active", VInt 0)]). split; [exact H1|]. split; [exact H0|].
  unfold count_with. generalize ag_at. intros x. split; [congruence|reflexivity].
Qed.
Print Assumptions filter_change_detected_refuted.

(** The field of a historical model is not the declared aggregate: it sums no field. *)
Definition sum_points : mfield := FSum ag_at (PStr "votes") (PStr "points") (PDict []) (PDict []) PNone.
Theorem historical_aggregate_same_refuted :
  ∃ f p g, declared true cls f ∧ deconstruct f = Ok p ∧ construct true cls p = Ok g ∧ f = sum_points ∧ g = FSum ag_at (PStr "votes") PNone (PDict []) (PDict []) PNone.
Proof.
  assert (Hd : declared true cls sum_points). { eapply (d_sum _ _ (PStr "votes") {["field" := PStr "points"]}). apply sum_ok, init_ok; by vm_compute. }
  destruct (declared_again true true cls _ Hd) as (p & H1 & H2). exists sum_points, p, (historical sum_points). split; [exact Hd|]. split; [exact H1|]. split; [exact H2|]. split; reflexivity.
Qed.
Print Assumptions historical_aggregate_same_refuted.

(** A field of @cached has neither function nor cache in a migration, and setting its
    attribute raises: no instance of the historical model can be made or loaded. *)
Theorem historical_cached_usable_refuted :
  ∃ f p g, declared true cls f ∧ set_attribute f = Ok () ∧ deconstruct f = Ok p ∧ construct true cls p = Ok g ∧ set_attribute g = Err EAttribute.
Proof.
  set (f := FCached ag_at (PFun 0) (PFun 1)).
  assert (Hd : declared true cls f). { eapply (d_cached _ _ (PFun 0) (PFun 1) ∅). unfold new_cached, new_key. rewrite (init_ok _ _ ag_at) by (by vm_compute). reflexivity. }
  destruct (declared_again true true cls _ Hd) as (p & H1 & H2). exists f, p, (historical f). split; [exact Hd|]. split; [reflexivity|]. split; [exact H1|]. split; [exact H2|]. reflexivity.
Qed.
Print Assumptions historical_cached_usable_refuted.
(** All other fields can be set. *)
Theorem historical_usable : ∀ sqlite sqlite' classes f, declared sqlite classes f → (∀ x y z, f ≠ FCached x y z) →
  ∃ p g, deconstruct f = Ok p ∧ construct sqlite' classes p = Ok g ∧ set_attribute g = Ok ().
Proof.
  intros sqlite sqlite' classes f Hf Hn. destruct (declared_again sqlite sqlite' classes f Hf) as (p & H1 & H2).
  exists p, (historical f). split; [exact H1|]. split; [exact H2|]. clear H1 H2 Hf. destruct f; try reflexivity. exfalso. by eapply Hn.
Qed.
Print Assumptions historical_usable.
