(** * C46: declarations on abstract models; C51: the backend module. *)
From Coq Require Import Ascii.
From Verif Require Import Base Classes.
Open Scope nat_scope.
Open Scope list_scope.

(** ** C46 *)
(** @denormalized fields work for every subclass, whatever is declared in which order. *)
Theorem callback_every_subclass (abs : string) (ds : list cdecl) (c : string) : NoDup (subs ds) -> abs ∉ subs ds ->
  maintained KCall (declares KCall abs ds) c <-> c ∈ subs ds.
Proof. exact (call_maintained abs ds c). Qed.
Print Assumptions callback_every_subclass.
(** A CacheKeyField works for the last subclass only. *)
Theorem cachekey_last_subclass (abs : string) (ds : list cdecl) (c : string) :
  maintained KKey (declares KKey abs ds) c <-> subs ds <> [] /\ c = default abs (last (subs ds)).
Proof. exact (key_maintained abs ds c). Qed.
Print Assumptions cachekey_last_subclass.
(** A CountField or SumField works at most for the last subclass. *)
Theorem aggregate_last_subclass (abs : string) (ds : list cdecl) (c : string) :
  maintained KAgg (declares KAgg abs ds) c -> c = default abs (last (subs ds)).
Proof. exact (agg_maintained abs ds c). Qed.
Print Assumptions aggregate_last_subclass.

(** Two subclasses with their managers available after both class statements. *)
Definition avl (l : list string) (c : string) : bool := bool_decide (c ∈ l).
Definition ex_two : list cdecl := [DSub "A" (avl []); DSub "B" (avl []); DOther "Items" (avl ["A"; "B"])].
Example callback_ex : maintained KCall (declares KCall "Base" ex_two) "A" /\ maintained KCall (declares KCall "Base" ex_two) "B".
Proof. split; (apply call_maintained; [vm_compute; repeat constructor; set_solver|vm_compute; set_solver|vm_compute; set_solver]). Qed.
Example single_ex : maintained KAgg (declares KAgg "Base" [DSub "A" (avl []); DOther "Items" (avl []); DOther "Z" (avl ["A"])]) "A" /\
  maintained KKey (declares KKey "Base" [DSub "A" (avl [])]) "A".
Proof. split; (exists "A"; eexists; eexists; split; [vm_compute; left|vm_compute; auto]). Qed.

Theorem aggregate_every_subclass_refuted : exists abs ds c, NoDup (subs ds) /\ abs ∉ subs ds /\ c ∈ subs ds /\ ~ maintained KAgg (declares KAgg abs ds) c.
Proof.
  exists "Base", ex_two, "A". split; [vm_compute; repeat constructor; set_solver|]. split; [vm_compute; set_solver|]. split; [vm_compute; set_solver|].
  intros H. apply agg_maintained in H. discriminate H.
Qed.
Print Assumptions aggregate_every_subclass_refuted.
(** If the manager of the first subclass exists before the second one is declared, even
    the last one is not maintained: the denorm keeps the manager of the first. *)
Theorem aggregate_no_subclass_refuted : exists abs ds, subs ds <> [] /\ forall c, ~ maintained KAgg (declares KAgg abs ds) c.
Proof.
  exists "Base", [DSub "A" (avl []); DOther "Items" (avl ["A"]); DSub "B" (avl ["A"; "B"])]. split; [done|].
  intros c H. pose proof (agg_maintained _ _ _ H) as Hc. change (c = "B") in Hc. subst. destruct H as (c' & d & e & Hf & _ & Hg).
  rewrite (proj2 (proj2 (agg_inv _ _)) _ _ _ Hf) in Hg. vm_compute in Hg. discriminate Hg.
Qed.
Print Assumptions aggregate_no_subclass_refuted.
Theorem cachekey_every_subclass_refuted : exists abs ds c, NoDup (subs ds) /\ abs ∉ subs ds /\ c ∈ subs ds /\ ~ maintained KKey (declares KKey abs ds) c.
Proof.
  exists "Base", ex_two, "A". split; [vm_compute; repeat constructor; set_solver|]. split; [vm_compute; set_solver|]. split; [vm_compute; set_solver|].
  intros H. apply key_maintained in H as [_ H]. discriminate H.
Qed.
Print Assumptions cachekey_every_subclass_refuted.

(** ** C51 *)
Theorem backend_as_named (b engine : string) : backend_path (Some b) engine = Some b.
Proof. reflexivity. Qed.
Print Assumptions backend_as_named.
Theorem backend_by_engine (prefix t : string) : undotted t ->
  backend_path None (prefix +:+ "." +:+ t) =
  Some ("denorm.db." +:+ (if bool_decide (t ∈ ["postgis"; "postgresql_psycopg2"]) then "postgresql" else t)).
Proof.
  intros Hu. unfold backend_path. assert (H : rsplit1 (prefix +:+ "." +:+ t) = Some t) by (apply rsplit1_some; eauto).
  rewrite H. change (Some (backend_for_dbname t) = Some ("denorm.db." +:+ (if bool_decide (t ∈ ["postgis"; "postgresql_psycopg2"]) then "postgresql" else t))). unfold backend_for_dbname.
  f_equal. f_equal. case_bool_decide as H1; [subst; by rewrite bool_decide_true by set_solver|].
  case_bool_decide as H2; [subst; by rewrite bool_decide_true by set_solver|]. rewrite bool_decide_false; [done|]. set_solver.
Qed.
Print Assumptions backend_by_engine.
Example backend_ex : backend_path None "django.contrib.gis.db.backends.postgis" = Some "denorm.db.postgresql" /\
  backend_path None "django.db.backends.sqlite3" = Some "denorm.db.sqlite3" /\ undotted "postgis".
Proof. split; [reflexivity|]. split; [reflexivity|]. by apply rsplit1_none. Qed.
(** An engine name without a dot (a top-level package) raises an IndexError. *)
Theorem backend_undotted_refuted : exists engine, undotted engine /\ backend_path None engine = None.
Proof. exists "mybackend". split; [by apply rsplit1_none|reflexivity]. Qed.
Print Assumptions backend_undotted_refuted.
