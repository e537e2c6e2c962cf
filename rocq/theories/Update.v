(** * Denorm.update and the value a callback field stores.
    Models denorm/denorms.py:99-140 (no caller inside the package). *)
From Verif Require Import Base BaseLemmas Schema TrigSet Gen Exec Orm Spec.

(** Elements of a list returned for a many-to-many field (denorms.py:120-126). *)
Definition py_pk (x : pyval) : option val := match x with PVal v => Some v | PInst _ k => Some (VInt k) end.

(** The attribute of an instance after the call: a column value, or, if an instance is
    assigned to the attname, something that is no column value. *)
Inductive attr := AVal (v : val) | AInst (m : string) (k : Z).

(** Denorm.update for a column field: denorms.py:132-138.  [None]: nothing is written.
    [rf]: the field class still has the attribute [related_field] (Django < 1.10).
    A key never equals an instance, so an instance is always written. *)
Definition denorm_update (rf : bool) (f : field) (old : val) (new : pyval) : option attr :=
  match new with
  | PVal w => if decide (old = w) then None else Some (AVal w)
  | PInst m k =>
      if rf && bool_decide (f_fk f = Some m) then Some (AVal (VInt k)) else Some (AInst m k)
  end.
(** Denorm.update for a many-to-many field: denorms.py:113-130. *)
Definition denorm_update_m2m (old new : list Z) : option (list Z) :=
  if decide ((list_to_set old : gset Z) = list_to_set new) then None else Some new.

Lemma update_value rf f old w : denorm_update rf f old (PVal w) = None ↔ old = w.
Proof. unfold denorm_update. case_decide; naive_solver. Qed.
Lemma update_value_set rf f old w v : denorm_update rf f old (PVal w) = Some v → v = AVal w.
Proof. unfold denorm_update. case_decide; naive_solver. Qed.
Lemma update_m2m old new : denorm_update_m2m old new = None ↔ ∀ k, k ∈ old ↔ k ∈ new.
Proof.
  unfold denorm_update_m2m. case_decide as H; split; try done.
  - intros _ k. rewrite <- !(elem_of_list_to_set (C:=gset Z)). by rewrite H.
  - intros Hk. destruct H. apply set_eq. intros k. rewrite !elem_of_list_to_set. apply Hk.
Qed.
Lemma store_value_spec f pv v : store_value f pv = Ok v ↔ stores f pv v.
Proof.
  unfold store_value, stores. destruct pv as [w|m k]; [destruct (f_fk f); naive_solver|]. destruct (f_fk f) as [rm|]; [|naive_solver].
  case_decide; naive_solver.
Qed.
Lemma presave_callback E m add pk d r f fn ds sk q : f_kind f = KCallback fn ds sk →
  presave_field E m add pk (d, r) f = Ok q ↔ ∃ pv v, fn d pk r = Ok pv ∧ stores f pv v ∧ q = (d, <[f_col f := v]> r).
Proof.
  intros Hk. unfold presave_field. rewrite Hk. simpl. destruct (fn d pk r) as [pv|e]; simpl; [|naive_solver].
  destruct (store_value f pv) as [v|e] eqn:Hs; simpl.
  - apply store_value_spec in Hs as Hst. split; [intros [= <-]; eauto|]. intros (pv' & v' & [= <-] & Hst' & ->).
    apply store_value_spec in Hst'. congruence.
  - split; [done|]. intros (pv' & v' & [= <-] & Hst' & ->). apply store_value_spec in Hst'. congruence.
Qed.
