(** * Lemmas about Base.v (no modelling here). *)
From Verif Require Import Base.

Lemma rbind_ok {A B} (m : res A) (f : A → res B) b :
  rbind m f = Ok b → ∃ a, m = Ok a ∧ f a = Ok b.
Proof. destruct m; simpl; [eauto|done]. Qed.

Ltac inv_bind H :=
  let a := fresh "a" in let H1 := fresh H in
  apply rbind_ok in H as (a & H1 & H).

Lemma foldM_cons {A B} (f : A → B → res A) a x l :
  foldM f a (x :: l) = rbind (f a x) (λ a', foldM f a' l).
Proof. done. Qed.
Lemma foldM_app {A B} (f : A → B → res A) a l1 l2 :
  foldM f a (l1 ++ l2) = rbind (foldM f a l1) (λ a', foldM f a' l2).
Proof.
  revert a; induction l1 as [|x l1 IH]; intros a; simpl; [done|].
  destruct (f a x); simpl; [apply IH|done].
Qed.

(** A preorder respected by every step is respected by the fold. *)
Lemma foldM_rel {A B} (R : A → A → Prop) (f : A → B → res A) l :
  (∀ a, R a a) → (∀ a b c, R a b → R b c → R a c) →
  (∀ a x a', x ∈ l → f a x = Ok a' → R a a') →
  ∀ a a', foldM f a l = Ok a' → R a a'.
Proof.
  intros Hr Ht. induction l as [|x l IH]; intros Hs a a' H; simpl in H.
  - by injection H as <-.
  - inv_bind H. eapply Ht; [eapply Hs; [left|done]|].
    eapply IH; [|done]. intros b y b' Hy. apply Hs. by right.
Qed.

(** Invariant version. *)
Lemma foldM_inv {A B} (P : A → Prop) (f : A → B → res A) l :
  (∀ a x a', x ∈ l → P a → f a x = Ok a' → P a') →
  ∀ a a', P a → foldM f a l = Ok a' → P a'.
Proof.
  induction l as [|x l IH]; intros Hs a a' Ha H; simpl in H.
  - by injection H as <-.
  - inv_bind H. eapply IH; [| |done].
    + intros b y b' Hy. apply Hs. by right.
    + eapply Hs; [left|done|done].
Qed.

(** The step for a given element is executed, between two related states. *)
Lemma foldM_elem {A B} (R : A → A → Prop) (f : A → B → res A) l x :
  (∀ a, R a a) → (∀ a b c, R a b → R b c → R a c) →
  (∀ a y a', y ∈ l → f a y = Ok a' → R a a') →
  x ∈ l → ∀ a a', foldM f a l = Ok a' →
  ∃ b b', R a b ∧ f b x = Ok b' ∧ R b' a'.
Proof.
  intros Hr Ht Hs Hx. apply elem_of_list_split in Hx as (l1 & l2 & ->).
  intros a a' H. rewrite foldM_app in H. inv_bind H. simpl in H. inv_bind H.
  exists a0, a1. split_and!; [|done|].
  - eapply foldM_rel; [done|done| |exact H0]. intros. eapply Hs; [|done]. set_solver.
  - eapply foldM_rel; [done|done| |exact H]. intros. eapply Hs; [|done]. set_solver.
Qed.

Lemma foldM_ext {A B} (f g : A → B → res A) l a :
  (∀ a x, x ∈ l → f a x = g a x) → foldM f a l = foldM g a l.
Proof.
  revert a; induction l as [|x l IH]; intros a H; simpl; [done|].
  rewrite H by left. destruct (g a x); simpl; [|done]. apply IH. intros. apply H. by right.
Qed.

(** ** Access functions *)
Lemma tab_put d t k r t' : tab (put_row d t k r) t' = if decide (t' = t) then <[k := r]> (tab d t) else tab d t'.
Proof.
  unfold put_row, tab, set_tabs; simpl. case_decide; subst.
  - by rewrite lookup_insert.
  - by rewrite lookup_insert_ne.
Qed.
Lemma tab_del d t k t' : tab (del_row d t k) t' = if decide (t' = t) then delete k (tab d t) else tab d t'.
Proof.
  unfold del_row, tab, set_tabs; simpl. case_decide; subst.
  - by rewrite lookup_insert.
  - by rewrite lookup_insert_ne.
Qed.
Lemma getrow_put d t k r t' k' :
  getrow (put_row d t k r) t' k' = if decide (t' = t ∧ k' = k) then Some r else getrow d t' k'.
Proof.
  unfold getrow. destruct (decide (t' = t ∧ k' = k)) as [[-> ->]|Hn]; rewrite tab_put.
  - rewrite decide_True by done. by rewrite lookup_insert.
  - case_decide; [|done]. subst. rewrite lookup_insert_ne; [done|]. naive_solver.
Qed.
Lemma getrow_del d t k t' k' :
  getrow (del_row d t k) t' k' = if decide (t' = t ∧ k' = k) then None else getrow d t' k'.
Proof.
  unfold getrow. destruct (decide (t' = t ∧ k' = k)) as [[-> ->]|Hn]; rewrite tab_del.
  - rewrite decide_True by done. by rewrite lookup_delete.
  - case_decide; [|done]. subst. rewrite lookup_delete_ne; [done|]. naive_solver.
Qed.
Lemma getrow_put_eq d t k r : getrow (put_row d t k r) t k = Some r.
Proof. rewrite getrow_put. by rewrite decide_True. Qed.
Lemma getrow_put_ne d t k r t' k' : ¬ (t' = t ∧ k' = k) → getrow (put_row d t k r) t' k' = getrow d t' k'.
Proof. intros. rewrite getrow_put. by rewrite decide_False. Qed.
Lemma tab_mark d l t : tab (mark d l) t = tab d t. Proof. done. Qed.
Lemma tab_tick_rnd d t : tab (tick_rnd d) t = tab d t. Proof. done. Qed.
Lemma tab_tick_now d t : tab (tick_now d) t = tab d t. Proof. done. Qed.
Lemma tab_set_dirty d l t : tab (set_dirty d l) t = tab d t. Proof. done. Qed.
Lemma getrow_mark d l t k : getrow (mark d l) t k = getrow d t k. Proof. done. Qed.
Lemma getrow_tick_rnd d t k : getrow (tick_rnd d) t k = getrow d t k. Proof. done. Qed.
Lemma dirty_put d t k r : d_dirty (put_row d t k r) = d_dirty d. Proof. done. Qed.
Lemma dirty_del d t k : d_dirty (del_row d t k) = d_dirty d. Proof. done. Qed.
Lemma dirty_mark d l : d_dirty (mark d l) = d_dirty d ++ l. Proof. done. Qed.
Lemma tab_getrow_eq d d' t : (∀ k, getrow d t k = getrow d' t k) → tab d t = tab d' t.
Proof. intros H. apply map_eq. exact H. Qed.

Lemma col_insert r c v c' : col (<[c := v]> r) c' = if decide (c' = c) then v else col r c'.
Proof.
  unfold col. case_decide; subst; [by rewrite lookup_insert|by rewrite lookup_insert_ne].
Qed.
Lemma col_insert_eq r c v : col (<[c := v]> r) c = v.
Proof. rewrite col_insert. by rewrite decide_True. Qed.
Lemma col_insert_ne r c v c' : c' ≠ c → col (<[c := v]> r) c' = col r c'.
Proof. intros. rewrite col_insert. by rewrite decide_False. Qed.

Lemma pretty_Z_inj' (x y : Z) : pretty x = pretty y → x = y.
Proof. apply (inj pretty). Qed.
Lemma to_text_pretty v k : to_text v = Some (pretty k) → v = VInt k ∨ v = VText (pretty k).
Proof. destruct v; simpl; intros [= H]; [left|right]; f_equal; [by apply pretty_Z_inj'|done]. Qed.
