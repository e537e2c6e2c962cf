(** * Denormalized ManyToManyFields leave no trace in the triggers. *)
From Verif Require Import Base BaseLemmas Schema TrigSet Gen Exec Orm Flush.

(** The schema with its denormalized ManyToManyFields turned into ordinary ones. *)
Definition plain_m2m (mm : m2m) : m2m := M2M (mm_name mm) (mm_to mm) (mm_table mm) (mm_col mm) (mm_rev mm) None.
Definition plain_model (m : model) : model :=
  Model (m_name m) (m_app m) (m_table m) (m_pk m) (m_ct m) (m_proxy m) (m_swapped m) (m_fields m)
    (plain_m2m <$> m_m2m m) (m_always_skip m) (m_truthy m) (m_visible m).
Definition plain_schema (S : schema) : schema := Schema (plain_model <$> s_models S) (s_bulk_unsafe S).

Section Erase.
Context (S : schema).

Lemma list_find_fmap {A} (g : A → A) (P Q : A → Prop) `{∀ x, Decision (P x)} `{∀ x, Decision (Q x)} l : (∀ x, P (g x) ↔ Q x) →
  list_find P (g <$> l) = prod_map id g <$> list_find Q l.
Proof.
  intros H1. induction l as [|x l IH]; [done|]. csimpl. destruct (decide (Q x)) as [Hx|Hx].
  - rewrite decide_True by (by apply H1). done.
  - rewrite decide_False by (by rewrite H1). rewrite IH. by destruct (list_find Q l) as [[i y]|].
Qed.
Lemma find_model_plain n : find_model (plain_schema S) n = plain_model <$> find_model S n.
Proof.
  unfold find_model. simpl. rewrite (list_find_fmap plain_model _ (λ m, m_name m = n)) by done.
  by destruct (list_find _ _) as [[i y]|].
Qed.
Lemma cb_dep_plain this other dp : cb_dep_triggers (plain_model this) (plain_model other) dp = cb_dep_triggers this other dp.
Proof. done. Qed.
Lemma deps_plain g this ds : (∀ o dp, g (plain_model this) (plain_model o) dp = g this o dp) →
  deps_triggers (plain_schema S) (plain_model this) g ds = deps_triggers S this g ds.
Proof.
  intros Hg. unfold deps_triggers. generalize (@nil trigger). induction ds as [|dp ds IH]; intros acc; [done|]. simpl.
  unfold with_model. rewrite find_model_plain. destruct (find_model S (dep_other dp)) as [o|]; [|done]. simpl. rewrite Hg. apply IH.
Qed.
Lemma field_plain this f : field_triggers (plain_schema S) (plain_model this) f = field_triggers S this f.
Proof.
  unfold field_triggers. destruct (f_kind f); try done.
  - rewrite deps_plain by done. done.
  - unfold with_model. rewrite find_model_plain. by destruct (find_model S _).
  - by rewrite deps_plain.
Qed.
Lemma alldenorms_plain : alldenorms (plain_schema S) = prod_map plain_model id <$> alldenorms S.
Proof.
  unfold alldenorms. change (s_models (plain_schema S)) with (plain_model <$> s_models S). generalize (s_models S). intros l. induction l as [|m l IH]; [done|]. csimpl. rewrite fmap_app, IH. f_equal.
  destruct (m_proxy m); [done|]. generalize (m_fields m). intros fs. induction fs as [|f fs IHf]; [done|]. csimpl. rewrite fmap_app, IHf. f_equal.
  destruct (is_denorm f); [|done]. rewrite find_model_plain. destruct (find_model S _) as [o|]; [|done]. simpl. by destruct (m_swapped o).
Qed.
Lemma installed_plain b : installed b (plain_schema S) = installed b S.
Proof.
  unfold installed, build_triggerset. rewrite alldenorms_plain. f_equal. generalize (@nil (string * trigger)).
  induction (alldenorms S) as [|[m f] l IH]; intros ts; [done|]. csimpl. rewrite field_plain. destruct (field_triggers S m f); [|done]. simpl. apply IH.
Qed.
End Erase.
