(** * Aggregate columns: what the triggers add up to. *)
From Verif Require Import Base BaseLemmas Schema TrigSet Gen Exec Orm Spec SpecAgg Engine GenLemmas Marking Invariant.

(** ** Sums *)
Definition zsum {A} (f : A → Z) (l : list A) : Z := foldr (λ x s, f x + s) 0 l.
Lemma zsum_app {A} (f : A → Z) l1 l2 : zsum f (l1 ++ l2) = zsum f l1 + zsum f l2.
Proof. induction l1; simpl; [done|]. rewrite IHl1. lia. Qed.
Lemma zsum_zero {A} (f : A → Z) l : (∀ x, x ∈ l → f x = 0) → zsum f l = 0.
Proof. induction l as [|x l IH]; intros H; simpl; [done|]. rewrite H, IH; [done| |left]. intros. apply H. by right. Qed.
Lemma zsum_ext {A} (f g : A → Z) l : (∀ x, x ∈ l → f x = g x) → zsum f l = zsum g l.
Proof. induction l as [|x l IH]; intros H; simpl; [done|]. rewrite H, IH; [done| |left]. intros. apply H. by right. Qed.
Lemma zsum_single {A B} (key : A → B) (f : A → Z) l x0 : NoDup (key <$> l) → x0 ∈ l →
  (∀ x, x ∈ l → key x ≠ key x0 → f x = 0) → zsum f l = f x0.
Proof.
  induction l as [|x l IH]; intros Hnd Hin H0; [by apply elem_of_nil in Hin|]. csimpl in Hnd. apply NoDup_cons in Hnd as [Hn Hnd].
  simpl. apply elem_of_cons in Hin as [->|Hin].
  - rewrite zsum_zero; [lia|]. intros y Hy. apply H0; [by right|]. intros Heq. apply Hn. apply elem_of_list_fmap. exists y. done.
  - rewrite H0, IH; [done|done|done| |left|].
    + intros y Hy. apply H0. by right.
    + intros Heq. apply Hn. apply elem_of_list_fmap. exists x0. done.
Qed.
(** The sum of a map. *)
Definition msum (M : gmap Z Z) : Z := map_fold (λ _ z s, z + s) 0 M.
Lemma msum_empty : msum ∅ = 0. Proof. done. Qed.
Lemma msum_insert_new M i z : M !! i = None → msum (<[i := z]> M) = z + msum M.
Proof. intros H. unfold msum. rewrite map_fold_insert_L; [done| |done]. intros. lia. Qed.
Lemma msum_delete M i : msum (delete i M) = msum M - default 0 (M !! i).
Proof.
  destruct (M !! i) as [z|] eqn:H; simpl.
  - rewrite <- (insert_delete M i z) at 2 by done. rewrite msum_insert_new by apply lookup_delete. lia.
  - rewrite delete_notin by done. lia.
Qed.
Lemma msum_insert M i z : msum (<[i := z]> M) = msum M - default 0 (M !! i) + z.
Proof. rewrite <- insert_delete_insert, msum_insert_new by apply lookup_delete. rewrite msum_delete. lia. Qed.
Lemma msum_nonneg M : (∀ i z, M !! i = Some z → 0 ≤ z) → 0 ≤ msum M.
Proof.
  induction M as [|i z M Hi IH] using map_ind; intros H; [done|]. rewrite msum_insert_new by done.
  assert (0 ≤ z) by (apply (H i); by rewrite lookup_insert).
  assert (0 ≤ msum M); [|lia]. apply IH. intros j y Hj. apply (H j). rewrite lookup_insert_ne; [done|]. intros ->. by rewrite Hi in Hj.
Qed.
Lemma msum_zero M : (∀ i z, M !! i = Some z → z = 0) → msum M = 0.
Proof.
  induction M as [|i z M Hi IH] using map_ind; intros H; [done|]. rewrite msum_insert_new by done.
  rewrite (H i z) by (by rewrite lookup_insert). rewrite IH; [done|]. intros j y Hj. apply (H j). rewrite lookup_insert_ne; [done|]. intros ->. by rewrite Hi in Hj.
Qed.
Lemma msum_filter (P : row → Prop) `{!∀ r, Decision (P r)} (w : row → Z) (M : gmap Z row) :
  map_fold (λ _ r s, w r + s) 0 (filter (λ p : Z * row, P p.2) M) = msum ((λ r, if decide (P r) then w r else 0) <$> M).
Proof.
  induction M as [|i r M Hi IH] using map_ind; [by rewrite fmap_empty, map_filter_empty|].
  rewrite fmap_insert, msum_insert_new by (by rewrite lookup_fmap, Hi). rewrite <- IH.
  destruct (decide (P r)).
  - rewrite map_filter_insert_True by done. rewrite map_fold_insert_L; [done|intros; lia|].
    apply map_filter_lookup_None. by left.
  - rewrite map_filter_insert_False, delete_notin by done. done.
Qed.
Lemma size_fold (M : gmap Z row) : Z.of_nat (size M) = map_fold (λ _ _ s, 1 + s) 0 M.
Proof.
  induction M as [|i r M Hi IH] using map_ind; [done|]. rewrite map_size_insert_None by done.
  rewrite map_fold_insert_L; [lia|intros; lia|done].
Qed.

(** ** Contributions *)
Section contrib.
Context (a : agg).
Definition weight (r : row) : Z := match ag_sum a with None => 1 | Some c => summand (col r c) end.
Definition contrib (k : Z) (r : row) : Z := if decide (col r (ag_fk a) = VInt k ∧ selected a r) then weight r else 0.
Definition oc (o : option row) (k : Z) : Z := match o with Some r => contrib k r | None => 0 end.
Definition recount (t : string) (d : db) (k : Z) : Z := msum (contrib k <$> tab d t).
Lemma agg_value_recount d rel k : agg_value d rel a k = recount (m_table rel) d k.
Proof.
  unfold agg_value, related, recount, contrib, weight. destruct (ag_sum a) as [c|].
  - exact (msum_filter (λ r, col r (ag_fk a) = VInt k ∧ selected a r) (λ r, summand (col r c)) _).
  - rewrite size_fold. exact (msum_filter (λ r, col r (ag_fk a) = VInt k ∧ selected a r) (λ r, 1) _).
Qed.
Lemma recount_put t d j r t' k :
  recount t (put_row d t' j r) k = recount t d k + if decide (t' = t) then contrib k r - oc (getrow d t j) k else 0.
Proof.
  unfold recount. rewrite tab_put. destruct (decide (t' = t)) as [->|Hn].
  - rewrite decide_True by done. rewrite fmap_insert, msum_insert, lookup_fmap. unfold oc, getrow. destruct (tab d t !! j); simpl; lia.
  - rewrite decide_False by done. lia.
Qed.
Lemma recount_del t d j t' k :
  recount t (del_row d t' j) k = recount t d k - if decide (t' = t) then oc (getrow d t j) k else 0.
Proof.
  unfold recount. rewrite tab_del. destruct (decide (t' = t)) as [->|Hn].
  - rewrite decide_True by done. rewrite fmap_delete, msum_delete, lookup_fmap. unfold oc, getrow. destruct (tab d t !! j); simpl; lia.
  - rewrite decide_False by done. lia.
Qed.
Lemma recount_tabs t d d' k : d_tabs d' = d_tabs d → recount t d' k = recount t d k.
Proof. intros H. unfold recount, tab. by rewrite H. Qed.
Lemma recount_ext t d d' k : (∀ j, contrib k <$> getrow d' t j = contrib k <$> getrow d t j) → recount t d' k = recount t d k.
Proof. intros H. unfold recount. f_equal. apply map_eq. intros j. rewrite !lookup_fmap. apply H. Qed.
Lemma contrib_cols k r r' : (∀ c, c ∈ agg_cols a → col r' c = col r c) → contrib k r' = contrib k r.
Proof.
  intros H. unfold contrib, weight.
  assert (Hfk : col r' (ag_fk a) = col r (ag_fk a)) by (apply H; left).
  assert (Hs : selected a r' ↔ selected a r).
  { unfold selected.
    assert (Hf : ∀ l, (∀ x, x ∈ l → col r' (c_col x) = col r (c_col x)) →
      Forall (λ c, lookup_true c (col r' (c_col c))) l ↔ Forall (λ c, lookup_true c (col r (c_col c))) l).
    { intros l Hl. rewrite !Forall_forall. split; intros Ha x Hx; [rewrite <- Hl by done|rewrite Hl by done]; by apply Ha. }
    rewrite !Hf; [done|..]; intros x Hx; apply H; right; rewrite !elem_of_app; [right; left|left]; apply elem_of_list_fmap; by exists x. }
  assert (Hw : match ag_sum a with None => 1 | Some c => summand (col r' c) end = match ag_sum a with None => 1 | Some c => summand (col r c) end).
  { destruct (ag_sum a) eqn:Hsum; [|done]. rewrite H; [done|]. right. rewrite !elem_of_app. right. right. rewrite Hsum. left. }
  rewrite Hw, Hfk. destruct (decide (col r (ag_fk a) = VInt k ∧ selected a r')), (decide (col r (ag_fk a) = VInt k ∧ selected a r)); naive_solver.
Qed.
End contrib.

Lemma lookup_true_spec c v : cond1_holds c v = true ↔ lookup_true c v.
Proof.
  unfold cond1_holds, lookup_true. destruct (c_op c), v, (c_val c); simpl; try done;
    rewrite ?negb_true_iff, ?bool_decide_eq_true, ?bool_decide_eq_false; try (split; congruence); try naive_solver.
  all: match goal with |- ?q = 0 ↔ _ => destruct (decide (q = 0)); split; try done; naive_solver end.
Qed.
Lemma passes_spec a (get : string → val) r : (∀ c, c ∈ agg_cols a → get c = col r c) →
  passes (ag_filter a) (ag_exclude a) get = true ↔ selected a r.
Proof.
  intros H. unfold passes, selected. rewrite andb_true_iff, orb_true_iff, negb_true_iff, bool_decide_eq_true.
  assert (Hf : ∀ l, (∀ x, x ∈ l → get (c_col x) = col r (c_col x)) →
    forallb (λ c, cond1_holds c (get (c_col c))) l = true ↔ Forall (λ c, lookup_true c (col r (c_col c))) l).
  { intros l Hl. rewrite forallb_forall, Forall_forall. setoid_rewrite <- elem_of_list_In. setoid_rewrite lookup_true_spec.
    split; intros Ha x Hx; [rewrite <- Hl by done|rewrite Hl by done]; by apply Ha. }
  rewrite Hf by (intros x Hx; apply H; right; rewrite !elem_of_app; left; apply elem_of_list_fmap; by exists x).
  rewrite <- not_true_iff_false. rewrite Hf by (intros x Hx; apply H; right; rewrite !elem_of_app; right; left; apply elem_of_list_fmap; by exists x).
  done.
Qed.
