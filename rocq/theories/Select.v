(** * Which denormalizations exist and which rows rebuildall marks. *)
From Verif Require Import Base BaseLemmas Schema TrigSet Gen Exec Orm Flush Spec GenLemmas.

Lemma alldenorms_spec S m f : (m, f) ∈ alldenorms S ↔ declares S m f.
Proof.
  unfold alldenorms, declares. rewrite elem_of_list_bind. split.
  - intros (m' & Hin & Hm'). destruct (m_proxy m') eqn:Hp; [by apply elem_of_nil in Hin|].
    apply elem_of_list_bind in Hin as (f' & Hin & Hf'). destruct (is_denorm f') eqn:Hd; [|by apply elem_of_nil in Hin].
    destruct (find_model S (f_owner f')) as [o|] eqn:Ho; [|by apply elem_of_nil in Hin].
    destruct (m_swapped o) eqn:Hs; [by apply elem_of_nil in Hin|]. apply elem_of_list_singleton in Hin as [= -> ->].
    split; [done|]. split; [done|]. split; [unfold is_denorm in Hd; by destruct (f_kind f')|]. eauto.
  - intros (Ho & Hs & Hk & m' & Hm' & Hp & Hf). exists m'. split; [|done]. rewrite Hp. apply elem_of_list_bind. exists f. split; [|done].
    assert (is_denorm f = true) as -> by (unfold is_denorm; by destruct (f_kind f)). rewrite Ho, Hs. by left.
Qed.
Lemma matches_spec m n : matches_name m n = true ↔ names_model m n.
Proof. unfold matches_name, names_model. destruct n as [n|]; [|done]. rewrite !orb_true_iff, !bool_decide_eq_true. tauto. Qed.

Lemma dedup_models_in seen l m : (∀ x y, x ∈ l → y ∈ l → m_name x = m_name y → x = y) →
  m ∈ dedup_models seen l ↔ m ∈ l ∧ m_name m ∉ seen.
Proof.
  revert seen. induction l as [|x l IH]; intros seen Hu; simpl; [split; [by intros ?%elem_of_nil|by intros [?%elem_of_nil _]]|].
  assert (Hu' : ∀ a b, a ∈ l → b ∈ l → m_name a = m_name b → a = b) by (intros a b Ha Hb; apply Hu; by right).
  case_decide as Hd.
  - rewrite IH by done. rewrite elem_of_cons. split; [naive_solver|]. intros [[->|] ?]; [done|naive_solver].
  - rewrite !elem_of_cons, IH by done. rewrite not_elem_of_cons. split.
    + intros [->|(? & ? & ?)]; [by split; [left|]|tauto].
    + intros [[->|Hm] Hs]; [by left|]. destruct (decide (m_name m = m_name x)) as [He|]; [|tauto]. left. apply Hu; [by right|by left|done].
Qed.
Lemma dedup_models_nodup seen l : NoDup (m_name <$> dedup_models seen l) ∧ ∀ n, n ∈ m_name <$> dedup_models seen l → n ∉ seen.
Proof.
  revert seen. induction l as [|x l IH]; intros seen; simpl; [split; [apply NoDup_nil_2|by intros ??%elem_of_nil]|].
  case_decide as Hd; [apply IH|]. csimpl. destruct (IH (m_name x :: seen)) as [H1 H2]. split.
  - apply NoDup_cons_2; [|done]. intros H. apply H2 in H. apply H. by left.
  - intros n [->|Hn]%elem_of_cons; [done|]. apply H2 in Hn. set_solver.
Qed.
Lemma rebuild_models_spec S mn fn m : m ∈ rebuild_models S mn fn ↔ names_model m mn ∧ ∃ f, declares S m f ∧ names_field f fn.
Proof.
  unfold rebuild_models. rewrite dedup_models_in.
  - rewrite elem_of_list_fmap. split.
    + intros [([m' f] & -> & H) _]. unfold rebuild_denorms in H. apply elem_of_list_filter in H as [[H1 H2] H3]. simpl in *.
      split; [by apply matches_spec|]. exists f. split; [by apply alldenorms_spec|]. unfold names_field. destruct H2 as [->| ->]; done.
    + intros (H1 & f & H2 & H3). split; [|by apply not_elem_of_nil]. exists (m, f). split; [done|]. apply elem_of_list_filter. simpl.
      split; [|by apply alldenorms_spec]. split; [by apply matches_spec|]. unfold names_field in H3. destruct fn as [n|]; [right; by subst|by left].
  - intros x y Hx Hy Hn. apply elem_of_list_fmap in Hx as ([x' f] & -> & Hx). apply elem_of_list_fmap in Hy as ([y' g] & -> & Hy).
    apply elem_of_list_filter in Hx as [_ Hx%alldenorms_spec]. apply elem_of_list_filter in Hy as [_ Hy%alldenorms_spec]. simpl in *.
    destruct Hx as [Hx _]. destruct Hy as [Hy _]. pose proof (find_model_in _ _ _ Hx) as [_ Nx]. pose proof (find_model_in _ _ _ Hy) as [_ Ny].
    congruence.
Qed.
Lemma rebuild_marks_spec S mn fn d mk : mk ∈ rebuild_marks S mn fn d ↔
  ∃ m f k r, declares S m f ∧ names_model m mn ∧ names_field f fn ∧ getrow d (m_table m) k = Some r ∧ m_visible m r = true ∧ mk = marker_of m k.
Proof.
  unfold rebuild_marks. rewrite elem_of_list_bind. split.
  - intros (m & Hin & Hm). apply rebuild_models_spec in Hm as (Hn & f & Hf & Hfn). apply elem_of_list_fmap in Hin as ([k r] & -> & Hin).
    apply elem_of_list_filter in Hin as [Hv Hin%elem_of_map_to_list]. by exists m, f, k, r.
  - intros (m & f & k & r & Hf & Hn & Hfn & Hr & Hv & ->). exists m. split; [|apply rebuild_models_spec; eauto].
    apply elem_of_list_fmap. exists (k, r). split; [done|]. apply elem_of_list_filter. split; [done|]. by apply elem_of_map_to_list.
Qed.
Lemma NoDup_bind {A B} (g : A → list B) (l : list A) : (∀ x, x ∈ l → NoDup (g x)) → NoDup l →
  (∀ x y z, x ∈ l → y ∈ l → z ∈ g x → z ∈ g y → x = y) → NoDup (l ≫= g).
Proof.
  induction l as [|x l IH]; intros H1 H2 H3; csimpl; [apply NoDup_nil_2|]. apply NoDup_cons in H2 as [Hx Hl]. apply NoDup_app. split; [apply H1; left|].
  split.
  - intros z Hz Hz2. apply elem_of_list_bind in Hz2 as (y & Hz2 & Hy). assert (x = y) as <-; [|done]. apply (H3 x y z); [left|by right|done|done].
  - apply IH; [intros; apply H1; by right|done|]. intros a b c Ha Hb. apply H3; by right.
Qed.
Lemma rebuild_marks_nodup S mn fn d : NoDup (m_ct <$> s_models S) → NoDup (rebuild_marks S mn fn d).
Proof.
  intros Hct. unfold rebuild_marks. assert (Hnd : NoDup (rebuild_models S mn fn)).
  { eapply NoDup_fmap_1. unfold rebuild_models. apply (proj1 (dedup_models_nodup [] _)). }
  apply NoDup_bind; [|done|].
  - intros m Hm. apply NoDup_fmap_2_strong.
    + intros [k r] [k' r'] Hx Hy [= He%pretty_Z_inj']. subst. apply elem_of_list_filter in Hx as [_ Hx%elem_of_map_to_list].
      apply elem_of_list_filter in Hy as [_ Hy%elem_of_map_to_list]. congruence.
    + apply NoDup_filter, NoDup_map_to_list.
  - intros x y z Hx Hy Hzx Hzy. apply rebuild_models_spec in Hx as (_ & f & (Hx & _) & _). apply rebuild_models_spec in Hy as (_ & g & (Hy & _) & _).
    apply elem_of_list_fmap in Hzx as (p & -> & _). apply elem_of_list_fmap in Hzy as (q & [= He _] & _).
    apply find_model_in in Hx as [Hx _]. apply find_model_in in Hy as [Hy _]. by eapply (NoDup_fmap_eq m_ct).
Qed.

(** A model that contributes nothing, added anywhere in the list of models. *)
Lemma find_model_skip l1 p l2 u n : n ≠ m_name p → find_model (Schema (l1 ++ p :: l2) u) n = find_model (Schema (l1 ++ l2) u) n.
Proof.
  intros Hn. unfold find_model. simpl. induction l1 as [|x l1 IH]; simpl.
  - rewrite decide_False by done. destruct (list_find _ l2) as [[]|] eqn:H; done.
  - case_decide; [done|]. destruct (list_find _ (l1 ++ p :: l2)) as [[]|], (list_find _ (l1 ++ l2)) as [[]|]; simpl in *; done.
Qed.
Definition denorms_of (S : schema) (m : model) : list (model * field) :=
  if m_proxy m then [] else f ← m_fields m;
    if is_denorm f then match find_model S (f_owner f) with Some o => if m_swapped o then [] else [(o, f)] | None => [] end else [].
Lemma alldenorms_of S : alldenorms S = s_models S ≫= denorms_of S.
Proof. done. Qed.
Lemma alldenorms_skip l1 p l2 u : (∀ m f, m ∈ l1 ++ l2 → f ∈ m_fields m → f_owner f ≠ m_name p) →
  m_proxy p = true ∨ (m_swapped p = true ∧ ∀ m, m ∈ l1 → m_name m ≠ m_name p) ∧ (∀ f, f ∈ m_fields p → f_owner f = m_name p) →
  alldenorms (Schema (l1 ++ p :: l2) u) = alldenorms (Schema (l1 ++ l2) u).
Proof.
  intros Ho Hp. set (S1 := Schema (l1 ++ p :: l2) u). set (S2 := Schema (l1 ++ l2) u).
  assert (HG : ∀ m, m ∈ l1 ++ l2 → denorms_of S1 m = denorms_of S2 m).
  { intros m Hm. unfold denorms_of. destruct (m_proxy m); [done|]. assert (Hf : ∀ f, f ∈ m_fields m → f_owner f ≠ m_name p) by (intros; by eapply Ho).
    clear -Hf. induction (m_fields m) as [|f fs IH]; [done|]. csimpl. rewrite IH by (intros; apply Hf; by right). f_equal.
    destruct (is_denorm f); [|done]. unfold S1, S2. rewrite find_model_skip; [done|]. apply Hf. by left. }
  assert (Hb : ∀ l, (∀ m, m ∈ l → denorms_of S1 m = denorms_of S2 m) → l ≫= denorms_of S1 = l ≫= denorms_of S2).
  { clear. induction l as [|x l IH]; intros H; [done|]. csimpl. rewrite (H x) by left. f_equal. apply IH. intros; apply H; by right. }
  rewrite !alldenorms_of. change (s_models S1) with (l1 ++ p :: l2). change (s_models S2) with (l1 ++ l2).
  rewrite !bind_app. change ((p :: l2) ≫= denorms_of S1) with (denorms_of S1 p ++ (l2 ≫= denorms_of S1)).
  rewrite (Hb l1), (Hb l2) by (intros; apply HG, elem_of_app; tauto). f_equal.
  assert (Hn : denorms_of S1 p = []); [|by rewrite Hn]. unfold denorms_of. destruct (m_proxy p); [done|]. destruct Hp as [?|[[Hs Hd] Hown]]; [done|].
  assert (Hfm : find_model S1 (m_name p) = Some p).
  { unfold S1, find_model. simpl. clear -Hd. induction l1 as [|x l1 IH]; simpl; [by rewrite decide_True|].
    rewrite decide_False by (eapply Hd; left).
    assert (IH' := IH (λ m H, Hd m (elem_of_list_further _ _ _ H))). destruct (list_find _ (l1 ++ p :: l2)) as [[]|]; done. }
  clear -Hown Hfm Hs. induction (m_fields p) as [|f fs IH]; [done|]. csimpl. rewrite IH by (intros; apply Hown; by right).
  destruct (is_denorm f); [|done]. rewrite Hown by left. by rewrite Hfm, Hs.
Qed.
