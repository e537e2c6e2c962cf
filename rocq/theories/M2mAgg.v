(** * Aggregates over a ManyToManyField (denorms.py:323-369, 384-392, 440-441, 479-503, 529-533).

    Since Django 1.9 [build_triggerset] raises for them (P_Meta.v, C65).  This file is about
    Django 1.8, the oldest version of tox.ini:2, where the manager of the far side is a
    ManyRelatedObjectsDescriptor with an attribute [related].  There [related.related_model] is the
    model that declares the field, and [related.model] is the model with the manager, the aggregate's own
    one ([QOwn]).  Up to Django 1.7 [related.model] was the declaring model ([QRel]), which is what
    [get_related_where] was written for; both are modelled.

    Example: Post.tags = ManyToManyField(Tag), Tag.posts = CountField('post_set') or
    SumField('post_set', field='score').

    Simplifications: the three tables have the columns that matter, everything else is left out; a
    statement changes one row; foreign keys are checked at once; the through table is the one that Django makes,
    unique in both keys; the primary keys of both models have the same name. *)
From Verif Require Import Base BaseLemmas Schema.

Inductive qmodel := QOwn | QRel.
#[global] Instance qmodel_eq_dec : EqDecision qmodel.
Proof. solve_decision. Defined.
Inductive akind := KCnt | KSm.

(** ** Installing (AggregateDenorm.get_triggers, denorms.py:371-442) *)
Inductive m2m_raise := FieldErr | AttrErr | ValErr.
(** [fwd]: the manager of the declaring side (ReverseManyRelatedObjectsDescriptor: has [field], no
    [related]); [alias]: a database alias was given; [fs]: names in filter and exclude; [fld]: the
    name of the aggregate; [own], [rel]: field names of the aggregate's and of the counted model.
    406-407: filters over [related_model]; 327: [related.model]; 328-331: filters over it; 338:
    get_compiler(using=None) raises ValueError; 486, 499 (sums): [add_fields([self.fieldname])]. *)
Definition m2m_install (q : qmodel) (kd : akind) (fwd alias : bool) (fs : list string) (fld : string) (own rel : list string) : option m2m_raise :=
  let qcols := match q with QOwn => own | QRel => rel end in
  if negb (forallb (λ f, bool_decide (f ∈ if fwd then own else rel)) fs) then Some FieldErr
  else if fwd then Some AttrErr
  else if negb (forallb (λ f, bool_decide (f ∈ qcols)) fs) then Some FieldErr
  else if negb alias then Some ValErr
  else match kd with
       | KCnt => None
       | KSm => if decide (fld ∈ qcols) then None else Some FieldErr
       end.

(** ** Running *)
(** Tags with their aggregate, posts with the value that is summed or filtered by, links (post, tag). *)
Record mst := Mst { tags : gmap Z Z; posts : gmap Z Z; lnk : gmap Z (Z * Z) }.
Definition set_tags (s : mst) (m : gmap Z Z) : mst := Mst m (posts s) (lnk s).
Definition set_posts (s : mst) (m : gmap Z Z) : mst := Mst (tags s) m (lnk s).
Definition set_lnk (s : mst) (m : gmap Z (Z * Z)) : mst := Mst (tags s) (posts s) m.

(** PositiveIntegerField: CHECK (col >= 0). *)
Definition positive (z : Z) : res Z := if decide (z < 0) then Err ECheck else Ok z.

Definition linked (s : mst) (p k : Z) : bool := existsb (λ x : Z * (Z * Z), bool_decide (x.2 = (p, k))) (map_to_list (lnk s)).

(** The triggers of the counted table (denorms.py:386-392, 417-439): UPDATE tag SET posts = posts +- 1
    WHERE id IN (SELECT tag_id FROM post_tags WHERE post_id = NEW.id) AND filter; [v] is the value of
    the post in NEW or OLD; sums add [v] (469-477). *)
Definition post_delta (kd : akind) (v : Z) : Z := match kd with KCnt => 1 | KSm => v end.
Definition post_act (kd : akind) (flt : Z → bool) (sgn p v : Z) (s : mst) : res mst :=
  if flt v then
    let new k c := if linked s p k then c + sgn * post_delta kd v else c in
    if forallb (λ x : Z * Z, bool_decide (0 ≤ new x.1 x.2)) (map_to_list (tags s))
    then Ok (set_tags s (map_imap (λ k c, Some (new k c)) (tags s)))
    else Err ECheck
  else Ok s.

(** The condition of the triggers on the through table (denorms.py:323-342): (SELECT COUNT( * ) FROM
    related.model WHERE id = NEW.post_id AND filter) > 0. *)
Definition link_cond (q : qmodel) (flt : Z → bool) (s : mst) (p : Z) : bool :=
  match q with
  | QOwn => bool_decide (is_Some (tags s !! p))
  | QRel => match posts s !! p with Some v => flt v | None => false end
  end.
(** Their value: 1 (529-533), or the aggregate of the row of related.model with the key of the post
    (479-503; only [QOwn] has such a column). *)
Definition link_delta (kd : akind) (s : mst) (p : Z) : Z := match kd with KCnt => 1 | KSm => default 0 (tags s !! p) end.
(** UPDATE tag SET posts = posts +- ... WHERE id = NEW.tag_id AND (SELECT COUNT( * ) ...) > 0.
    MySQL refuses to select from the table that is updated (error 1093). *)
Definition link_act (b : backend) (q : qmodel) (kd : akind) (flt : Z → bool) (sgn p t : Z) (s : mst) : res mst :=
  if decide (b = MySQL ∧ q = QOwn) then Err ETableInUse else
  if link_cond q flt s p then
    match tags s !! t with
    | Some c => let* c' := positive (c + sgn * link_delta kd s p) in Ok (set_tags s (<[t := c']> (tags s)))
    | None => Ok s
    end
  else Ok s.

Inductive mop :=
  | TagIns (t : Z) | TagDel (t : Z)
  | PostIns (p v : Z) | PostUpd (p v : Z) | PostDel (p : Z)
  | LinkIns (l p t : Z) | LinkUpd (l p t : Z) | LinkDel (l : Z).

Definition no_link (s : mst) (f : Z * Z → Z) (k : Z) : bool := forallb (λ x : Z * (Z * Z), negb (bool_decide (f x.2 = k))) (map_to_list (lnk s)).
Definition link_ok (s : mst) (p t : Z) : bool :=
  bool_decide (is_Some (posts s !! p)) && bool_decide (is_Some (tags s !! t)) && negb (linked s p t).
(** One statement with the triggers of denorms.py:435-441 and 362-368: update triggers increment with
    NEW, then decrement with OLD, if a column has changed. *)
Definition mrun (b : backend) (q : qmodel) (kd : akind) (flt : Z → bool) (o : mop) (s : mst) : res mst :=
  match o with
  | TagIns t => match tags s !! t with Some _ => Err EIntegrity | None => Ok (set_tags s (<[t := 0]> (tags s))) end
  | TagDel t => if no_link s snd t then Ok (set_tags s (delete t (tags s))) else Err EIntegrity
  | PostIns p v =>
      match posts s !! p with
      | Some _ => Err EIntegrity
      | None => post_act kd flt 1 p v (set_posts s (<[p := v]> (posts s)))
      end
  | PostUpd p v =>
      match posts s !! p with
      | None => Ok s
      | Some o => if decide (o = v) then Ok s else
          let* s1 := post_act kd flt 1 p v (set_posts s (<[p := v]> (posts s))) in post_act kd flt (-1) p o s1
      end
  | PostDel p =>
      match posts s !! p with
      | None => Ok s
      | Some o => if no_link s fst p then post_act kd flt (-1) p o (set_posts s (delete p (posts s))) else Err EIntegrity
      end
  | LinkIns l p t =>
      match lnk s !! l with
      | Some _ => Err EIntegrity
      | None => if link_ok s p t then link_act b q kd flt 1 p t (set_lnk s (<[l := (p, t)]> (lnk s))) else Err EIntegrity
      end
  | LinkUpd l p t =>
      match lnk s !! l with
      | None => Ok s
      | Some (p0, t0) => if decide ((p0, t0) = (p, t)) then Ok s else
          if link_ok s p t then
            let* s1 := link_act b q kd flt 1 p t (set_lnk s (<[l := (p, t)]> (lnk s))) in link_act b q kd flt (-1) p0 t0 s1
          else Err EIntegrity
      end
  | LinkDel l =>
      match lnk s !! l with
      | None => Ok s
      | Some (p0, t0) => link_act b q kd flt (-1) p0 t0 (set_lnk s (delete l (lnk s)))
      end
  end.
(** A statement that raises is undone. *)
Definition mstep (b : backend) (q : qmodel) (kd : akind) (flt : Z → bool) (s : mst) (o : mop) : mst :=
  match mrun b q kd flt o s with Ok s' => s' | Err _ => s end.
Definition mst0 : mst := Mst ∅ ∅ ∅.

(** ** What the aggregates should be *)
(** The number of links of tag [k] whose post satisfies [P]. *)
Definition number (s : mst) (k : Z) (P : Z → bool) : Z :=
  Z.of_nat (size (filter (λ x : Z * (Z * Z), x.2.2 = k ∧ P x.2.1 = true) (lnk s))).
(** The post is there and passes the filter. *)
Definition counts (flt : Z → bool) (s : mst) (p : Z) : bool := match posts s !! p with Some v => flt v | None => false end.
(** There is a tag with the key of the post. *)
Definition tag_too (s : mst) (p : Z) : bool := bool_decide (is_Some (tags s !! p)).

(** ** Counts *)
Definition keys_apart (s : mst) : Prop := ∀ i j x, lnk s !! i = Some x → lnk s !! j = Some x → i = j.
Definition linksok (s : mst) : Prop := ∀ l p t, lnk s !! l = Some (p, t) → is_Some (posts s !! p) ∧ is_Some (tags s !! t).

Lemma linked_spec s p k : linked s p k = true ↔ ∃ l, lnk s !! l = Some (p, k).
Proof.
  unfold linked. rewrite existsb_exists. split.
  - intros ([l x] & Hin & Hx). apply bool_decide_eq_true_1 in Hx. cbn [snd] in Hx. subst x. exists l. apply elem_of_map_to_list. by apply elem_of_list_In.
  - intros [l Hl]. exists (l, (p, k)). split; [|by apply bool_decide_eq_true_2]. apply elem_of_list_In. by apply elem_of_map_to_list.
Qed.
Lemma no_link_spec s f k : no_link s f k = true ↔ ∀ l x, lnk s !! l = Some x → f x ≠ k.
Proof.
  unfold no_link. rewrite forallb_forall. split.
  - intros H l x Hl. specialize (H (l, x)). rewrite <- elem_of_list_In, elem_of_map_to_list in H. apply H in Hl. apply negb_true_iff in Hl. by apply bool_decide_eq_false_1 in Hl.
  - intros H [l x] Hin. apply elem_of_list_In, elem_of_map_to_list in Hin. apply negb_true_iff, bool_decide_eq_false_2. by apply (H l).
Qed.

Lemma number_insert s l p t k P : lnk s !! l = None →
  number (set_lnk s (<[l := (p, t)]> (lnk s))) k P = number s k P + (if decide (t = k ∧ P p = true) then 1 else 0).
Proof.
  intros Hl. unfold number. cbn [lnk set_lnk]. destruct (decide _) as [Hd|Hd].
  - rewrite map_filter_insert_True by done. rewrite map_size_insert_None; [lia|]. rewrite map_filter_lookup_None. by left.
  - rewrite map_filter_insert_False by done. rewrite delete_notin by done. lia.
Qed.
Lemma number_delete s l p t k P : lnk s !! l = Some (p, t) →
  number (set_lnk s (delete l (lnk s))) k P = number s k P - (if decide (t = k ∧ P p = true) then 1 else 0).
Proof.
  intros Hl. pose proof (number_insert (set_lnk s (delete l (lnk s))) l p t k P) as H. cbn [lnk set_lnk] in H.
  rewrite lookup_delete in H. specialize (H eq_refl). rewrite insert_delete in H by done.
  replace (number (set_lnk (set_lnk s (delete l (lnk s))) (lnk s)) k P) with (number s k P) in H by done. lia.
Qed.
Lemma number_ext s s' k P Q : lnk s = lnk s' → (∀ l p t, lnk s !! l = Some (p, t) → t = k → P p = Q p) → number s k P = number s' k Q.
Proof.
  intros Hs H. unfold number. rewrite <- Hs. do 2 f_equal. apply map_filter_strong_ext. intros i [p t]. cbn [fst snd]. split; intros [[Ht Hp] Hi]; (split; [|done]); (split; [done|]).
  - by rewrite <- (H i p t).
  - by rewrite (H i p t).
Qed.
Lemma number_one s k p : keys_apart s → number s k (λ x, bool_decide (x = p)) = if linked s p k then 1 else 0.
Proof.
  intros Hk. unfold number. destruct (linked s p k) eqn:Hl.
  - apply linked_spec in Hl as [l Hl].
    replace (filter _ (lnk s)) with ({[ l := (p, k) ]} : gmap Z (Z * Z)); [by rewrite map_size_singleton|].
    apply map_eq. intros i. destruct (decide (i = l)) as [->|Hi].
    + rewrite lookup_singleton. symmetry. apply map_filter_lookup_Some. split; [done|]. cbn [fst snd]. split; [done|]. by apply bool_decide_eq_true_2.
    + rewrite lookup_singleton_ne by done. symmetry. apply map_filter_lookup_None. right. intros [p' t'] Hx [Ht Hp]. cbn [fst snd] in *. apply bool_decide_eq_true_1 in Hp. subst. apply Hi. by apply (Hk i l (p, k)).
  - replace (filter _ (lnk s)) with (∅ : gmap Z (Z * Z)); [by rewrite map_size_empty|].
    apply map_eq. intros i. rewrite lookup_empty. symmetry. apply map_filter_lookup_None. right. intros [p' t'] Hx [Ht Hp]. cbn [fst snd] in *. apply bool_decide_eq_true_1 in Hp. subst.
    assert (linked s p k = true) by (apply linked_spec; by exists i). congruence.
Qed.
Lemma number_split s k p P : number s k P = number s k (λ x, P x && negb (bool_decide (x = p))) + (if P p then number s k (λ x, bool_decide (x = p)) else 0).
Proof.
  unfold number. generalize (lnk s) as m. intros m. induction m as [|i [p' t'] m Hi IH] using map_ind.
  - rewrite !map_filter_empty, !map_size_empty. by destruct (P p).
  - assert (H : ∀ Q : Z → bool, Z.of_nat (size (filter (λ x : Z * (Z * Z), x.2.2 = k ∧ Q x.2.1 = true) (<[i:=(p', t')]> m))) =
      Z.of_nat (size (filter (λ x : Z * (Z * Z), x.2.2 = k ∧ Q x.2.1 = true) m)) + (if decide (t' = k ∧ Q p' = true) then 1 else 0)).
    { intros Q. exact (number_insert (Mst ∅ ∅ m) i p' t' k Q Hi). }
    pose proof (H (λ x, P x && negb (bool_decide (x = p)))) as H1. pose proof (H (λ x, bool_decide (x = p))) as H2. cbv beta in H1, H2.
    rewrite H, H1, H2, IH. clear H H1 H2 IH. destruct (decide (p' = p)) as [->|Hp].
    + rewrite !bool_decide_eq_true_2 by done. rewrite andb_false_r. destruct (P p); repeat case_decide; naive_solver lia.
    + rewrite !bool_decide_eq_false_2 by done. rewrite andb_true_r. destruct (P p), (P p'); repeat case_decide; naive_solver lia.
Qed.

Lemma post_act_ok kd flt sgn p v s s' : post_act kd flt sgn p v s = Ok s' →
  posts s' = posts s ∧ lnk s' = lnk s ∧
  ∀ k, tags s' !! k = (λ c, if linked s p k && flt v then c + sgn * post_delta kd v else c) <$> tags s !! k.
Proof.
  unfold post_act. destruct (flt v).
  - destruct (forallb _ _); [|done]. intros [= <-]. split; [done|]. split; [done|]. intros k. cbn [tags set_tags]. rewrite map_lookup_imap. destruct (tags s !! k); [|done]. cbn. by rewrite andb_true_r.
  - intros [= <-]. split; [done|]. split; [done|]. intros k. destruct (tags s !! k); [|done]. cbn. by rewrite andb_false_r.
Qed.
Lemma post_act_err kd flt sgn p v s e : post_act kd flt sgn p v s = Err e →
  e = ECheck ∧ flt v = true ∧ ∃ k c, tags s !! k = Some c ∧ (if linked s p k then c + sgn * post_delta kd v else c) < 0.
Proof.
  unfold post_act. destruct (flt v); [|done]. destruct (forallb _ _) eqn:H; [done|]. intros [= <-]. split; [done|]. split; [done|].
  assert (Hx : ¬ (∀ x : Z * Z, In x (map_to_list (tags s)) → bool_decide (0 ≤ if linked s p x.1 then x.2 + sgn * post_delta kd v else x.2) = true)).
  { rewrite <- (forallb_forall (λ x : Z * Z, bool_decide (0 ≤ if linked s p x.1 then x.2 + sgn * post_delta kd v else x.2))). by rewrite H. }
  clear H. assert (Hd : Exists (λ x : Z * Z, (if linked s p x.1 then x.2 + sgn * post_delta kd v else x.2) < 0) (map_to_list (tags s))).
  { match goal with |- ?G => destruct (decide G) as [?|Hn]; [done|] end. exfalso. apply Hx. intros x Hin. apply bool_decide_eq_true_2. apply elem_of_list_In in Hin.
    destruct (Z.lt_ge_cases (if linked s p x.1 then x.2 + sgn * post_delta kd v else x.2) 0); [|lia]. exfalso. apply Hn. apply Exists_exists. by exists x. }
  apply Exists_exists in Hd as ([k c] & Hin & Hlt). exists k, c. split; [by apply elem_of_map_to_list|done].
Qed.
Lemma link_act_ok b q kd flt sgn p t s s' : link_act b q kd flt sgn p t s = Ok s' →
  posts s' = posts s ∧ lnk s' = lnk s ∧
  ∀ k, tags s' !! k = (λ c, if decide (t = k ∧ link_cond q flt s p = true) then c + sgn * link_delta kd s p else c) <$> tags s !! k.
Proof.
  unfold link_act. case_decide; [done|]. destruct (link_cond q flt s p).
  - destruct (tags s !! t) as [c|] eqn:Ht.
    + unfold positive. case_decide; [done|]. cbn [rbind]. intros [= <-]. split; [done|]. split; [done|]. intros k. cbn [tags set_tags]. destruct (decide (t = k)) as [<-|Hk].
      * rewrite lookup_insert, Ht. cbn. by rewrite decide_True.
      * rewrite lookup_insert_ne by done. destruct (tags s !! k); [|done]. cbn. rewrite decide_False; [done|]. naive_solver.
    + intros [= <-]. split; [done|]. split; [done|]. intros k. destruct (tags s !! k) eqn:Hk; [|done]. cbn. rewrite decide_False; [done|]. intros [-> _]. congruence.
  - intros [= <-]. split; [done|]. split; [done|]. intros k. destruct (tags s !! k); [|done]. cbn. rewrite decide_False; [done|]. naive_solver.
Qed.
Lemma link_act_err b q kd flt sgn p t s e : link_act b q kd flt sgn p t s = Err e →
  (b = MySQL ∧ q = QOwn ∧ e = ETableInUse) ∨ (e = ECheck ∧ link_cond q flt s p = true ∧ ∃ c, tags s !! t = Some c ∧ c + sgn * link_delta kd s p < 0).
Proof.
  unfold link_act. case_decide as Hm; [destruct Hm as [-> ->]; intros [= <-]; by left|]. destruct (link_cond q flt s p); [|done]. destruct (tags s !! t) as [c|]; [|done].
  unfold positive. case_decide; cbn [rbind]; [|done]. intros [= <-]. right. split; [done|]. split; [done|]. by exists c.
Qed.

(** The posts whose links are counted. *)
Definition counted (q : qmodel) (flt : Z → bool) (s : mst) : Z → bool := match q with QOwn => tag_too s | QRel => counts flt s end.
Definition cinv (q : qmodel) (flt : Z → bool) (s : mst) : Prop :=
  linksok s ∧ keys_apart s ∧ ∀ k c, tags s !! k = Some c → c = number s k (counted q flt s).
(** No tag is made or deleted that has the key of a linked post. *)
Definition calm (o : mop) (s : mst) : Prop :=
  match o with TagIns t | TagDel t => ∀ l p k, lnk s !! l = Some (p, k) → p ≠ t | _ => True end.

Lemma number_nonneg s k P : 0 ≤ number s k P.
Proof. unfold number. lia. Qed.
Lemma number_zero s k P : (∀ l p, lnk s !! l = Some (p, k) → P p = false) → number s k P = 0.
Proof.
  intros H. unfold number. replace (filter _ (lnk s)) with (∅ : gmap Z (Z * Z)); [by rewrite map_size_empty|].
  apply map_eq. intros i. rewrite lookup_empty. symmetry. apply map_filter_lookup_None. right. intros [p t] Hi [Ht Hp]. cbn [fst snd] in *. subst. rewrite (H i p Hi) in Hp. done.
Qed.
Lemma tag_too_same s s' : (∀ k, is_Some (tags s' !! k) ↔ is_Some (tags s !! k)) → ∀ p, tag_too s' p = tag_too s p.
Proof. intros H p. unfold tag_too. by apply bool_decide_ext. Qed.
Lemma fmap_keys {f : Z → Z → Z} s s' : (∀ k, tags s' !! k = f k <$> tags s !! k) → ∀ k, is_Some (tags s' !! k) ↔ is_Some (tags s !! k).
Proof. intros H k. rewrite H. by rewrite fmap_is_Some. Qed.
Lemma linksok_keys s s' : linksok s → posts s' = posts s → lnk s' = lnk s → (∀ k, is_Some (tags s' !! k) ↔ is_Some (tags s !! k)) → linksok s'.
Proof. intros H Hp Hl Ht l p t. rewrite Hl, Hp, Ht. apply H. Qed.
Lemma apart_insert s l p t : keys_apart s → linked s p t = false → keys_apart (set_lnk s (<[l := (p, t)]> (lnk s))).
Proof.
  intros Hk Hn i j x. cbn [lnk set_lnk].
  assert (Hno : ∀ i, lnk s !! i = Some (p, t) → False).
  { intros i' Hi. assert (linked s p t = true) by (apply linked_spec; by exists i'). congruence. }
  destruct (decide (i = l)) as [->|Hi], (decide (j = l)) as [->|Hj]; rewrite ?lookup_insert, ?lookup_insert_ne by done.
  - done.
  - intros [= <-] H. by destruct (Hno j).
  - intros H [= <-]. by destruct (Hno i).
  - apply Hk.
Qed.
Lemma apart_delete s l : keys_apart s → keys_apart (set_lnk s (delete l (lnk s))).
Proof. intros Hk i j x. cbn [lnk set_lnk]. rewrite !lookup_delete_Some. intros [_ ?] [_ ?]. by eapply Hk. Qed.
Lemma link_ok_spec s p t : link_ok s p t = true → is_Some (posts s !! p) ∧ is_Some (tags s !! t) ∧ linked s p t = false.
Proof. unfold link_ok. rewrite !andb_true_iff, negb_true_iff. intros [[H1 H2] H3]. by apply bool_decide_eq_true_1 in H1, H2. Qed.
Lemma counted_cond q flt s p : link_cond q flt s p = counted q flt s p.
Proof. by destruct q. Qed.
Lemma number_linked s k P p : keys_apart s → linked s p k = true → P p = true → 1 ≤ number s k P.
Proof. intros Hk Hl Hp. rewrite (number_split s k p P), Hp, number_one, Hl by done. pose proof (number_nonneg s k (λ x, P x && negb (bool_decide (x = p)))). lia. Qed.

Section count.
Context (b : backend) (q : qmodel) (flt : Z → bool) (Hq : q = QOwn → ∀ v, flt v = true).

(** One statement keeps the counts. *)
Lemma link_act_inv sgn p t s s' : link_act b q KCnt flt sgn p t s = Ok s' → linksok s → keys_apart s →
  linksok s' ∧ keys_apart s' ∧ (∀ x, counted q flt s' x = counted q flt s x) ∧ lnk s' = lnk s ∧
  ∀ k, tags s' !! k = (λ c, if decide (t = k ∧ counted q flt s p = true) then c + sgn else c) <$> tags s !! k.
Proof.
  intros H Hl Hk. apply link_act_ok in H as (Hp & Hn & Ht). rewrite counted_cond in Ht.
  assert (Hd : ∀ k, is_Some (tags s' !! k) ↔ is_Some (tags s !! k)) by (intros k; rewrite Ht; by rewrite fmap_is_Some).
  split; [by apply (linksok_keys s)|]. split; [intros i j x; rewrite Hn; apply Hk|]. split.
  { intros x. destruct q; [by apply tag_too_same|]. unfold counted, counts. by rewrite Hp. }
  split; [done|]. intros k. rewrite Ht. destruct (tags s !! k); [|done]. unfold fmap, option_fmap, option_map, link_delta. destruct (decide (t = k ∧ counted q flt s p = true)); f_equal; lia.
Qed.
Lemma mrun_cinv o s s' : mrun b q KCnt flt o s = Ok s' → cinv q flt s → (q = QOwn → calm o s) → cinv q flt s'.
Proof using Hq.
  intros H (Hl & Hk & Hc) Hcalm. destruct o as [t|t|p v|p v|p|l p t|l p t|l]; cbn [mrun] in H.
  - (* TagIns *)
    destruct (tags s !! t) eqn:Ht; [done|]. injection H as <-.
    assert (Hno : ∀ l p, lnk s !! l = Some (p, t) → False) by (intros l p H; destruct (Hl _ _ _ H) as [_ [? ?]]; congruence).
    assert (Hx : ∀ k, number (set_tags s (<[t:=0]> (tags s))) k (counted q flt (set_tags s (<[t:=0]> (tags s)))) = number s k (counted q flt s)).
    { intros k. apply number_ext; [done|]. intros l p k' H _. destruct q; [|done]. cbn [counted]. unfold tag_too. cbn [tags set_tags]. rewrite lookup_insert_ne; [done|]. intros <-. by apply (Hcalm eq_refl l t k'). }
    split; [|split].
    + intros l p k H. cbn [lnk set_tags] in H. destruct (Hl _ _ _ H) as [? ?]. split; [done|]. cbn [tags set_tags]. destruct (decide (k = t)) as [->|]; [by rewrite lookup_insert|]. by rewrite lookup_insert_ne.
    + exact Hk.
    + intros k c. rewrite Hx. cbn [tags set_tags]. destruct (decide (k = t)) as [->|].
      * rewrite lookup_insert. intros [= <-]. symmetry. apply number_zero. intros l p H. by destruct (Hno l p).
      * rewrite lookup_insert_ne by done. apply Hc.
  - (* TagDel *)
    destruct (no_link s snd t) eqn:Hn; [|done]. injection H as <-. rewrite no_link_spec in Hn.
    assert (Hx : ∀ k, number (set_tags s (delete t (tags s))) k (counted q flt (set_tags s (delete t (tags s)))) = number s k (counted q flt s)).
    { intros k. apply number_ext; [done|]. intros l p k' H _. destruct q; [|done]. cbn [counted]. unfold tag_too. cbn [tags set_tags]. rewrite lookup_delete_ne; [done|]. intros <-. by apply (Hcalm eq_refl l t k'). }
    split; [|split].
    + intros l p k H. cbn [lnk set_tags] in H. destruct (Hl _ _ _ H) as [? ?]. split; [done|]. cbn [tags set_tags]. rewrite lookup_delete_ne; [done|]. intros <-. by apply (Hn l (p, t)).
    + exact Hk.
    + intros k c. rewrite Hx. cbn [tags set_tags]. rewrite lookup_delete_Some. intros [_ ?]. by apply Hc.
  - (* PostIns *)
    destruct (posts s !! p) eqn:Hp; [done|]. apply post_act_ok in H as (Hp' & Hn & Ht). cbn [posts lnk tags set_posts] in *.
    assert (Hno : ∀ l k, lnk s !! l = Some (p, k) → False) by (intros l k H; destruct (Hl _ _ _ H) as [[? ?] _]; congruence).
    assert (Hf : ∀ k, linked (set_posts s (<[p:=v]> (posts s))) p k = false).
    { intros k. apply not_true_iff_false. rewrite linked_spec. intros [l H]. by apply (Hno l k). }
    assert (Ht' : ∀ k, tags s' !! k = tags s !! k) by (intros k; rewrite Ht, Hf; by destruct (tags s !! k)).
    split; [|split].
    + intros l x k. rewrite Hn, Hp', Ht'. intros H. destruct (Hl _ _ _ H) as [? ?]. split; [|done]. rewrite lookup_insert_ne; [done|]. intros ->. by apply (Hno l k).
    + intros i j x. rewrite Hn. apply Hk.
    + intros k c. rewrite Ht'. intros H. rewrite (Hc k c H). apply number_ext; [done|]. intros l x k' Hx _. destruct q; cbn [counted].
      * unfold tag_too. by rewrite Ht'.
      * unfold counts. rewrite Hp', lookup_insert_ne; [done|]. intros ->. by apply (Hno l k').
  - (* PostUpd *)
    destruct (posts s !! p) as [o|] eqn:Hp; [|by injection H as <-]. case_decide; [by injection H as <-|].
    apply rbind_ok in H as (s1 & H1 & H). apply post_act_ok in H1 as (Hp1 & Hn1 & Ht1). apply post_act_ok in H as (Hp2 & Hn2 & Ht2). cbn [posts lnk tags set_posts post_delta] in *.
    assert (Hlk : ∀ k, linked (set_posts s (<[p:=v]> (posts s))) p k = linked s p k) by done.
    assert (Hlk1 : ∀ k, linked s1 p k = linked s p k) by (intros k; unfold linked; by rewrite Hn1).
    assert (Ht : ∀ k, tags s' !! k = (λ c, c + if linked s p k then (if flt v then 1 else 0) - (if flt o then 1 else 0) else 0) <$> tags s !! k).
    { intros k. rewrite Ht2, Ht1, Hlk, Hlk1. destruct (tags s !! k); [|done]. cbn. f_equal. destruct (linked s p k), (flt v), (flt o); cbn; lia. }
    split; [|split].
    + intros l x k. rewrite Hn2, Hn1, Hp2, Hp1, Ht. intros Hx. destruct (Hl _ _ _ Hx) as [? ?]. split; [|by rewrite fmap_is_Some]. destruct (decide (x = p)) as [->|]; [by rewrite lookup_insert|by rewrite lookup_insert_ne].
    + intros i j x. rewrite Hn2, Hn1. apply Hk.
    + intros k c. rewrite Ht. intros Hx. apply fmap_Some in Hx as (c0 & Hc0 & ->). rewrite (Hc k c0 Hc0). destruct q; cbn [counted].
      * rewrite !Hq by done. replace (if linked s p k then 1 - 1 else 0) with 0 by (by destruct (linked s p k)). rewrite Z.add_0_r. apply number_ext; [by rewrite Hn2, Hn1|]. intros l x k' _ _. symmetry. apply tag_too_same. intros k''. rewrite Ht. by rewrite fmap_is_Some.
      * assert (Hk' : keys_apart s') by (intros i j x; rewrite Hn2, Hn1; apply Hk).
        rewrite (number_split s k p (counts flt s)), (number_split s' k p (counts flt s')), !number_one by done.
        replace (linked s' p k) with (linked s p k) by (unfold linked; by rewrite Hn2, Hn1).
        rewrite (number_ext s' s k (λ x, counts flt s' x && negb (bool_decide (x = p))) (λ x, counts flt s x && negb (bool_decide (x = p)))).
        { unfold counts. rewrite Hp2, Hp1, lookup_insert, Hp. destruct (flt v), (flt o), (linked s p k); lia. }
        { by rewrite Hn2, Hn1. }
        intros l x k' _ _. destruct (decide (x = p)) as [->|Hne]; [rewrite (bool_decide_eq_true_2 (p = p)) by done; by rewrite !andb_false_r|].
        f_equal. unfold counts. by rewrite Hp2, Hp1, lookup_insert_ne by done.
  - (* PostDel *)
    destruct (posts s !! p) as [o|] eqn:Hp; [|by injection H as <-]. destruct (no_link s fst p) eqn:Hno; [|done]. rewrite no_link_spec in Hno.
    apply post_act_ok in H as (Hp' & Hn & Ht). cbn [posts lnk tags set_posts] in *.
    assert (Hf : ∀ k, linked (set_posts s (delete p (posts s))) p k = false).
    { intros k. apply not_true_iff_false. rewrite linked_spec. intros [l H]. by apply (Hno l (p, k)). }
    assert (Ht' : ∀ k, tags s' !! k = tags s !! k) by (intros k; rewrite Ht, Hf; by destruct (tags s !! k)).
    split; [|split].
    + intros l x k. rewrite Hn, Hp', Ht'. intros H. destruct (Hl _ _ _ H) as [? ?]. split; [|done]. rewrite lookup_delete_ne; [done|]. intros ->. by apply (Hno l (x, k)).
    + intros i j x. rewrite Hn. apply Hk.
    + intros k c. rewrite Ht'. intros H. rewrite (Hc k c H). apply number_ext; [done|]. intros l x k' Hx _. destruct q; cbn [counted].
      * unfold tag_too. by rewrite Ht'.
      * unfold counts. rewrite Hp', lookup_delete_ne; [done|]. intros ->. by apply (Hno l (x, k')).
  - (* LinkIns *)
    destruct (lnk s !! l) eqn:Hll; [done|]. destruct (link_ok s p t) eqn:Ho; [|done]. apply link_ok_spec in Ho as (Hop & Hot & Hon).
    apply link_act_inv in H as (Hl' & Hk' & Hcs & Hn & Ht).
    + split; [done|]. split; [done|]. intros k c. rewrite Ht. intros Hx. apply fmap_Some in Hx as (c0 & Hc0 & ->). cbn [tags set_lnk] in Hc0. rewrite (Hc k c0 Hc0).
      assert (E : number s' k (counted q flt s') = number (set_lnk s (<[l:=(p, t)]> (lnk s))) k (counted q flt s)).
      { apply number_ext; [done|]. intros ? x ? _ _. rewrite Hcs. by destruct q. }
      rewrite E, number_insert by done. replace (counted q flt (set_lnk s (<[l:=(p, t)]> (lnk s))) p) with (counted q flt s p) by (by destruct q). repeat case_decide; naive_solver lia.
    + intros i x k. cbn [lnk posts tags set_lnk]. destruct (decide (i = l)) as [->|]; [rewrite lookup_insert; intros [= <- <-]; done|rewrite lookup_insert_ne by done; apply Hl].
    + by apply apart_insert.
  - (* LinkUpd *)
    destruct (lnk s !! l) as [[p0 t0]|] eqn:Hll; [|by injection H as <-]. case_decide; [by injection H as <-|]. destruct (link_ok s p t) eqn:Ho; [|done]. apply link_ok_spec in Ho as (Hop & Hot & Hon).
    apply rbind_ok in H as (s1 & H1 & H). apply link_act_inv in H1 as (Hl1 & Hk1 & Hcs1 & Hn1 & Ht1).
    + apply link_act_inv in H as (Hl2 & Hk2 & Hcs2 & Hn2 & Ht2); [|done..].
      split; [done|]. split; [done|]. intros k c. rewrite Ht2, Ht1. intros Hx. apply fmap_Some in Hx as (c1 & Hx & ->). apply fmap_Some in Hx as (c0 & Hc0 & ->). cbn [tags set_lnk] in Hc0. rewrite (Hc k c0 Hc0).
      assert (E : number s' k (counted q flt s') = number (set_lnk (set_lnk s (delete l (lnk s))) (<[l:=(p, t)]> (delete l (lnk s)))) k (counted q flt s)).
      { apply number_ext; [rewrite Hn2, Hn1; cbn [lnk set_lnk]; by rewrite insert_delete_insert|]. intros ? x ? _ _. rewrite Hcs2, Hcs1. by destruct q. }
      rewrite E. pose proof (number_insert (set_lnk s (delete l (lnk s))) l p t k (counted q flt s)) as Hi. cbn [lnk set_lnk] in Hi. rewrite Hi by apply lookup_delete. rewrite (number_delete s l p0 t0) by done.
      rewrite Hcs1. replace (counted q flt (set_lnk s (<[l:=(p, t)]> (lnk s)))) with (counted q flt s) by (by destruct q). repeat case_decide; lia.
    + intros i x k. cbn [lnk posts tags set_lnk]. destruct (decide (i = l)) as [->|]; [rewrite lookup_insert; intros [= <- <-]; done|rewrite lookup_insert_ne by done; apply Hl].
    + by apply apart_insert.
  - (* LinkDel *)
    destruct (lnk s !! l) as [[p0 t0]|] eqn:Hll; [|by injection H as <-].
    apply link_act_inv in H as (Hl' & Hk' & Hcs & Hn & Ht).
    + split; [done|]. split; [done|]. intros k c. rewrite Ht. intros Hx. apply fmap_Some in Hx as (c0 & Hc0 & ->). cbn [tags set_lnk] in Hc0. rewrite (Hc k c0 Hc0).
      assert (E : number s' k (counted q flt s') = number (set_lnk s (delete l (lnk s))) k (counted q flt s)).
      { apply number_ext; [done|]. intros ? x ? _ _. rewrite Hcs. by destruct q. }
      rewrite E, (number_delete s l p0 t0) by done. replace (counted q flt (set_lnk s (delete l (lnk s))) p0) with (counted q flt s p0) by (by destruct q). repeat case_decide; lia.
    + intros i x k. cbn [lnk posts tags set_lnk]. rewrite lookup_delete_Some. intros [_ ?]. by eapply Hl.
    + by apply apart_delete.
Qed.
End count.

(** ** Histories *)
Fixpoint calm_all (b : backend) (q : qmodel) (kd : akind) (flt : Z → bool) (s : mst) (ops : list mop) : Prop :=
  match ops with [] => True | o :: l => calm o s ∧ calm_all b q kd flt (mstep b q kd flt s o) l end.
Fixpoint calm_allb (b : backend) (q : qmodel) (kd : akind) (flt : Z → bool) (s : mst) (ops : list mop) : bool :=
  match ops with [] => true | o :: l => match o with TagIns t | TagDel t => no_link s fst t | _ => true end && calm_allb b q kd flt (mstep b q kd flt s o) l end.
Lemma calm_allb_spec b q kd flt s ops : calm_allb b q kd flt s ops = true → calm_all b q kd flt s ops.
Proof.
  revert s. induction ops as [|o l IH]; intros s H; [done|]. cbn [calm_allb] in H. apply andb_true_iff in H as [H1 H2]. split; [|by apply IH].
  destruct o; cbn [calm]; try done; rewrite no_link_spec in H1; intros i p k Hi; by apply (H1 i (p, k)).
Qed.
Lemma cinv0 q flt : cinv q flt mst0.
Proof. split; [|split]; [intros l p t H|intros i j x H|intros k c H]; vm_compute in H; discriminate H. Qed.
Lemma hist_cinv b q flt ops s : (q = QOwn → ∀ v, flt v = true) → (q = QOwn → calm_all b q KCnt flt s ops) → cinv q flt s → cinv q flt (foldl (mstep b q KCnt flt) s ops).
Proof.
  intros Hq. revert s. induction ops as [|o l IH]; intros s Hc Hi; [done|]. cbn [foldl]. apply IH.
  - intros Hq'. by apply Hc.
  - unfold mstep. destruct (mrun b q KCnt flt o s) as [s'|] eqn:Hr; [|done]. apply (mrun_cinv b q flt Hq o s s' Hr Hi). intros Hq'. by apply Hc.
Qed.

(** Counts never go below zero. *)
Lemma mrun_no_check b q flt o s : (q = QOwn → ∀ v, flt v = true) → cinv q flt s → mrun b q KCnt flt o s ≠ Err ECheck.
Proof.
  intros Hq (Hl & Hk & Hc) H.
  assert (Hpos : ∀ k c, tags s !! k = Some c → 0 ≤ c) by (intros k c Hx; rewrite (Hc k c Hx); apply number_nonneg).
  destruct o as [t|t|p v|p v|p|l p t|l p t|l]; cbn [mrun] in H.
  - by destruct (tags s !! t).
  - by destruct (no_link s snd t).
  - destruct (posts s !! p); [done|]. apply post_act_err in H as (_ & _ & k & c & Hx & Hlt). cbn [tags set_posts] in Hx. apply Hpos in Hx. destruct (linked _ _ _); cbn [post_delta] in Hlt; lia.
  - destruct (posts s !! p) as [o|] eqn:Hp; [|done]. case_decide; [done|]. destruct (post_act KCnt flt 1 p v _) as [s1|] eqn:H1; cbn [rbind] in H.
    + apply post_act_ok in H1 as (Hp1 & Hn1 & Ht1). cbn [posts lnk tags set_posts post_delta] in *. apply post_act_err in H as (_ & Hfo & k & c & Hx & Hlt).
      assert (Hlk : linked s1 p k = linked s p k) by (unfold linked; by rewrite Hn1). rewrite Hlk in Hlt. cbn [post_delta] in Hlt.
      rewrite Ht1 in Hx. apply fmap_Some in Hx as (c0 & Hc0 & ->). change (linked (set_posts s (<[p:=v]> (posts s))) p k) with (linked s p k) in Hlt.
      destruct (linked s p k) eqn:Hkk; cbn [andb] in Hlt; [|apply Hpos in Hc0; lia].
      destruct q.
      * rewrite Hq in Hlt by done. apply Hpos in Hc0. lia.
      * assert (1 ≤ c0). { rewrite (Hc k c0 Hc0). apply (number_linked s k _ p); [done..|]. cbn [counted]. unfold counts. by rewrite Hp. } destruct (flt v); lia.
    + apply post_act_err in H1 as (_ & _ & k & c & Hx & Hlt). cbn [tags set_posts] in Hx. apply Hpos in Hx. destruct (linked _ _ _); cbn [post_delta] in Hlt; lia.
  - destruct (posts s !! p) as [o|] eqn:Hp; [|done]. destruct (no_link s fst p) eqn:Hno; [|done]. rewrite no_link_spec in Hno. apply post_act_err in H as (_ & _ & k & c & Hx & Hlt). cbn [tags set_posts] in Hx. apply Hpos in Hx.
    destruct (linked _ _ _) eqn:Hk'; [|lia]. apply linked_spec in Hk' as [l Hl']. cbn [lnk set_posts] in Hl'. by apply (Hno l (p, k)).
  - destruct (lnk s !! l); [done|]. destruct (link_ok s p t); [|done]. apply link_act_err in H as [(_ & _ & ?)|(_ & _ & c & Hx & Hlt)]; [done|]. cbn [tags set_lnk] in Hx. apply Hpos in Hx. unfold link_delta in Hlt. lia.
  - destruct (lnk s !! l) as [[p0 t0]|] eqn:Hll; [|done]. case_decide; [done|]. destruct (link_ok s p t) eqn:Ho; [|done].
    destruct (link_act b q KCnt flt 1 p t _) as [s1|] eqn:H1; cbn [rbind] in H.
    + apply link_act_ok in H1 as (Hp1 & Hn1 & Ht1). apply link_act_err in H as [(_ & _ & ?)|(_ & Hcd & c & Hx & Hlt)]; [done|]. unfold link_delta in *. rewrite Ht1 in Hx. apply fmap_Some in Hx as (c0 & Hc0 & ->). cbn [tags set_lnk] in Hc0.
      assert (1 ≤ c0).
      { rewrite (Hc t0 c0 Hc0). apply (number_linked s t0 _ p0); [done|apply linked_spec; by exists l|]. rewrite <- Hcd. destruct q; cbn [counted link_cond].
        - symmetry. apply bool_decide_ext. rewrite Ht1. by rewrite fmap_is_Some.
        - by rewrite Hp1. }
      destruct (decide (t = t0 ∧ _)); lia.
    + apply link_act_err in H1 as [(_ & _ & ?)|(_ & _ & c & Hx & Hlt)]; [congruence|]. cbn [tags set_lnk] in Hx. apply Hpos in Hx. unfold link_delta in Hlt. lia.
  - destruct (lnk s !! l) as [[p0 t0]|] eqn:Hll; [|done]. apply link_act_err in H as [(_ & _ & ?)|(_ & Hcd & c & Hx & Hlt)]; [done|]. cbn [tags set_lnk] in Hx. unfold link_delta in Hlt.
    assert (1 ≤ c); [|lia]. rewrite (Hc t0 c Hx). apply (number_linked s t0 _ p0); [done|apply linked_spec; by exists l|]. rewrite <- Hcd. by destruct q.
Qed.

Lemma number_le s k P : number s k P ≤ number s k (λ _, true).
Proof.
  unfold number. generalize (lnk s) as m. intros m. induction m as [|i [p t] m Hi IH] using map_ind; [by rewrite !map_filter_empty|].
  pose proof (number_insert (Mst ∅ ∅ m) i p t k P Hi) as H1. pose proof (number_insert (Mst ∅ ∅ m) i p t k (λ _, true) Hi) as H2. unfold number in H1, H2. cbn [lnk set_lnk] in H1, H2. rewrite H1, H2.
  destruct (decide (t = k ∧ P p = true)), (decide (t = k ∧ true = true)); naive_solver lia.
Qed.
(** All links are counted if and only if every linked post has the key of a tag. *)
Lemma number_all s k P : number s k P = number s k (λ _, true) ↔ ∀ l p, lnk s !! l = Some (p, k) → P p = true.
Proof.
  split.
  - intros H l p Hl. destruct (P p) eqn:Hp; [done|]. exfalso.
    pose proof (number_delete s l p k k P Hl) as H1. pose proof (number_delete s l p k k (λ _, true) Hl) as H2. rewrite decide_False in H1 by (intros [_ ?]; congruence). rewrite decide_True in H2 by done.
    assert (Hle : number (set_lnk s (delete l (lnk s))) k P ≤ number (set_lnk s (delete l (lnk s))) k (λ _, true)); [|lia].
    apply number_le.
  - intros H. apply number_ext; [done|]. intros l p t Hl ->. by apply (H l).
Qed.

(** ** MySQL *)
Lemma mysql_no_link kd flt o s : lnk s = ∅ → lnk (mstep MySQL QOwn kd flt s o) = ∅.
Proof.
  intros Hs. unfold mstep. destruct (mrun MySQL QOwn kd flt o s) as [s'|] eqn:H; [|done].
  destruct o as [t|t|p v|p v|p|l p t|l p t|l]; cbn [mrun] in H.
  - destruct (tags s !! t); [done|]. by injection H as <-.
  - destruct (no_link s snd t); [|done]. by injection H as <-.
  - destruct (posts s !! p); [done|]. by apply post_act_ok in H as (_ & -> & _).
  - destruct (posts s !! p); [|by injection H as <-]. case_decide; [by injection H as <-|]. apply rbind_ok in H as (s1 & H1 & H). apply post_act_ok in H as (_ & -> & _). by apply post_act_ok in H1 as (_ & -> & _).
  - destruct (posts s !! p); [|by injection H as <-]. destruct (no_link s fst p); [|done]. by apply post_act_ok in H as (_ & -> & _).
  - destruct (lnk s !! l); [done|]. by destruct (link_ok s p t).
  - rewrite Hs, lookup_empty in H. by injection H as <-.
  - rewrite Hs, lookup_empty in H. by injection H as <-.
Qed.

(** ** Sums *)
Lemma post_act_pos kd flt sgn p v s s' : post_act kd flt sgn p v s = Ok s' → flt v = true → ∀ k c, tags s' !! k = Some c → 0 ≤ c.
Proof.
  unfold post_act. intros H Hf. rewrite Hf in H. destruct (forallb _ _) eqn:Hb; [|done]. injection H as <-. intros k c. cbn [tags set_tags]. rewrite map_lookup_imap. intros H. apply bind_Some in H as (c0 & Hc0 & [= <-]).
  rewrite forallb_forall in Hb. specialize (Hb (k, c0)). rewrite <- elem_of_list_In, elem_of_map_to_list in Hb. apply Hb in Hc0. by apply bool_decide_eq_true_1 in Hc0.
Qed.
Definition zeros (s : mst) : Prop := ∀ k c, tags s !! k = Some c → c = 0.
Definition no_upd (o : mop) : Prop := match o with PostUpd _ _ => False | _ => True end.
Lemma sum_zero_run b flt o s s' : mrun b QOwn KSm flt o s = Ok s' → no_upd o → linksok s → zeros s → linksok s' ∧ zeros s'.
Proof.
  intros H Hno Hl Hz.
  assert (Hla : ∀ sgn p t s s', link_act b QOwn KSm flt sgn p t s = Ok s' → linksok s → zeros s → linksok s' ∧ zeros s').
  { clear. intros sgn p t s s' H Hl Hz. apply link_act_ok in H as (Hp & Hn & Ht). split.
    - apply (linksok_keys s); [done..|]. intros k. rewrite Ht. by rewrite fmap_is_Some.
    - intros k c. rewrite Ht. intros Hx. apply fmap_Some in Hx as (c0 & Hc0 & ->). apply Hz in Hc0. subst c0. assert (Hd : link_delta KSm s p = 0). { cbn [link_delta]. destruct (tags s !! p) as [z|] eqn:Hz'; [|done]. cbn. by apply (Hz p). } rewrite Hd. destruct (decide _); lia. }
  assert (Hli : ∀ l p t, link_ok s p t = true → linksok (set_lnk s (<[l:=(p, t)]> (lnk s)))).
  { intros l p t Ho. apply link_ok_spec in Ho as (? & ? & _). intros i x k. cbn [lnk posts tags set_lnk]. destruct (decide (i = l)) as [->|]; [rewrite lookup_insert; intros [= <- <-]; done|rewrite lookup_insert_ne by done; apply Hl]. }
  destruct o as [t|t|p v|p v|p|l p t|l p t|l]; cbn [mrun] in H; [| | |done|..].
  - destruct (tags s !! t); [done|]. injection H as <-. split.
    + intros l p k H. destruct (Hl _ _ _ H) as [? ?]. split; [done|]. cbn [tags set_tags]. destruct (decide (k = t)) as [->|]; [by rewrite lookup_insert|by rewrite lookup_insert_ne].
    + intros k c. cbn [tags set_tags]. destruct (decide (k = t)) as [->|]; [rewrite lookup_insert; by intros [= <-]|rewrite lookup_insert_ne by done; apply Hz].
  - destruct (no_link s snd t) eqn:Hn; [|done]. injection H as <-. rewrite no_link_spec in Hn. split.
    + intros l p k H. destruct (Hl _ _ _ H) as [? ?]. split; [done|]. cbn [tags set_tags]. rewrite lookup_delete_ne; [done|]. intros <-. by apply (Hn l (p, t)).
    + intros k c. cbn [tags set_tags]. rewrite lookup_delete_Some. intros [_ ?]. by apply (Hz k).
  - destruct (posts s !! p) eqn:Hp; [done|]. apply post_act_ok in H as (Hp' & Hn & Ht). cbn [posts lnk tags set_posts] in *.
    assert (Hno' : ∀ l k, lnk s !! l = Some (p, k) → False) by (intros l k H; destruct (Hl _ _ _ H) as [[? ?] _]; congruence).
    assert (Ht' : ∀ k, tags s' !! k = tags s !! k).
    { intros k. rewrite Ht. replace (linked _ p k) with false; [by destruct (tags s !! k)|]. symmetry. apply not_true_iff_false. rewrite linked_spec. intros [l H]. by apply (Hno' l k). }
    split; [|intros k c; rewrite Ht'; apply Hz]. intros l x k. rewrite Hn, Hp', Ht'. intros H. destruct (Hl _ _ _ H) as [? ?]. split; [|done]. rewrite lookup_insert_ne; [done|]. intros ->. by apply (Hno' l k).
  - destruct (posts s !! p) as [o|] eqn:Hp; [|by injection H as <-]. destruct (no_link s fst p) eqn:Hn'; [|done]. rewrite no_link_spec in Hn'. apply post_act_ok in H as (Hp' & Hn & Ht). cbn [posts lnk tags set_posts] in *.
    assert (Ht' : ∀ k, tags s' !! k = tags s !! k).
    { intros k. rewrite Ht. replace (linked _ p k) with false; [by destruct (tags s !! k)|]. symmetry. apply not_true_iff_false. rewrite linked_spec. intros [l H]. by apply (Hn' l (p, k)). }
    split; [|intros k c; rewrite Ht'; apply Hz]. intros l x k. rewrite Hn, Hp', Ht'. intros H. destruct (Hl _ _ _ H) as [? ?]. split; [|done]. rewrite lookup_delete_ne; [done|]. intros ->. by apply (Hn' l (x, k)).
  - destruct (lnk s !! l); [done|]. destruct (link_ok s p t) eqn:Ho; [|done]. apply Hla in H; [done| |done]. by apply Hli.
  - destruct (lnk s !! l) as [[p0 t0]|]; [|by injection H as <-]. case_decide; [by injection H as <-|]. destruct (link_ok s p t) eqn:Ho; [|done]. apply rbind_ok in H as (s1 & H1 & H). apply Hla in H1 as [Hl1 Hz1]; [|by apply Hli|done]. by apply Hla in H.
  - destruct (lnk s !! l) as [[p0 t0]|]; [|by injection H as <-]. apply Hla in H; [done| |done]. intros i x k. cbn [lnk posts tags set_lnk]. rewrite lookup_delete_Some. intros [_ ?]. by eapply Hl.
Qed.
Lemma sum_zero_hist b flt ops s : Forall no_upd ops → linksok s → zeros s → zeros (foldl (mstep b QOwn KSm flt) s ops).
Proof.
  revert s. induction ops as [|o l IH]; intros s Hf Hl Hz; [done|]. apply Forall_cons in Hf as [Ho Hf]. cbn [foldl]. unfold mstep at 2. destruct (mrun b QOwn KSm flt o s) as [s'|] eqn:Hr; [|by apply IH].
  destruct (sum_zero_run b flt o s s' Hr Ho Hl Hz). by apply IH.
Qed.
Lemma sum_upd_raises b q flt s p o v k c : posts s !! p = Some o → linked s p k = true → tags s !! k = Some c → flt o = true → flt v = true → v < o → c + v - o < 0 →
  mrun b q KSm flt (PostUpd p v) s = Err ECheck.
Proof.
  intros Hp Hl Hc Hfo Hfv Hv Hlt. cbn [mrun]. rewrite Hp, decide_False by lia.
  destruct (post_act KSm flt 1 p v _) as [s1|e] eqn:H1; cbn [rbind]; [|by apply post_act_err in H1 as [-> _]].
  destruct (post_act KSm flt (-1) p o s1) as [s2|e] eqn:H2; [|by apply post_act_err in H2 as [-> _]]. exfalso.
  pose proof (post_act_pos _ _ _ _ _ _ _ H2 Hfo k) as Hpos. apply post_act_ok in H1 as (Hp1 & Hn1 & Ht1). apply post_act_ok in H2 as (Hp2 & Hn2 & Ht2). cbn [tags lnk set_posts post_delta] in *.
  rewrite Ht2, Ht1, Hc in Hpos. replace (linked s1 p k) with true in Hpos by (unfold linked in *; by rewrite Hn1). change (linked (set_posts s (<[p:=v]> (posts s))) p k) with (linked s p k) in Hpos. rewrite Hl in Hpos.
  rewrite Hfo, Hfv in Hpos. cbn in Hpos. specialize (Hpos _ eq_refl). lia.
Qed.
