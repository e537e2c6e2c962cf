(** * Which relation a dependency follows.
    Models helpers.py (find_fks, find_m2ms) and dependencies.py:39-92
    (DependOnRelated.resolved_model).  Self-contained: only what the resolver looks at. *)
From Verif Require Import Base BaseLemmas Conditions.
From Coq Require Import Ascii.
Open Scope list_scope.

(** str.lower() on ASCII. *)
Definition lower_char (c : ascii) : ascii :=
  let n := Ascii.N_of_ascii c in if ((65 <=? n) && (n <=? 90))%N then Ascii.ascii_of_N (n + 32) else c.
Fixpoint lower (s : string) : string := match s with EmptyString => "" | String c s' => String (lower_char c) (lower s') end.

(** Fields of a model that are relations: ForeignKeys of [_meta.fields] (OneToOneFields and
    inherited ones included), [_meta.many_to_many], and [_meta.private_fields]
    (GenericRelations; GenericForeignKeys have no remote model). *)
Inductive rkind := RkFK | RkM2M | RkPrivate.
Record rfield := RField { rf_name : string; rf_kind : rkind; rf_to : option string }.
#[global] Instance rkind_eq : EqDecision rkind. Proof. solve_decision. Defined.
#[global] Instance rfield_eq : EqDecision rfield. Proof. solve_decision. Defined.
(** Field.attname: ForeignKey.get_attname appends _id. *)
Definition attname (f : rfield) : string := match rf_kind f with RkFK => rf_name f +:+ "_id" | _ => rf_name f end.
(** A model class: module and class name. *)
Record rmodel := RModel { rm_id : string; rm_fields : list rfield }.
(** repr() of a class, of None, lower-cased: helpers.py:26, 50. *)
Definition repr_model (s : string) : string := "<class '" +:+ s +:+ "'>".
Definition repr_to (o : option string) : string := match o with Some s => repr_model s | None => "None" end.
Definition points_to (f : rfield) (m : rmodel) : bool := bool_decide (lower (repr_to (rf_to f)) = lower (repr_model (rm_id m))).

(** helpers.py:16-35; a name that is not a string is replaced by its attname first. *)
Definition given (o : option string) : option string := match o with Some "" => None | _ => o end.
Definition fk_name_ok (name : option string) (f : rfield) : bool :=
  match given name with None => true | Some n => bool_decide (attname f = n) || bool_decide (attname f = n +:+ "_id") end.
Definition m2m_name_ok (name : option string) (f : rfield) : bool := match given name with None => true | Some n => bool_decide (attname f = n) end.
Definition find_fks (from to : rmodel) (name : option string) : list rfield :=
  filter (λ f, points_to f to = true ∧ fk_name_ok name f = true)
    (filter (λ f, rf_kind f = RkFK) (rm_fields from)).
(** helpers.py:38-61. *)
Definition find_m2ms (from to : rmodel) (name : option string) : list rfield :=
  filter (λ f, points_to f to = true ∧ m2m_name_ok name f = true)
    (filter (λ f, rf_kind f = RkM2M) (rm_fields from) ++ filter (λ f, rf_kind f = RkPrivate) (rm_fields from)).

Inductive dir := DForward | DBackward | DForwardM2M | DBackwardM2M.
#[global] Instance dir_eq : EqDecision dir. Proof. solve_decision. Defined.
Definition dir_str (d : dir) : string :=
  match d with DForward => "forward" | DBackward => "backward" | DForwardM2M => "forward_m2m" | DBackwardM2M => "backward_m2m" end.

(** dependencies.py:64-80. *)
Definition type_ok (ty : option string) (d : dir) : bool := match given ty with None => true | Some t => bool_decide (t = dir_str d) end.
Definition candidates (this other : rmodel) (name ty : option string) : list (dir * rfield) :=
  let both := bool_decide (rm_id other ≠ rm_id this) || bool_decide (given ty ≠ None) in
  filter (λ p : dir * rfield, type_ok ty p.1 = true)
   ((pair DForward <$> find_fks this other name) ++
    (if both then pair DBackward <$> find_fks other this name else []) ++
    (pair DForwardM2M <$> find_m2ms this other name) ++
    (if both then pair DBackwardM2M <$> find_m2ms other this name else [])).
Inductive resolution := Resolved (d : dir) (f : rfield) | Ambiguous | NoRelation.
(** dependencies.py:82-92: both failures raise ValueError. *)
Definition resolve (this other : rmodel) (name ty : option string) : resolution :=
  match candidates this other name ty with
  | [] => NoRelation
  | [p] => Resolved p.1 p.2
  | _ => Ambiguous
  end.

(** ** What a relation is (independent of the above) *)
(** Field [f] of [from] points to [to] and is called [name] (or its column is), if one was given. *)
Definition named (name : option string) (f : rfield) : Prop :=
  match name with None | Some "" => True | Some n => rf_name f = n ∨ attname f = n end.
Definition relation_of (this other : rmodel) (name : option string) (d : dir) (f : rfield) : Prop :=
  match d with
  | DForward => f ∈ rm_fields this ∧ rf_kind f = RkFK ∧ rf_to f = Some (rm_id other)
  | DBackward => f ∈ rm_fields other ∧ rf_kind f = RkFK ∧ rf_to f = Some (rm_id this)
  | DForwardM2M => f ∈ rm_fields this ∧ rf_kind f ≠ RkFK ∧ rf_to f = Some (rm_id other)
  | DBackwardM2M => f ∈ rm_fields other ∧ rf_kind f ≠ RkFK ∧ rf_to f = Some (rm_id this)
  end ∧ named name f.
(** The declared type; a relation of a model to itself is followed forward unless told
    otherwise. *)
Definition typed (this other : rmodel) (ty : option string) (d : dir) : Prop :=
  match ty with
  | None | Some "" => rm_id this = rm_id other → d = DForward ∨ d = DForwardM2M
  | Some t => t = dir_str d
  end.
(** The classes a field of either model points to are told apart by repr().lower(). *)
Definition reprs_apart (this other : rmodel) : Prop :=
  ∀ m m' f s, (m = this ∨ m = other) → (m' = this ∨ m' = other) → f ∈ rm_fields m → rf_to f = Some s → lower s = lower (rm_id m') → s = rm_id m'.

(** ** Lemmas *)
Lemma lower_app s t : lower (s +:+ t) = lower s +:+ lower t.
Proof. induction s as [|c s IH]; [done|]. rewrite str_app_cons. simpl. rewrite IH. by rewrite str_app_cons. Qed.
Lemma str_app_inj_r (t s s' : string) : s +:+ t = s' +:+ t → s = s'.
Proof.
  assert (Hl : ∀ u v : string, String.length (u +:+ v) = (String.length u + String.length v)%nat).
  { induction u as [|c u IH]; intros v; [done|]. rewrite str_app_cons. simpl. by rewrite IH. }
  revert s'. induction s as [|c s IH]; intros [|c' s'] H; rewrite ?str_app_nil, ?str_app_cons in H; [done| | |].
  - apply (f_equal String.length) in H. simpl in H. rewrite Hl in H. lia.
  - apply (f_equal String.length) in H. simpl in H. rewrite Hl in H. lia.
  - injection H as -> H. by rewrite (IH _ H).
Qed.
Lemma lower_repr s t : lower (repr_model s) = lower (repr_model t) ↔ lower s = lower t.
Proof.
  unfold repr_model. rewrite !lower_app. split; [|by intros ->]. intros H. apply str_app_inj_l in H. by apply str_app_inj_r in H.
Qed.
Lemma points_spec this other m m' f : reprs_apart this other → (m = this ∨ m = other) → (m' = this ∨ m' = other) → f ∈ rm_fields m →
  points_to f m' = true ↔ rf_to f = Some (rm_id m').
Proof.
  intros HR Hm Hm' Hf. unfold points_to. rewrite bool_decide_eq_true. destruct (rf_to f) as [s|] eqn:Et; cbn [repr_to].
  - rewrite lower_repr. split; [|intros [= H]; by rewrite H]. intros H. f_equal. by apply (HR m m' f s).
  - split; [|done]. intros H. exfalso. unfold repr_model in H. rewrite lower_app in H. cbn in H. rewrite str_app_cons in H. discriminate.
Qed.
Lemma given_spec o : given o = match o with None | Some "" => None | Some n => Some n end.
Proof. by destruct o as [[|]|]. Qed.
Lemma named_fk name f : rf_kind f = RkFK → named name f ↔ fk_name_ok name f = true.
Proof.
  intros Hk. unfold named, fk_name_ok, attname. rewrite Hk. destruct name as [[|c n]|]; cbn [given]; [done| |done].
  rewrite orb_true_iff, !bool_decide_eq_true. split; (intros [H|H]; [|]).
  - right. by rewrite H.
  - by left.
  - by right.
  - left. by apply str_app_inj_r in H.
Qed.
Lemma named_m2m name f : rf_kind f ≠ RkFK → named name f ↔ m2m_name_ok name f = true.
Proof.
  intros Hk. unfold named, m2m_name_ok, attname. destruct name as [[|c n]|]; cbn [given]; [done| |done]. rewrite bool_decide_eq_true. destruct (rf_kind f); [done| |]; tauto.
Qed.
Lemma find_fks_spec this other m m' name f : reprs_apart this other → (m = this ∨ m = other) → (m' = this ∨ m' = other) →
  f ∈ find_fks m m' name ↔ (f ∈ rm_fields m ∧ rf_kind f = RkFK ∧ rf_to f = Some (rm_id m')) ∧ named name f.
Proof.
  intros HR Hm Hm'. unfold find_fks. rewrite !elem_of_list_filter. split.
  - intros ((H1 & H2) & Hk & Hf). rewrite named_fk by done. split; [|done]. split; [done|]. split; [done|]. by apply (points_spec this other m m').
  - intros ((Hf & Hk & Ht) & Hn). split; [|done]. split; [by apply (points_spec this other m m')|by apply named_fk].
Qed.
Lemma find_m2ms_spec this other m m' name f : reprs_apart this other → (m = this ∨ m = other) → (m' = this ∨ m' = other) →
  f ∈ find_m2ms m m' name ↔ (f ∈ rm_fields m ∧ rf_kind f ≠ RkFK ∧ rf_to f = Some (rm_id m')) ∧ named name f.
Proof.
  intros HR Hm Hm'. unfold find_m2ms. rewrite elem_of_list_filter, elem_of_app, !elem_of_list_filter. split.
  - intros ((H1 & H2) & Hk). assert (Hf : f ∈ rm_fields m ∧ rf_kind f ≠ RkFK) by (destruct Hk as [[-> ?]|[-> ?]]; done). destruct Hf as [Hf Hk'].
    rewrite named_m2m by done. split; [|done]. split; [done|]. split; [done|]. by apply (points_spec this other m m').
  - intros ((Hf & Hk & Ht) & Hn). split; [split; [by apply (points_spec this other m m')|by apply named_m2m]|]. destruct (rf_kind f); [done|by left|by right].
Qed.
Lemma cand_spec this other name ty d f : reprs_apart this other →
  (d, f) ∈ candidates this other name ty ↔ relation_of this other name d f ∧ typed this other ty d.
Proof.
  intros HR. unfold candidates, relation_of, typed, type_ok. rewrite elem_of_list_filter, !elem_of_app.
  assert (Hp : ∀ (d' : dir) (l : list rfield), (d, f) ∈ pair d' <$> l ↔ d = d' ∧ f ∈ l).
  { intros d' l. rewrite elem_of_list_fmap. split; [intros (? & [= -> ->] & ?); done|intros [-> ?]; eauto]. }
  assert (Hb : ∀ l : list (dir * rfield), (d, f) ∈ (if bool_decide (rm_id other ≠ rm_id this) || bool_decide (given ty ≠ None) then l else []) ↔ (d, f) ∈ l ∧ (rm_id this = rm_id other → given ty ≠ None)).
  { intros l. destruct (decide (rm_id other = rm_id this)) as [Hq|Hq], (decide (given ty = None)) as [Ht|Ht].
    - rewrite !bool_decide_eq_false_2 by (intros H; done). simpl. split; [by intros ?%elem_of_nil|]. intros [_ H]. exfalso. by apply H.
    - rewrite (bool_decide_eq_true_2 _ Ht), orb_true_r. naive_solver.
    - rewrite bool_decide_eq_true_2 by done. simpl. split; [|tauto]. intros ?. split; [done|]. intros Hz. exfalso. by apply Hq.
    - rewrite bool_decide_eq_true_2 by done. simpl. split; [|tauto]. intros ?. split; [done|]. intros Hz. exfalso. by apply Hq. }
  rewrite !Hb, !Hp, (find_fks_spec this other this other), (find_fks_spec this other other this), (find_m2ms_spec this other this other), (find_m2ms_spec this other other this) by (done || tauto).
  rewrite given_spec. cbn [fst snd]. destruct ty as [[|c t]|]; rewrite ?bool_decide_eq_true; destruct d; naive_solver.
Qed.
Lemma cand_nodup this other name ty : NoDup (rf_name <$> rm_fields this) → NoDup (rf_name <$> rm_fields other) → NoDup (candidates this other name ty).
Proof.
  intros H1 H2. apply NoDup_fmap_1 in H1, H2. unfold candidates. apply NoDup_filter.
  assert (Hfk : ∀ m m', NoDup (rm_fields m) → NoDup (find_fks m m' name)) by (intros; by do 2 apply NoDup_filter).
  assert (Hm2m : ∀ m m', NoDup (rm_fields m) → NoDup (find_m2ms m m' name)).
  { intros m m' Hm. apply NoDup_filter, NoDup_app. split; [by apply NoDup_filter|]. split; [|by apply NoDup_filter].
    intros f [Ha _]%elem_of_list_filter [Hb _]%elem_of_list_filter. congruence. }
  assert (Hp : ∀ (d : dir) (l : list rfield), NoDup l → NoDup (pair d <$> l)) by (intros d l Hl; by apply NoDup_fmap_2; [intros ?? [= ->]|]).
  assert (Hd : ∀ (d : dir) (b : bool) (l : list rfield), NoDup l → NoDup (if b then pair d <$> l else [])) by (intros d [] l Hl; [by apply Hp|constructor]).
  assert (Hi : ∀ (d : dir) (b : bool) (l : list rfield) p, p ∈ (if b then pair d <$> l else []) → p.1 = d).
  { intros d [] l p; [|by intros ?%elem_of_nil]. by intros (? & -> & _)%elem_of_list_fmap. }
  assert (Hj : ∀ (d : dir) (l : list rfield) (p : dir * rfield), p ∈ pair d <$> l → p.1 = d) by (intros d l p; by intros (? & -> & _)%elem_of_list_fmap).
  apply NoDup_app. split; [by apply Hp, Hfk|]. split.
  { intros p Hq. apply Hj in Hq. rewrite !elem_of_app. intros [H|[H|H]]; [apply Hi in H|apply Hj in H|apply Hi in H]; congruence. }
  apply NoDup_app. split; [by apply Hd, Hfk|]. split.
  { intros p Hq. apply Hi in Hq. rewrite !elem_of_app. intros [H|H]; [apply Hj in H|apply Hi in H]; congruence. }
  apply NoDup_app. split; [by apply Hp, Hm2m|]. split; [|by apply Hd, Hm2m].
  intros p Hq. apply Hj in Hq. intros H. apply Hi in H. congruence.
Qed.
Lemma resolve_spec this other name ty d f : NoDup (rf_name <$> rm_fields this) → NoDup (rf_name <$> rm_fields other) → reprs_apart this other →
  resolve this other name ty = Resolved d f ↔
  (relation_of this other name d f ∧ typed this other ty d) ∧
  ∀ d' f', relation_of this other name d' f' ∧ typed this other ty d' → (d', f') = (d, f).
Proof.
  intros H1 H2 HR. assert (Hnd := cand_nodup this other name ty H1 H2). unfold resolve. split.
  - intros H. destruct (candidates this other name ty) as [|[d0 f0] [|]] eqn:Ec; [done| |done]. injection H as <- <-. simpl.
    split.
    + apply cand_spec; [done|]. rewrite Ec. left.
    + intros d' f' H. apply cand_spec in H; [|done]. rewrite Ec in H. by apply elem_of_list_singleton in H.
  - intros [Hin Hu]. apply cand_spec in Hin; [|done]. destruct (candidates this other name ty) as [|[d0 f0] [|[d1 f1] l]] eqn:Ec.
    + by apply elem_of_nil in Hin.
    + apply elem_of_list_singleton in Hin as [= -> ->]. done.
    + exfalso. assert (Ha : (d0, f0) = (d, f)) by (apply Hu, cand_spec; [done|rewrite Ec; left]).
      assert (Hb : (d1, f1) = (d, f)) by (apply Hu, cand_spec; [done|rewrite Ec; right; left]).
      apply NoDup_cons in Hnd as [Hnd _]. apply Hnd. rewrite Ha, Hb. left.
Qed.
Lemma none_spec this other name ty : reprs_apart this other →
  resolve this other name ty = NoRelation ↔ ∀ d f, ¬ (relation_of this other name d f ∧ typed this other ty d).
Proof.
  intros HR. unfold resolve. split.
  - intros H d f Hd. apply cand_spec in Hd; [|done]. destruct (candidates this other name ty) as [|? [|]]; [by apply elem_of_nil in Hd|done|done].
  - intros H. destruct (candidates this other name ty) as [|[d f] l] eqn:Ec; [done|]. exfalso. apply (H d f), cand_spec; [done|]. rewrite Ec. left.
Qed.
Lemma resolve_again_spec this other name ty d f : resolve this other name ty = Resolved d f → resolve this other name (Some (dir_str d)) = Resolved d f.
Proof.
  unfold resolve. intros H. destruct (candidates this other name ty) as [|[d0 f0] [|]] eqn:Ec; [done| |done]. injection H as -> ->. simpl in *.
  assert (Hg : given (Some (dir_str d)) = Some (dir_str d)) by (by destruct d). unfold candidates in *. rewrite Hg.
  assert (Hds : ∀ d1 d2, dir_str d1 = dir_str d2 → d1 = d2) by (intros [] []; done).
  set (Fw := pair DForward <$> find_fks this other name) in *. set (Bw := pair DBackward <$> find_fks other this name) in *.
  set (Fm := pair DForwardM2M <$> find_m2ms this other name) in *. set (Bm := pair DBackwardM2M <$> find_m2ms other this name) in *.
  set (both := bool_decide (rm_id other ≠ rm_id this) || bool_decide (given ty ≠ None)) in *.
  rewrite (bool_decide_eq_true_2 (Some (dir_str d) ≠ None)), orb_true_r by done.
  set (big := Fw ++ (if both then Bw else []) ++ Fm ++ (if both then Bm else [])) in *.
  assert (Ht : type_ok (Some (dir_str d)) = λ d', bool_decide (dir_str d = dir_str d')) by (unfold type_ok; by rewrite Hg). rewrite Ht. clear Ht.
  assert (Hin : (d, f) ∈ big ∧ type_ok ty d = true).
  { assert (H : (d, f) ∈ [(d, f)]) by left. rewrite <- Ec in H. apply elem_of_list_filter in H as [? ?]. done. }
  assert (Hty : filter (λ p : dir * rfield, bool_decide (dir_str d = dir_str p.1) = true) big = [(d, f)]).
  { rewrite <- Ec. destruct (given ty) as [t|] eqn:Et.
    - apply list_filter_iff. intros p. destruct Hin as [_ Hin]. unfold type_ok in Hin |- *. rewrite Et in Hin |- *. apply bool_decide_eq_true in Hin as ->. done.
    - assert (Hbig : big = [(d, f)]).
      { rewrite <- Ec. clear -Et. induction big as [|p l IH]; [done|]. rewrite filter_cons_True by (unfold type_ok; by rewrite Et). by rewrite <- IH. }
      rewrite Hbig. rewrite !filter_cons_True; [done|unfold type_ok; by rewrite Et|by apply bool_decide_eq_true]. }
  assert (Hf : filter (λ p : dir * rfield, bool_decide (dir_str d = dir_str p.1) = true) (Fw ++ Bw ++ Fm ++ Bm) = [(d, f)]).
  { destruct both eqn:Eb; [exact Hty|]. unfold big in Hty, Hin. simpl in Hty, Hin. rewrite app_nil_r in Hty, Hin.
    assert (Hd : d = DForward ∨ d = DForwardM2M).
    { destruct Hin as [[H|H]%elem_of_app _]; apply elem_of_list_fmap in H as (? & [= -> ->] & _); tauto. }
    assert (Hno : ∀ (d' : dir) (l : list rfield), d' ≠ d → filter (λ p : dir * rfield, bool_decide (dir_str d = dir_str p.1) = true) (pair d' <$> l) = []).
    { intros d' l Hne. induction l as [|x l IH]; [done|]. csimpl. rewrite filter_cons_False; [done|]. rewrite bool_decide_eq_true. simpl. intros H. by apply Hds in H. }
    rewrite filter_app in Hty. rewrite !filter_app. unfold Bw, Bm. rewrite (Hno DBackward), (Hno DBackwardM2M) by (destruct Hd as [-> | ->]; done).
    simpl. by rewrite app_nil_r. }
  by rewrite Hf.
Qed.
