(** * The decorators of a class body.

    @depend_on_related(...) appends to an attribute of the object it decorates
    (dependencies.py:414-430), @denormalized(...) and @cached(...) make a field of the object
    they decorate (fields.py:8-100, 309-333).  The function objects are mutable and may be shared.
    The model records which dependencies a field registers; the triggers made of them
    are in Gen.v.  A declaration is any value [D], standing for (Class, args, kwargs). *)
From Verif Require Import Base BaseLemmas.
Open Scope list_scope.

Section deco.
Context {D : Type}.
(** An object, with the attribute [depend] if it has been set: a function; a DenormDBField,
    which keeps the object it was called with (fields.py:35); a CachedField, which reads the
    attribute when it is made (fields.py:310-317). *)
Inductive obj :=
| OFunc (depend : option (list D))
| ODenorm (func : nat) (depend : option (list D))
| OCached (func : nat) (deps : list D) (depend : option (list D)).
Definition depend_of (o : obj) : option (list D) := match o with OFunc x | ODenorm _ x | OCached _ _ x => x end.
Definition set_depend (o : obj) (x : option (list D)) : obj :=
  match o with OFunc _ => OFunc x | ODenorm f _ => ODenorm f x | OCached f l _ => OCached f l x end.
(** The objects made so far, and the names of the class body. *)
Record scope := Scope { sc_heap : list obj; sc_names : gmap string nat }.
(** dependencies.py:421-428: hasattr, or an empty list; append; the object itself. *)
Definition depend_on (c : D) (a : nat) (h : list obj) : list obj :=
  alter (λ o, set_depend o (Some (default [] (depend_of o) ++ [c]))) a h.

(** x = the function; x = depend_on_related(...)(y); x = denormalized(...)(y); x = cached(...)(y).
    A decorated function is a series of these with the same name. *)
Inductive stmt := SDef (x : string) | SDepend (x y : string) (c : D) | SDenorm (x y : string) | SCached (x y : string).
Definition lookup_name (s : scope) (y : string) : res nat := match sc_names s !! y with Some a => Ok a | None => Err (EUser 0) end.
Definition alloc (x : string) (o : obj) (s : scope) : scope := Scope (sc_heap s ++ [o]) (<[x := length (sc_heap s)]> (sc_names s)).
Definition run_stmt (s : scope) (i : stmt) : res scope :=
  match i with
  | SDef x => Ok (alloc x (OFunc None) s)
  | SDepend x y c => let* a := lookup_name s y in Ok (Scope (depend_on c a (sc_heap s)) (<[x := a]> (sc_names s)))
  | SDenorm x y => let* a := lookup_name s y in Ok (alloc x (ODenorm a None) s)
  | SCached x y =>
      let* a := lookup_name s y in
      (* for c, a, kw in self.func.depend *)
      match sc_heap s !! a ≫= depend_of with
      | Some l => Ok (alloc x (OCached a l None) s)
      | None => Err EAttribute
      end
  end.
Definition run_body (body : list stmt) (s : scope) : res scope := foldM run_stmt s body.
Definition empty_scope : scope := Scope [] ∅.

(** contribute_to_class (fields.py:46, 269-276): the dependencies the field [x] registers. *)
Definition registered (s : scope) (x : string) : option (list D) :=
  match sc_names s !! x ≫= (sc_heap s !!.) with
  | Some (ODenorm f _) => Some (default [] (sc_heap s !! f ≫= depend_of))
  | Some (OCached _ l _) => Some l
  | _ => None
  end.

(** @above ... @field @below ... def x: Python applies the nearest decorator first; [below] and
    [above] are given in this order. *)
Inductive fkind := FDenorm | FCached.
Definition decorated (x : string) (below : list D) (k : fkind) (above : list D) : list stmt :=
  SDef x :: (SDepend x x <$> below) ++ [match k with FDenorm => SDenorm x x | FCached => SCached x x end] ++ (SDepend x x <$> above).
(** A statement that has nothing to do with the name [x]. *)
Definition apart (x : string) (i : stmt) : Prop :=
  match i with SDef y => y ≠ x | SDepend y z _ | SDenorm y z | SCached y z => y ≠ x ∧ z ≠ x end.

(** ** A decorated function registers what is below the field decorator *)
Lemma body_app l1 l2 s : run_body (l1 ++ l2) s = let* s' := run_body l1 s in run_body l2 s'.
Proof. unfold run_body. apply foldM_app. Qed.
Lemma depend_on_length c a h : length (depend_on c a h) = length h.
Proof. apply alter_length. Qed.
Lemma depends_run x a ds : ∀ h n o, n !! x = Some a → h !! a = Some o →
  run_body (SDepend x x <$> ds) (Scope h n) = Ok (Scope (<[a := set_depend o (match ds with [] => depend_of o | _ => Some (default [] (depend_of o) ++ ds) end)]> h) n).
Proof.
  induction ds as [|c ds IH]; intros h n o Hn Ho.
  - simpl. do 2 f_equal. symmetry. apply list_insert_id. rewrite Ho. by destruct o.
  - rewrite fmap_cons. unfold run_body. cbn [foldM]. unfold run_stmt at 1. unfold lookup_name. cbn [sc_names sc_heap]. rewrite Hn. cbn [rbind].
    rewrite (insert_id n x a Hn).
    set (o1 := set_depend o (Some (default [] (depend_of o) ++ [c]))).
    assert (Hh : depend_on c a h = <[a := o1]> h).
    { unfold depend_on. apply list_eq. intros i. destruct (decide (i = a)) as [->|Hi].
      - rewrite list_lookup_alter, Ho, list_lookup_insert; [done|]. by eapply lookup_lt_Some.
      - by rewrite list_lookup_alter_ne, list_lookup_insert_ne. }
    rewrite Hh. etrans; [apply (IH _ _ o1 Hn)|]; [ apply list_lookup_insert; by eapply lookup_lt_Some|].
    rewrite list_insert_insert. do 3 f_equal. unfold o1. destruct o; simpl; destruct ds; simpl; rewrite <- ?app_assoc; done.
Qed.
(** The objects of the field [x] belong to it alone. *)
Definition private (x : string) (f a : nat) (s : scope) : Prop :=
  (f < length (sc_heap s))%nat ∧ (a < length (sc_heap s))%nat ∧ sc_names s !! x = Some a ∧ ∀ y b, y ≠ x → sc_names s !! y = Some b → b ≠ f ∧ b ≠ a.
Definition inside (s : scope) : Prop := ∀ y b, sc_names s !! y = Some b → (b < length (sc_heap s))%nat.
Lemma inside_stmt s i s' : inside s → run_stmt s i = Ok s' → inside s'.
Proof.
  intros Hi H. assert (HA : ∀ x o, inside (alloc x o s)).
  { intros x o y b. unfold alloc. cbn [sc_heap sc_names]. rewrite app_length, lookup_insert_Some. simpl. intros [[_ <-]|[_ Hb]]; [lia|]. apply Hi in Hb. lia. }
  destruct i as [x|x y c|x y|x y]; simpl in H.
  - injection H as <-. apply HA.
  - unfold lookup_name in H. destruct (sc_names s !! y) as [a|] eqn:Ha; [|done]. injection H as <-. intros z b. cbn [sc_heap sc_names]. rewrite depend_on_length, lookup_insert_Some.
    intros [[_ <-]|[_ Hb]]; eauto.
  - unfold lookup_name in H. destruct (sc_names s !! y) as [a|] eqn:Ha; [|done]. injection H as <-. apply HA.
  - unfold lookup_name in H. destruct (sc_names s !! y) as [a|] eqn:Ha; [|done]. simpl in H. destruct (sc_heap s !! a ≫= depend_of); [|done]. injection H as <-. apply HA.
Qed.
Lemma inside_body l s s' : inside s → run_body l s = Ok s' → inside s'.
Proof.
  revert s. induction l as [|i l IH]; intros s Hi H; [by injection H as <-|]. unfold run_body in H. cbn [foldM] in H. destruct (run_stmt s i) as [s1|] eqn:H1; [|done].
  eapply IH; [|exact H]. by eapply inside_stmt.
Qed.
Lemma apart_stmt x f a s i s' : inside s → private x f a s → apart x i → run_stmt s i = Ok s' →
  private x f a s' ∧ sc_heap s' !! f = sc_heap s !! f ∧ sc_heap s' !! a = sc_heap s !! a.
Proof.
  intros Hin (Hf & Ha & Hx & Hp) Hi H.
  assert (HA : ∀ y o, y ≠ x → private x f a (alloc y o s) ∧ sc_heap (alloc y o s) !! f = sc_heap s !! f ∧ sc_heap (alloc y o s) !! a = sc_heap s !! a).
  { intros y o Hy. unfold alloc, private. cbn [sc_heap sc_names]. rewrite app_length. simpl. split; [|by rewrite !lookup_app_l].
    split; [lia|]. split; [lia|]. split; [by rewrite lookup_insert_ne|]. intros z b Hz. rewrite lookup_insert_Some. intros [[_ <-]|[_ Hb]]; [lia|eauto]. }
  destruct i as [y|y z c|y z|y z]; simpl in H, Hi.
  - injection H as <-. by apply HA.
  - destruct Hi as [Hy Hz]. unfold lookup_name in H. destruct (sc_names s !! z) as [b|] eqn:Hb; [|done]. injection H as <-. destruct (Hp z b Hz Hb) as [Hbf Hba].
    unfold private. cbn [sc_heap sc_names]. rewrite depend_on_length. split; [|unfold depend_on; by rewrite !list_lookup_alter_ne].
    split; [done|]. split; [done|]. split; [by rewrite lookup_insert_ne|]. intros w b' Hw. rewrite lookup_insert_Some. intros [[_ <-]|[_ Hb']]; eauto.
  - destruct Hi as [Hy Hz]. unfold lookup_name in H. destruct (sc_names s !! z) as [b|]; [|done]. injection H as <-. by apply HA.
  - destruct Hi as [Hy Hz]. unfold lookup_name in H. destruct (sc_names s !! z) as [b|]; [|done]. simpl in H. destruct (sc_heap s !! b ≫= depend_of); [|done]. injection H as <-. by apply HA.
Qed.
Lemma apart_body x f a l : ∀ s s', inside s → private x f a s → Forall (apart x) l → run_body l s = Ok s' →
  private x f a s' ∧ sc_heap s' !! f = sc_heap s !! f ∧ sc_heap s' !! a = sc_heap s !! a.
Proof.
  induction l as [|i l IH]; intros s s' Hin Hp Hl H; [by injection H as <-|]. apply Forall_cons in Hl as [H1 H2].
  unfold run_body in H. cbn [foldM] in H. destruct (run_stmt s i) as [s1|] eqn:Hs; [|done].
  destruct (apart_stmt _ _ _ _ _ _ Hin Hp H1 Hs) as (P1 & E1 & E2). destruct (IH s1 s' (inside_stmt _ _ _ Hin Hs) P1 H2 H) as (P2 & E3 & E4).
  split; [done|]. by rewrite E3, E4.
Qed.

(** A function that is decorated in one place: whatever the rest of the class body does, the
    field registers what is below the field decorator, in order. *)
Lemma decorated_registers x below k above post s s' : inside s → Forall (apart x) post →
  run_body (decorated x below k above ++ post) s = Ok s' → registered s' x = Some below.
Proof.
  intros Hin Hpost H. rewrite body_app in H. destruct (run_body (decorated x below k above) s) as [s1|] eqn:H1; [|done]. cbn [rbind] in H.
  unfold decorated in H1. change (SDef x :: ?l) with ([SDef x] ++ l) in H1. rewrite body_app in H1.
  change (run_body [SDef x] s) with (Ok (alloc x (OFunc None) s)) in H1. cbn [rbind] in H1. rewrite body_app in H1.
  set (n := length (sc_heap s)) in *.
  assert (Hal : alloc x (OFunc None) s = Scope (sc_heap s ++ [OFunc None]) (<[x := n]> (sc_names s))) by done. rewrite Hal in H1.
  rewrite (depends_run x n below _ _ (OFunc None)) in H1; [|by rewrite lookup_insert|rewrite lookup_app_r by done; by rewrite Nat.sub_diag].
  cbn [rbind] in H1. rewrite body_app in H1. set (h1 := <[n := _]> (sc_heap s ++ [OFunc None])) in H1. 
  assert (Hl1 : length h1 = Datatypes.S n) by (unfold h1; rewrite insert_length, app_length; simpl; lia).
  set (o1 := set_depend (OFunc None) (match below with [] => None | _ => Some below end)).
  assert (Hn1 : h1 !! n = Some o1). { unfold h1. rewrite list_lookup_insert by (rewrite app_length; simpl; lia). by destruct below. }
  set (nm := <[x := n]> (sc_names s)) in *.
  assert (Hfld : ∃ o2, (o2 = ODenorm n None ∨ o2 = OCached n below None) ∧ run_body (SDepend x x <$> above) (alloc x o2 (Scope h1 nm)) = Ok s1).
  { destruct k; cbn [run_body foldM run_stmt] in H1; unfold lookup_name in H1; cbn [sc_names sc_heap] in H1; unfold nm in H1 at 1; rewrite lookup_insert in H1; cbn [rbind] in H1.
    - exists (ODenorm n None). split; [by left|]. exact H1.
    - rewrite Hn1 in H1. simpl in H1. destruct below as [|c below]; [done|]. exists (OCached n (c :: below) None). split; [by right|]. exact H1. }
  destruct Hfld as (o2 & Ho2 & Hrun).
  assert (Ha : alloc x o2 (Scope h1 nm) = Scope (h1 ++ [o2]) (<[x := Datatypes.S n]> nm)) by (unfold alloc; cbn [sc_heap sc_names]; by rewrite Hl1).
  rewrite Ha in Hrun. rewrite (depends_run x (Datatypes.S n) above _ _ o2) in Hrun; [|by rewrite lookup_insert|rewrite lookup_app_r by lia; by rewrite Hl1, Nat.sub_diag].
  injection Hrun as Hs1. set (dd := match above with [] => depend_of o2 | _ => _ end) in Hs1.
  assert (Hs1' : s1 = alloc x (set_depend o2 dd) (Scope h1 nm)).
  { rewrite <- Hs1. unfold alloc. cbn [sc_heap sc_names]. rewrite Hl1. f_equal. rewrite <- Hl1. rewrite insert_app_r_alt by lia. by rewrite Nat.sub_diag. }
  assert (Hp : private x n (Datatypes.S n) s1).
  { rewrite <- Hs1. unfold private. cbn [sc_heap sc_names]. rewrite insert_length, app_length, Hl1. simpl. split; [lia|]. split; [lia|]. split; [by rewrite lookup_insert|].
    intros y b Hy. rewrite lookup_insert_ne by done. unfold nm. rewrite lookup_insert_ne by done. intros Hb. apply Hin in Hb. fold n in Hb. lia. }
  assert (Hin1 : inside s1). { rewrite Hs1'. intros y b. unfold alloc. cbn [sc_heap sc_names]. rewrite app_length, Hl1. simpl. rewrite lookup_insert_Some. intros [[_ <-]|[_ Hb]]; [lia|].
    unfold nm in Hb. rewrite lookup_insert_Some in Hb. destruct Hb as [[_ <-]|[_ Hb]]; [lia|]. apply Hin in Hb. fold n in Hb. lia. }
  destruct (apart_body x n (Datatypes.S n) post s1 s' Hin1 Hp Hpost H) as ((_ & _ & Hx & _) & E1 & E2).
  assert (Hh1 : sc_heap s1 !! n = Some o1 ∧ sc_heap s1 !! Datatypes.S n = Some (set_depend o2 dd)).
  { rewrite Hs1'. unfold alloc. cbn [sc_heap]. split; [by rewrite lookup_app_l by lia|]. rewrite lookup_app_r by lia. by rewrite Hl1, Nat.sub_diag. }
  destruct Hh1 as [Hn2 Hn3]. unfold registered. rewrite Hx. simpl. rewrite E2, Hn3. destruct Ho2 as [-> | ->]; simpl; [|done].
  rewrite E1, Hn2. simpl. by destruct below.
Qed.

(** The body runs unless a function without dependencies is cached. *)
Lemma decorated_runs x below k above s : inside s → (∃ s', run_body (decorated x below k above) s = Ok s') ↔ k = FDenorm ∨ below ≠ [].
Proof.
  intros Hin. unfold decorated. change (SDef x :: ?l) with ([SDef x] ++ l). rewrite body_app.
  change (run_body [SDef x] s) with (Ok (alloc x (OFunc None) s)). cbn [rbind]. rewrite body_app. unfold alloc.
  rewrite (depends_run x (length (sc_heap s)) below _ _ (OFunc None)); [|by rewrite lookup_insert|rewrite lookup_app_r by done; by rewrite Nat.sub_diag].
  cbn [rbind]. rewrite body_app. set (n := length (sc_heap s)). set (h1 := <[n := _]> (sc_heap s ++ [OFunc None])).
  assert (Hn1 : h1 !! n = Some (OFunc (match below with [] => None | _ => Some below end))).
  { unfold h1. rewrite list_lookup_insert by (rewrite app_length; simpl; lia). by destruct below. }
  assert (Hup : ∀ o, ∃ s', run_body (SDepend x x <$> above) (alloc x o (Scope h1 (<[x := n]> (sc_names s)))) = Ok s').
  { intros o. unfold alloc. cbn [sc_heap sc_names]. eexists. apply (depends_run x (length h1) above _ _ o); [by rewrite lookup_insert|]. rewrite lookup_app_r by done. by rewrite Nat.sub_diag. }
  destruct k; cbn [run_body foldM run_stmt]; unfold lookup_name; cbn [sc_names sc_heap]; rewrite lookup_insert; cbn [rbind].
  - split; [by left|]. intros _. apply Hup.
  - rewrite Hn1. simpl. destruct below as [|c below]; [|split; [by right|intros _; apply Hup]]. split; [by intros [? ?]|]. by intros [?|?].
Qed.
Lemma run_inside l s : run_body l empty_scope = Ok s → inside s.
Proof. apply inside_body. intros y b. simpl. by rewrite lookup_empty. Qed.
Lemma decorated_fields pre x below k above post s : Forall (apart x) post → run_body (pre ++ decorated x below k above ++ post) empty_scope = Ok s → registered s x = Some below.
Proof.
  intros Hp H. rewrite body_app in H. destruct (run_body pre empty_scope) as [s0|] eqn:H0; [|done]. cbn [rbind] in H.
  eapply decorated_registers; [by eapply run_inside|done|exact H].
Qed.

(** ** Any class body *)
(** Which object a name stands for after the statements [r], the last one first: its number in
    the order in which the objects were made. *)
Fixpoint made (r : list stmt) : nat :=
  match r with [] => O | SDepend _ _ _ :: r => made r | _ :: r => Datatypes.S (made r) end.
Fixpoint stands_for (r : list stmt) (x : string) : option nat :=
  match r with
  | [] => None
  | SDef y :: r | SDenorm y _ :: r | SCached y _ :: r => if decide (y = x) then Some (made r) else stands_for r x
  | SDepend y z _ :: r => if decide (y = x) then stands_for r z else stands_for r x
  end.
(** The dependencies declared on an object, the earliest first. *)
Fixpoint declared (r : list stmt) (a : nat) : list D :=
  match r with
  | [] => []
  | SDepend _ z c :: r => declared r a ++ (if decide (stands_for r z = Some a) then [c] else [])
  | _ :: r => declared r a
  end.
Definition attr_of (l : list D) : option (list D) := match l with [] => None | _ => Some l end.
Lemma attr_default l : default [] (attr_of l) = l.
Proof. by destruct l. Qed.
Lemma attr_snoc l c : attr_of (l ++ [c]) = Some (l ++ [c]).
Proof. by destruct l. Qed.
Definition tracks (r : list stmt) (s : scope) : Prop :=
  (∀ x, sc_names s !! x = stands_for r x) ∧ length (sc_heap s) = made r ∧ ∀ a o, sc_heap s !! a = Some o → depend_of o = attr_of (declared r a).
Lemma stands_lt r : ∀ x a, stands_for r x = Some a → (a < made r)%nat.
Proof.
  induction r as [|i r IH]; intros x a H; [done|]. destruct i as [y|y z c|y z|y z]; simpl in *.
  - destruct (decide (y = x)); [injection H as <-; lia|]. apply IH in H. lia.
  - destruct (decide (y = x)); by eapply IH.
  - destruct (decide (y = x)); [injection H as <-; lia|]. apply IH in H. lia.
  - destruct (decide (y = x)); [injection H as <-; lia|]. apply IH in H. lia.
Qed.
Lemma declared_new r a : (made r <= a)%nat → declared r a = [].
Proof.
  induction r as [|i r IH]; intros H; [done|]. destruct i as [y|y z c|y z|y z]; simpl in *; try (apply IH; lia).
  rewrite IH by done. destruct (decide _) as [Hs|]; [|done]. apply stands_lt in Hs. lia.
Qed.
Lemma tracks_alloc r i x o s : (made (i :: r) = Datatypes.S (made r)) → (∀ a, declared (i :: r) a = declared r a) →
  (∀ y, stands_for (i :: r) y = if decide (x = y) then Some (made r) else stands_for r y) → depend_of o = None → tracks r s → tracks (i :: r) (alloc x o s).
Proof.
  intros Hm Hd Hs Ho (T1 & T2 & T3). unfold tracks, alloc. cbn [sc_names sc_heap]. rewrite Hm, app_length. cbn [length]. split; [|split; [lia|]].
  - intros y. rewrite Hs. destruct (decide (x = y)) as [->|Hne]; [by rewrite lookup_insert, T2|]. by rewrite lookup_insert_ne.
  - intros a o' Ha. rewrite Hd. apply lookup_app_Some in Ha as [Ha|[Hl Ha]]; [by apply T3|]. apply list_lookup_singleton_Some in Ha as [Ha <-].
    rewrite Ho, declared_new; [done|lia].
Qed.
Lemma tracks_stmt r i s s' : tracks r s → run_stmt s i = Ok s' → tracks (i :: r) s'.
Proof.
  intros HT H. destruct i as [x|x y c|x y|x y]; simpl in H.
  - injection H as <-. by apply tracks_alloc.
  - unfold lookup_name in H. destruct HT as (T1 & T2 & T3). destruct (sc_names s !! y) as [b|] eqn:Hb; [|done]. injection H as <-. rewrite T1 in Hb.
    unfold tracks. cbn [sc_names sc_heap]. rewrite depend_on_length. split; [|split; [done|]].
    + intros z. simpl. destruct (decide (x = z)) as [->|Hne]; [by rewrite lookup_insert|by rewrite lookup_insert_ne].
    + intros a o Ha. simpl. rewrite Hb. unfold depend_on in Ha. destruct (decide (Some b = Some a)) as [[= ->]|Hne].
      * rewrite list_lookup_alter in Ha. apply fmap_Some in Ha as (o' & Ho' & ->). apply T3 in Ho'. rewrite attr_snoc. rewrite <- (attr_default (declared r a)), <- Ho'. by destruct o'.
      * rewrite app_nil_r. apply T3. by rewrite list_lookup_alter_ne in Ha by congruence.
  - unfold lookup_name in H. destruct (sc_names s !! y) as [b|]; [|done]. injection H as <-. by apply tracks_alloc.
  - unfold lookup_name in H. destruct (sc_names s !! y) as [b|]; [|done]. simpl in H. destruct (sc_heap s !! b ≫= depend_of); [|done]. injection H as <-. by apply tracks_alloc.
Qed.
Lemma tracks_body l : ∀ r s s', tracks r s → run_body l s = Ok s' → tracks (rev l ++ r) s'.
Proof.
  induction l as [|i l IH]; intros r s s' HT H; [by injection H as <-|]. unfold run_body in H. cbn [foldM] in H. destruct (run_stmt s i) as [s1|] eqn:H1; [|done].
  simpl. rewrite <- app_assoc. eapply IH; [|exact H]. by eapply tracks_stmt.
Qed.
Lemma tracks_run l s : run_body l empty_scope = Ok s → tracks (rev l) s.
Proof. intros H. rewrite <- (app_nil_r (rev l)). eapply tracks_body; [|exact H]. split; [intros x; apply lookup_empty|]. split; [done|]. intros a o Ho. simpl in Ho. by rewrite lookup_nil in Ho. Qed.
(** An object stays what it is but for its attribute. *)
Lemma keeps_stmt s i s' a o : run_stmt s i = Ok s' → sc_heap s !! a = Some o → ∃ d, sc_heap s' !! a = Some (set_depend o d).
Proof.
  intros H Ha. assert (HA : ∀ x o', ∃ d, sc_heap (alloc x o' s) !! a = Some (set_depend o d)).
  { intros x o'. exists (depend_of o). unfold alloc. cbn [sc_heap]. rewrite lookup_app_l by by eapply lookup_lt_Some. rewrite Ha. by destruct o. }
  destruct i as [x|x y c|x y|x y]; simpl in H.
  - injection H as <-. apply HA.
  - unfold lookup_name in H. destruct (sc_names s !! y) as [b|]; [|done]. injection H as <-. cbn [sc_heap]. unfold depend_on. destruct (decide (b = a)) as [->|Hne].
    + rewrite list_lookup_alter, Ha. by eexists.
    + rewrite list_lookup_alter_ne, Ha by done. exists (depend_of o). by destruct o.
  - unfold lookup_name in H. destruct (sc_names s !! y) as [b|]; [|done]. injection H as <-. apply HA.
  - unfold lookup_name in H. destruct (sc_names s !! y) as [b|]; [|done]. simpl in H. destruct (sc_heap s !! b ≫= depend_of); [|done]. injection H as <-. apply HA.
Qed.
Lemma keeps_body l : ∀ s s' a o, run_body l s = Ok s' → sc_heap s !! a = Some o → ∃ d, sc_heap s' !! a = Some (set_depend o d).
Proof.
  induction l as [|i l IH]; intros s s' a o H Ha; [injection H as <-; exists (depend_of o); rewrite Ha; by destruct o|].
  unfold run_body in H. cbn [foldM] in H. destruct (run_stmt s i) as [s1|] eqn:H1; [|done]. destruct (keeps_stmt _ _ _ _ _ H1 Ha) as [d Hd].
  destruct (IH _ _ _ _ H Hd) as [d' Hd']. exists d'. rewrite Hd'. by destruct o.
Qed.
Lemma registered_exactly pre x k y post s z : run_body (pre ++ (match k with FDenorm => SDenorm x y | FCached => SCached x y end) :: post) empty_scope = Ok s →
  stands_for (rev (pre ++ (match k with FDenorm => SDenorm x y | FCached => SCached x y end) :: post)) z = Some (made (rev pre)) →
  ∃ f, stands_for (rev pre) y = Some f ∧
    registered s z = Some (match k with FDenorm => declared (rev (pre ++ SDenorm x y :: post)) f | FCached => declared (rev pre) f end).
Proof.
  intros H Hz. set (i := match k with FDenorm => SDenorm x y | FCached => SCached x y end) in *. pose proof (tracks_run _ _ H) as (T1 & T2 & T3).
  rewrite body_app in H. destruct (run_body pre empty_scope) as [s0|] eqn:H0; [|done]. cbn [rbind] in H. destruct (tracks_run _ _ H0) as (S1 & S2 & S3).
  unfold run_body in H. cbn [foldM] in H. destruct (run_stmt s0 i) as [s1|] eqn:H1; [|done]. cbn [rbind] in H. fold (run_body post s1) in H.
  assert (Hm : ∃ f o, stands_for (rev pre) y = Some f ∧ sc_heap s0 !! f = Some o ∧ s1 = alloc x (match k with FDenorm => ODenorm f None | FCached => OCached f (declared (rev pre) f) None end) s0).
  { subst i. destruct k; simpl in H1; unfold lookup_name in H1; rewrite S1 in H1; destruct (stands_for (rev pre) y) as [f|] eqn:Hf; try done; simpl in H1.
    - destruct (sc_heap s0 !! f) as [o|] eqn:Ho; [|apply stands_lt in Hf; rewrite <- S2 in Hf; apply lookup_lt_is_Some_2 in Hf as [? ?]; congruence].
      injection H1 as <-. by exists f, o.
    - destruct (sc_heap s0 !! f) as [o|] eqn:Ho; [|done]. simpl in H1. destruct (depend_of o) as [l|] eqn:Hl; [|done]. injection H1 as <-. exists f, o. split; [done|]. split; [done|].
      rewrite (S3 _ _ Ho) in Hl. destruct (declared (rev pre) f); [done|]. by injection Hl as <-. }
  destruct Hm as (f & o & Hf & Ho & ->). exists f. split; [done|]. unfold registered. rewrite T1, Hz. simpl.
  destruct (keeps_body post _ _ (made (rev pre)) (match k with FDenorm => ODenorm f None | FCached => OCached f (declared (rev pre) f) None end) H) as [d Hd]; [unfold alloc; cbn [sc_heap]; rewrite lookup_app_r, S2, Nat.sub_diag by (rewrite S2; done); reflexivity|].
  rewrite Hd. destruct k; simpl; [|done]. f_equal.
  destruct (keeps_body post _ _ f o H) as [d' Hd']; [unfold alloc; cbn [sc_heap]; rewrite lookup_app_l; [done|]; by eapply lookup_lt_Some|].
  rewrite Hd'. simpl. rewrite (T3 _ _ Hd'). apply attr_default.
Qed.
End deco.
