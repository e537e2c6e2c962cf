(** * Fields declared on an abstract model (fields.py), and the choice of the backend
    (db/__init__.py).
    Django copies the fields of an abstract model for every concrete subclass with
    [copy.deepcopy], and Field.__deepcopy__ copies the attributes of the field
    shallowly: the copy shares the objects the attributes refer to.  Objects are
    numbered here. *)
From Coq Require Import Ascii.
From Verif Require Import Base.
Open Scope nat_scope.
Open Scope list_scope.

Inductive fkind := KAgg | KKey | KCall.
(** [s_model]: attribute model of every denorm object; [s_this]: this_model of every
    dependency object (the lists of dependencies are treated as one object each);
    [s_mgr]: attribute manager of an aggregate denorm; [s_recv]: receivers of
    class_prepared in the order of their registration: denorm, dependencies, sender. *)
Record hst := Hst { s_model : gmap nat string; s_this : gmap nat string; s_mgr : gmap nat string;
  s_recv : list (nat * nat * option string); s_next : nat; s_fields : list (string * (nat * nat)) }.

(** contribute_to_class of the copy of the field in class c.
    AggregateField (144-148): the denorm object of the abstract model is changed.
    CacheKeyField (273-280): a new denorm object with the old dependencies.
    DenormDBField (40-55): a new denorm object with new dependencies. *)
Definition contribute (k : fkind) (c : string) (s : hst) : hst :=
  match k with
  | KAgg => Hst (<[0 := c]> (s_model s)) (s_this s) (s_mgr s) (s_recv s) (s_next s) (s_fields s ++ [(c, (0, 0))])
  | KKey => let d := s_next s in
      Hst (<[d := c]> (s_model s)) (s_this s) (s_mgr s) (s_recv s ++ [(d, 0, None)]) (S d) (s_fields s ++ [(c, (d, 0))])
  | KCall => let d := s_next s in
      Hst (<[d := c]> (s_model s)) (s_this s) (s_mgr s) (s_recv s ++ [(d, d, Some c)]) (S d) (s_fields s ++ [(c, (d, d))])
  end.
(** setup of one receiver: denorms.py:150-157 and 213-220 pass the model on to the
    dependencies (dependencies.py:30-63); AggregateDenorm.setup (312-321) takes the
    manager of its model once it exists.  [avail c]: class c has the manager by now. *)
Definition setup1 (k : fkind) (avail : string -> bool) (c : string) (s : hst) (r : nat * nat * option string) : hst :=
  let '(d, e, sender) := r in
  if match sender with None => true | Some c' => bool_decide (c' = c) end then
    match s_model s !! d with
    | Some m =>
        match k with
        | KAgg => match s_mgr s !! d with
            | Some _ => s
            | None => if avail m then Hst (s_model s) (s_this s) (<[d := m]> (s_mgr s)) (s_recv s) (s_next s) (s_fields s) else s end
        | _ => Hst (s_model s) (<[e := m]> (s_this s)) (s_mgr s) (s_recv s) (s_next s) (s_fields s)
        end
    | None => s end
  else s.
Local Arguments setup1 : simpl never.
Definition prepared (k : fkind) (avail : string -> bool) (c : string) (s : hst) : hst :=
  foldl (setup1 k avail c) s (s_recv s).
(** Class statements: a subclass of the abstract model, or any other model. *)
Inductive cdecl := DSub (c : string) (avail : string -> bool) | DOther (c : string) (avail : string -> bool).
Definition declare (k : fkind) (s : hst) (d : cdecl) : hst :=
  match d with
  | DSub c avail => prepared k avail c (contribute k c s)
  | DOther c avail => prepared k avail c s
  end.
(** After the statement of the abstract model itself (no class_prepared for it). *)
Definition after_abstract (k : fkind) (abs : string) : hst :=
  Hst {[0 := abs]} ∅ ∅ [(0, 0, match k with KCall => Some abs | _ => None end)] 1 [].
Definition declares (k : fkind) (abs : string) (ds : list cdecl) : hst := foldl (declare k) (after_abstract k abs) ds.
Definition subs (ds : list cdecl) : list string := omap (fun d => match d with DSub c _ => Some c | DOther _ _ => None end) ds.
Definition others (ds : list cdecl) : list string := omap (fun d => match d with DSub _ _ => None | DOther c _ => Some c end) ds.

(** Some field leads to triggers that maintain the table of c: get_alldenorms visits the
    fields of all classes; aggregates update [self.model] with the foreign key found
    through [self.manager] (denorms.py:323-520), cache keys update the table of
    [this_model] (dependencies.py:95-216), callbacks mark rows of both. *)
Definition maintained (k : fkind) (s : hst) (c : string) : Prop :=
  exists c' d e, (c', (d, e)) ∈ s_fields s /\
    match k with
    | KAgg => s_model s !! d = Some c /\ s_mgr s !! d = Some c
    | KKey => s_this s !! e = Some c
    | KCall => s_model s !! d = Some c /\ s_this s !! e = Some c
    end.

Lemma setup_frame k avail c s l :
  let s' := foldl (setup1 k avail c) s l in
  s_model s' = s_model s /\ s_recv s' = s_recv s /\ s_next s' = s_next s /\ s_fields s' = s_fields s.
Proof.
  revert s. induction l as [|[[d e] o] l IH]; intros s; csimpl; [done|]. destruct (IH (setup1 k avail c s (d, e, o))) as (-> & -> & -> & ->).
  unfold setup1. destruct (match o with None => true | Some c' => bool_decide (c' = c) end); [|done].
  destruct (s_model s !! d); [|done]. destruct k; [|done|done]. destruct (s_mgr s !! d); [done|]. by destruct (avail s0).
Qed.

Lemma prepared_frame k avail c s : s_model (prepared k avail c s) = s_model s /\ s_recv (prepared k avail c s) = s_recv s /\
  s_next (prepared k avail c s) = s_next s /\ s_fields (prepared k avail c s) = s_fields s.
Proof. apply setup_frame. Qed.
Lemma declare_sub k s c avail : declare k s (DSub c avail) = prepared k avail c (contribute k c s).
Proof. done. Qed.
Lemma declare_other k s c avail : declare k s (DOther c avail) = prepared k avail c s.
Proof. done. Qed.
Local Arguments prepared : simpl never.
Local Arguments declare : simpl never.
Local Arguments contribute : simpl never.

(** ** Aggregates *)
Definition last_sub (abs : string) (l : list string) : string := default abs (last l).
Lemma declares_snoc k abs ds d : declares k abs (ds ++ [d]) = declare k (declares k abs ds) d.
Proof. unfold declares. by rewrite foldl_app. Qed.
Lemma subs_snoc ds d : subs (ds ++ [d]) = subs ds ++ subs [d].
Proof. unfold subs. by rewrite omap_app. Qed.
Lemma last_sub_snoc abs l c : last_sub abs (l ++ [c]) = c.
Proof. unfold last_sub. by rewrite last_snoc. Qed.
Lemma agg_inv abs ds : let s := declares KAgg abs ds in
  s_model s !! 0 = Some (last_sub abs (subs ds)) /\ s_recv s = [(0, 0, None)] /\ (forall c d e, (c, (d, e)) ∈ s_fields s -> d = 0).
Proof.
  induction ds as [|d ds IH] using rev_ind; cbv zeta in *.
  - split; [done|]. split; [done|]. intros ? ? ? H. by apply elem_of_nil in H.
  - rewrite declares_snoc, subs_snoc. destruct IH as (I1 & I2 & I3). set (s := declares KAgg abs ds) in *. destruct d as [c avail|c avail]; [rewrite declare_sub|rewrite declare_other]; csimpl.
    + destruct (prepared_frame KAgg avail c (contribute KAgg c s)) as (-> & -> & _ & ->). unfold contribute; csimpl. rewrite last_sub_snoc.
      split; [apply lookup_insert|]. split; [done|]. intros c' d e H. apply elem_of_app in H as [H|H]; [eauto|]. apply elem_of_list_singleton in H. congruence.
    + destruct (prepared_frame KAgg avail c s) as (-> & -> & _ & ->). rewrite app_nil_r. done.
Qed.
Lemma agg_maintained abs ds c : maintained KAgg (declares KAgg abs ds) c -> c = last_sub abs (subs ds).
Proof. destruct (agg_inv abs ds) as (I1 & _ & I3). intros (c' & d & e & Hf & Hm & _). rewrite (I3 _ _ _ Hf) in Hm. congruence. Qed.

(** ** Cache keys *)
Lemma key_this abs ds : let s := declares KKey abs ds in
  (exists l d, s_recv s = l ++ [(d, 0, None)] /\ s_model s !! d = Some (last_sub abs (subs ds)) /\ d < s_next s /\
     (forall r, r ∈ s_recv s -> exists d', r = (d', 0, None) /\ d' < s_next s)) /\
  (ds <> [] -> s_this s !! 0 = Some (last_sub abs (subs ds))) /\ (forall c d e, (c, (d, e)) ∈ s_fields s -> e = 0).
Proof.
  assert (Hset : forall avail c l s d m, (forall r, r ∈ l -> exists d', r = (d', 0, None)) -> s_model s !! d = Some m ->
    s_this (foldl (setup1 KKey avail c) s (l ++ [(d, 0, None)])) !! 0 = Some m).
  { intros avail c l s d m Hl Hd. rewrite foldl_app. destruct (setup_frame KKey avail c s l) as (Hm & _). revert Hm. generalize (foldl (setup1 KKey avail c) s l). intros s1 Hm. cbn [foldl]. unfold setup1. rewrite Hm, Hd. csimpl. apply lookup_insert. }
  induction ds as [|d ds IH] using rev_ind; cbv zeta in *.
  - split; [|split; [done|intros ? ? ? H; by apply elem_of_nil in H]]. exists [], 0. split; [done|]. split; [done|]. split; [csimpl; lia|].
    intros r Hr. apply elem_of_list_singleton in Hr as ->. exists 0. split; [done|csimpl; lia].
  - rewrite declares_snoc, subs_snoc. destruct IH as ((l & d0 & R1 & R2 & R3 & R4) & _ & I3). set (s := declares KKey abs ds) in *. destruct d as [c avail|c avail]; [rewrite declare_sub|rewrite declare_other]; csimpl.
    + destruct (prepared_frame KKey avail c (contribute KKey c s)) as (-> & -> & -> & ->). rewrite last_sub_snoc. unfold contribute; csimpl. split; [|split].
      * exists (s_recv s), (s_next s). split; [done|]. split; [apply lookup_insert|]. split; [lia|].
        intros r Hr. apply elem_of_app in Hr as [Hr|Hr]; [destruct (R4 _ Hr) as (d' & -> & Hd'); exists d'; split; [done|lia]|].
        apply elem_of_list_singleton in Hr as ->. eexists. split; [done|lia].
      * intros _. unfold prepared, contribute; csimpl; rewrite (Hset avail c (s_recv s) _ (s_next s) c); [done| |].
        -- intros r Hr. destruct (R4 _ Hr) as (d' & -> & _). eauto.
        -- csimpl. apply lookup_insert.
      * intros c' d e H. apply elem_of_app in H as [H|H]; [eauto|]. apply elem_of_list_singleton in H. congruence.
    + destruct (prepared_frame KKey avail c s) as (-> & -> & -> & ->). rewrite app_nil_r. split; [|split; [|exact I3]].
      * exists l, d0. eauto.
      * intros _. unfold prepared. rewrite R1. apply Hset; [|done]. intros r Hr. destruct (R4 r) as (d' & -> & _); [rewrite R1; set_solver|]. eauto.
Qed.
Lemma key_maintained abs ds c : maintained KKey (declares KKey abs ds) c <-> subs ds <> [] /\ c = last_sub abs (subs ds).
Proof.
  destruct (key_this abs ds) as (_ & H2 & H3).
  assert (Hf : subs ds = (s_fields (declares KKey abs ds)).*1).
  { clear. induction ds as [|d ds IH] using rev_ind; [done|]. rewrite declares_snoc, subs_snoc. destruct d as [c avail|c avail]; [rewrite declare_sub|rewrite declare_other]; csimpl.
    - destruct (prepared_frame KKey avail c (contribute KKey c (declares KKey abs ds))) as (_ & _ & _ & ->). unfold contribute; csimpl. rewrite fmap_app, IH. done.
    - destruct (prepared_frame KKey avail c (declares KKey abs ds)) as (_ & _ & _ & ->). rewrite app_nil_r. done. }
  split.
  - intros (c' & d & e & Hin & Ht). assert (Hne : subs ds <> []).
    { rewrite Hf. intros E. apply fmap_nil_inv in E. rewrite E in Hin. by apply elem_of_nil in Hin. }
    split; [done|]. rewrite (H3 _ _ _ Hin) in Ht. rewrite H2 in Ht; [congruence|]. intros ->. done.
  - intros [Hne ->]. rewrite Hf in Hne. destruct (s_fields (declares KKey abs ds)) as [|[c' [d e]] l] eqn:E; [done|].
    exists c', d, e. rewrite E. split; [left|]. rewrite (H3 c' d e) by (left). apply H2. intros ->. done.
Qed.

(** ** Callbacks *)
Lemma call_inv abs ds : NoDup (subs ds) -> abs ∉ subs ds -> let s := declares KCall abs ds in
  (forall d e o, (d, e, o) ∈ s_recv s -> e = d /\ d < s_next s /\ exists m, s_model s !! d = Some m /\ o = Some m) /\
  (forall c, c ∈ subs ds <-> exists d, (c, (d, d)) ∈ s_fields s) /\
  (forall c d e, (c, (d, e)) ∈ s_fields s -> e = d /\ s_model s !! d = Some c /\ s_this s !! d = Some c) .
Proof.
  assert (Hset : forall avail c l s, (forall d e o, (d, e, o) ∈ l -> e = d /\ exists m, s_model s !! d = Some m /\ o = Some m) ->
    forall d, s_this (foldl (setup1 KCall avail c) s l) !! d = if bool_decide ((d, d, Some c) ∈ l) then Some c else s_this s !! d).
  { intros avail c l. induction l as [|[[d0 e0] o0] l IH]; intros s Hl d; cbn [foldl]; [rewrite bool_decide_false; [done|apply not_elem_of_nil]|].
    destruct (Hl d0 e0 o0) as (-> & m & Hm & ->); [left|]. rewrite bool_decide_decide.
    assert (Hfr : s_model (setup1 KCall avail c s (d0, d0, Some m)) = s_model s) by (destruct (setup_frame KCall avail c s [(d0, d0, Some m)]) as (H & _); exact H).
    rewrite IH by (rewrite Hfr; intros; apply Hl; by right). case_bool_decide as Hin.
    - rewrite decide_True by (by right). done.
    - unfold setup1. rewrite Hm. case_bool_decide as Hc.
      + subst. csimpl. destruct (decide (d = d0)) as [-> |Hd].
        * rewrite lookup_insert, decide_True by left. done.
        * rewrite lookup_insert_ne, decide_False; [done| |done]. intros H. apply elem_of_cons in H as [H|H]; [congruence|done].
      + rewrite decide_False; [done|]. intros H. apply elem_of_cons in H as [H|H]; [congruence|done]. }
  induction ds as [|d ds IH] using rev_ind; cbv zeta in *; intros Hnd Hab.
  - split; [|split].
    + intros d e o H. apply elem_of_list_singleton in H. simplify_eq. split; [done|]. split; [csimpl; lia|]. exists abs. done.
    + intros c. split; [intros H; by apply elem_of_nil in H|]. intros (d & H). by apply elem_of_nil in H.
    + intros ? ? ? H. by apply elem_of_nil in H.
  - rewrite declares_snoc. rewrite subs_snoc in Hnd, Hab. rewrite subs_snoc. apply NoDup_app in Hnd as (Hnd & Hdis & _).
    destruct IH as (R & F & T); [done|set_solver|]. set (s := declares KCall abs ds) in *. destruct d as [c avail|c avail]; [rewrite declare_sub|rewrite declare_other]; csimpl in *.
    + set (s1 := contribute KCall c s).
      assert (R1 : forall d e o, (d, e, o) ∈ s_recv s1 -> e = d /\ d < s_next s1 /\ exists m, s_model s1 !! d = Some m /\ o = Some m).
      { intros d e o H. subst s1; unfold contribute in *; csimpl in *. apply elem_of_app in H as [H|H].
        - destruct (R _ _ _ H) as (-> & Hlt & m & Hm & ->). split; [done|]. split; [lia|]. exists m. rewrite lookup_insert_ne by lia. done.
        - apply elem_of_list_singleton in H. simplify_eq. split; [done|]. split; [lia|]. exists c. by rewrite lookup_insert. }
      destruct (prepared_frame KCall avail c s1) as (E1 & E2 & E3 & E4). rewrite E1, E2, E3, E4. split; [exact R1|]. split.
      * intros c'. subst s1; unfold contribute in *; csimpl. rewrite elem_of_app, F. split.
        -- intros [(d & Hd)|Hc]; [exists d; set_solver|]. apply elem_of_list_singleton in Hc as ->. exists (s_next s). set_solver.
        -- intros (d & Hd). apply elem_of_app in Hd as [Hd|Hd]; [eauto|]. apply elem_of_list_singleton in Hd. simplify_eq. right. set_solver.
      * intros c' d e Hd. unfold prepared. rewrite Hset by (intros d' e' o' H'; destruct (R1 _ _ _ H') as (-> & _ & ?); eauto).
        subst s1; unfold contribute in *; csimpl in *. apply elem_of_app in Hd as [Hd|Hd].
        -- destruct (T _ _ _ Hd) as (-> & Hm & Ht). split; [done|].
           assert (Hdn : d <> s_next s).
           { intros ->. assert (Hc' : c' ∈ subs ds) by (apply F; eauto).
             assert (Hlt : forall d m, s_model s !! d = Some m -> d < s_next s).
             { clear. subst s. induction ds as [|x ds IH] using rev_ind; [intros d m H; unfold declares, after_abstract in *; csimpl in *; apply lookup_singleton_Some in H as [<- _]; lia|].
               rewrite declares_snoc. destruct x as [c avail|c avail]; [rewrite declare_sub|rewrite declare_other].
               - destruct (prepared_frame KCall avail c (contribute KCall c (declares KCall abs ds))) as (-> & _ & -> & _).
                 unfold contribute; csimpl. intros d m H. apply lookup_insert_Some in H as [[<- _]|[_ H]]; [lia|]. apply IH in H. lia.
               - destruct (prepared_frame KCall avail c (declares KCall abs ds)) as (-> & _ & -> & _). exact IH. }
             apply Hlt in Hm. lia. }
           rewrite lookup_insert_ne by done. split; [done|]. case_bool_decide as Hin; [|done].
           apply elem_of_app in Hin as [Hin|Hin]; [|apply elem_of_list_singleton in Hin; simplify_eq].
           destruct (R _ _ _ Hin) as (_ & _ & m & Hm' & Hc). congruence.
        -- apply elem_of_list_singleton in Hd. simplify_eq. split; [done|]. rewrite lookup_insert. split; [done|].
           rewrite bool_decide_true; [done|]. set_solver.
    + destruct (prepared_frame KCall avail c s) as (E1 & E2 & E3 & E4). rewrite E1, E2, E3, E4. split; [exact R|]. split; [by rewrite app_nil_r|].
      intros c' d e Hd. destruct (T _ _ _ Hd) as (-> & Hm & Ht). split; [done|]. split; [done|].
      unfold prepared. rewrite Hset by (intros d' e' o' H'; destruct (R _ _ _ H') as (-> & _ & ?); eauto).
      case_bool_decide as Hin; [|done]. destruct (R _ _ _ Hin) as (_ & _ & m & Hm' & Hc). congruence.
Qed.
Lemma call_maintained abs ds c : NoDup (subs ds) -> abs ∉ subs ds -> maintained KCall (declares KCall abs ds) c <-> c ∈ subs ds.
Proof.
  intros Hnd Hab. destruct (call_inv abs ds Hnd Hab) as (_ & F & T). split.
  - intros (c' & d & e & Hf & Hm & _). destruct (T _ _ _ Hf) as (-> & Hm' & _). apply F. exists d. congruence.
  - intros Hc. apply F in Hc as (d & Hd). destruct (T _ _ _ Hd) as (_ & Hm & Ht). exists c, d, d. eauto.
Qed.

(** ** The backend module, db/__init__.py:18-32 *)
(** [engine.rsplit(".", 1)[1]]; [None]: IndexError. *)
Fixpoint rsplit1 (s : string) : option string :=
  match s with
  | EmptyString => None
  | String a s' => match rsplit1 s' with Some t => Some t | None => if ascii_dec a "."%char then Some s' else None end
  end.
Definition backend_for_dbname (n : string) : string :=
  "denorm.db." +:+ (if bool_decide (n = "postgis") then "postgresql" else if bool_decide (n = "postgresql_psycopg2") then "postgresql" else n).
Definition backend_path (denorm_backend : option string) (engine : string) : option string :=
  match denorm_backend with Some b => Some b | None => n ← rsplit1 engine; Some (backend_for_dbname n) end.
(** Spec: no dot inside. *)
Definition undotted (s : string) : Prop := forall p q, s <> p +:+ String "."%char q.
Local Arguments String.append : simpl nomatch.
Lemma rsplit1_none s : rsplit1 s = None <-> undotted s.
Proof.
  unfold undotted. induction s as [|a s IH]; csimpl.
  - split; [|done]. intros _ p q. destruct p; done.
  - destruct (rsplit1 s) eqn:E.
    + split; [done|]. intros H. destruct IH as [_ IH]. discriminate IH. intros p q ->. apply (H (String a p) q). done.
    + destruct (ascii_dec a ".") as [-> |Ha].
      * split; [done|]. intros H. exfalso. by apply (H "" s).
      * split; [|done]. intros _ p q H. destruct p as [|b p]; cbn in H; [injection H as -> _; done|].
        injection H as -> H. by apply (proj1 IH eq_refl p q).
Qed.
Lemma rsplit1_some s t : rsplit1 s = Some t <-> exists p, s = p +:+ String "."%char t /\ undotted t.
Proof.
  revert t. induction s as [|a s IH]; intros t; csimpl.
  - split; [done|]. intros (p & H & _). destruct p; done.
  - destruct (rsplit1 s) as [t'|] eqn:E.
    + split.
      * intros [= <-]. destruct (proj1 (IH t') eq_refl) as (p & -> & Hu). exists (String a p). done.
      * intros (p & H & Hu). destruct p as [|b p]; cbn in H; injection H as -> H.
        -- subst. apply rsplit1_none in Hu. congruence.
        -- f_equal. assert (Some t' = Some t) as H1 by (apply IH; eauto). congruence.
    + destruct (ascii_dec a ".") as [-> |Ha].
      * split; [intros [= <-]; exists ""; split; [done|by apply rsplit1_none]|]. intros (p & H & Hu). destruct p as [|b p]; cbn in H; injection H as H1; [congruence|].
        exfalso. assert (Some t = None) as H2 by (symmetry; apply IH; eauto). done.
      * split; [done|]. intros (p & H & Hu). destruct p as [|b p]; cbn in H; injection H as H1; [congruence|].
        assert (None = Some t) as H2 by (apply IH; eauto). done.
Qed.
