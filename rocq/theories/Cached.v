(** * @cached fields: CacheWrapper, CachedField (fields.py:297-328).
    Any number of clients and rows.  Assigning the key column of an instance (on load, on
    save, on creation) runs CacheWrapper.__set__, which is modelled in its single steps:
    look the key up, call the function, store the result.  Evictions and expiry
    (30 days, fields.py:306) happen at any time. *)
From Verif Require Import Base.

(** Values the function can return; [CacheWrapper.__set__] recomputes when the cached
    value is falsy (fields.py:304). *)
Definition val := Z.
Definition falsy (v : val) : bool := bool_decide (v = 0%Z).
(** The default of the key column (fields.py:260), also the key of an unsaved instance. *)
Definition default_key : Z := 0%Z.

(** What a client is doing; the first component is the row, [None] for an unsaved instance. *)
Inductive task :=
  | TRead (r : option Z) (k : Z)              (* the key was read, lookup is next *)
  | TMiss (r : option Z) (k : Z)              (* nothing (or a falsy value) found, call func *)
  | TPut (r : option Z) (k : Z) (v : val)     (* func returned v, store it *)
  | TDone (r : option Z) (k : Z) (v : val)    (* the attribute of the instance is v *)
  | TSave (r k : Z).                          (* pre_save has drawn k; the UPDATE is next *)

Record cst := Cst {
  c_rows : gmap Z Z;          (* key column of every row *)
  c_cur : gmap Z val;         (* what the function returns for the row now *)
  c_cache : gmap Z val;       (* the cache, by key ('CachedField_%s', fields.py:302) *)
  c_used : gset Z;            (* keys drawn so far *)
  c_tasks : gmap nat task;    (* clients *)
  c_log : list (option Z * Z * val)  (* calls of func: row, key being looked up, result *)
}.

Inductive cev :=
  | CStart (c : nat) (r : Z)        (* a client loads row r *)
  | CNew (c : nat)                  (* a client creates an unsaved instance *)
  | CLook (c : nat)                 (* cache.get *)
  | CCall (c : nat) (v : val)       (* func(obj); v is only chosen freely for unsaved instances *)
  | CPut (c : nat)                  (* cache.set *)
  | CRedraw (r k : Z) (v : val)     (* a trigger redraws the key; from now on the function returns v *)
  | CSaveDraw (c : nat) (r k : Z) (v : val)  (* pre_save: draw k, call the function (v), store it *)
  | CSaveWrite (c : nat) (v : val)  (* the UPDATE or INSERT of that save; the function returns v afterwards *)
  | CEvict (k : Z).                 (* the cache drops a key *)

Definition cstep (s : cst) (e : cev) : option cst :=
  match e with
  | CStart c r => k ← c_rows s !! r; Some (Cst (c_rows s) (c_cur s) (c_cache s) (c_used s) (<[c := TRead (Some r) k]> (c_tasks s)) (c_log s))
  | CNew c => Some (Cst (c_rows s) (c_cur s) (c_cache s) (c_used s) (<[c := TRead None default_key]> (c_tasks s)) (c_log s))
  | CLook c =>
      match c_tasks s !! c with
      | Some (TRead r k) =>
          let t := match c_cache s !! k with Some v => if falsy v then TMiss r k else TDone r k v | None => TMiss r k end in
          Some (Cst (c_rows s) (c_cur s) (c_cache s) (c_used s) (<[c := t]> (c_tasks s)) (c_log s))
      | _ => None end
  | CCall c v =>
      match c_tasks s !! c with
      | Some (TMiss (Some r) k) =>
          w ← c_cur s !! r; Some (Cst (c_rows s) (c_cur s) (c_cache s) (c_used s) (<[c := TPut (Some r) k w]> (c_tasks s)) ((Some r, k, w) :: c_log s))
      | Some (TMiss None k) => Some (Cst (c_rows s) (c_cur s) (c_cache s) (c_used s) (<[c := TPut None k v]> (c_tasks s)) ((None, k, v) :: c_log s))
      | _ => None end
  | CPut c =>
      match c_tasks s !! c with
      | Some (TPut r k v) => Some (Cst (c_rows s) (c_cur s) (<[k := v]> (c_cache s)) (c_used s) (<[c := TDone r k v]> (c_tasks s)) (c_log s))
      | _ => None end
  | CRedraw r k v =>
      if bool_decide (k ∈ c_used s) then None else
      match c_rows s !! r with
      | Some _ => Some (Cst (<[r := k]> (c_rows s)) (<[r := v]> (c_cur s)) (c_cache s) ({[k]} ∪ c_used s) (c_tasks s) (c_log s))
      | None => None end
  | CSaveDraw c r k v =>
      if bool_decide (k ∈ c_used s) then None else
      Some (Cst (c_rows s) (c_cur s) (<[k := v]> (c_cache s)) ({[k]} ∪ c_used s) (<[c := TSave r k]> (c_tasks s)) ((Some r, k, v) :: c_log s))
  | CSaveWrite c v =>
      match c_tasks s !! c with
      | Some (TSave r k) => Some (Cst (<[r := k]> (c_rows s)) (<[r := v]> (c_cur s)) (c_cache s) (c_used s) (delete c (c_tasks s)) (c_log s))
      | _ => None end
  | CEvict k => Some (Cst (c_rows s) (c_cur s) (delete k (c_cache s)) (c_used s) (c_tasks s) (c_log s))
  end.
Fixpoint crun (s : cst) (es : list cev) : option cst :=
  match es with [] => Some s | e :: es => s ← cstep s e; crun s es end.

(** Spec: the start of a history.  Keys of different rows differ and none is the
    default; the cache and the clients hold nothing yet. *)
Definition cstart (s : cst) : Prop :=
  (forall r r' k, c_rows s !! r = Some k -> c_rows s !! r' = Some k -> r = r') /\
  (forall r k, c_rows s !! r = Some k -> k ∈ c_used s /\ k <> default_key) /\
  default_key ∈ c_used s /\ c_cache s = ∅ /\ c_tasks s = ∅ /\ c_log s = [].

(** Invariant: a key has at most one row in its whole history, and whatever is cached or
    about to be cached under it was computed for that row under that key. *)
Definition t_row (t : task) : option (option Z * Z) :=
  match t with TRead r k | TMiss r k | TPut r k _ | TDone r k _ => Some (r, k) | TSave r k => Some (Some r, k) end.
Definition owned (o : Z -> option Z) (r : option Z) (k : Z) : Prop :=
  match r with Some r => o k = Some r /\ k <> default_key | None => k = default_key end.
Definition cinv (o : Z -> option Z) (s : cst) : Prop :=
  default_key ∈ c_used s /\
  (forall k, k ∉ c_used s -> o k = None /\ c_cache s !! k = None) /\
  (forall r k, c_rows s !! r = Some k -> owned o (Some r) k) /\
  (forall c t r k, c_tasks s !! c = Some t -> t_row t = Some (r, k) -> owned o r k) /\
  (forall r k v, (r, k, v) ∈ c_log s -> owned o r k) /\
  (forall k v, c_cache s !! k = Some v -> exists r, (r, k, v) ∈ c_log s) /\
  (forall c r k v, c_tasks s !! c = Some (TPut r k v) \/ c_tasks s !! c = Some (TDone r k v) -> (r, k, v) ∈ c_log s).

Lemma owned_inj o r r' k : owned o r k -> owned o r' k -> r = r'.
Proof. destruct r, r'; simpl; intros; destruct_and?; simplify_eq; auto; done. Qed.
Lemma owned_upd o k0 r0 r k : o k0 = None -> owned o r k -> owned (fun k => if decide (k = k0) then Some r0 else o k) r k.
Proof. destruct r as [r|]; simpl; [|done]. intros H0 [H1 H2]. case_decide; [congruence|done]. Qed.

Lemma cinv_start s : cstart s -> cinv (fun k => match filter (fun p => snd p = k) (map_to_list (c_rows s)) with p :: _ => Some (fst p) | [] => None end) s.
Proof.
  intros (H1 & H2 & H3 & H4 & H5 & H6). destruct s as [rows cur cache used tasks lg]. csimpl in *. subst.
  assert (Ho : forall r k, rows !! r = Some k -> match filter (fun p => snd p = k) (map_to_list rows) with p :: _ => Some (fst p) | [] => None end = Some r).
  { intros r k Hr. destruct (filter _ _) as [|[r' k'] l] eqn:E.
    - exfalso. assert (Hin : (r, k) ∈ filter (fun p : Z * Z => snd p = k) (map_to_list rows)) by (apply elem_of_list_filter; split; [done|by apply elem_of_map_to_list]).
      rewrite E in Hin. set_solver.
    - assert (Hin : (r', k') ∈ filter (fun p : Z * Z => snd p = k) (map_to_list rows)) by (rewrite E; set_solver).
      apply elem_of_list_filter in Hin as [Hk Hin]. csimpl in *. subst. apply elem_of_map_to_list in Hin. f_equal. eauto. }
  repeat split; csimpl; try set_solver.
  - destruct (filter _ _) as [|[r' k'] l] eqn:E; [done|exfalso].
    assert (Hin : (r', k') ∈ filter (fun p : Z * Z => snd p = k) (map_to_list rows)) by (rewrite E; set_solver).
    apply elem_of_list_filter in Hin as [Hk Hin]. csimpl in *. subst. apply elem_of_map_to_list in Hin. apply H2 in Hin. tauto.
Qed.

Ltac cinv_tac := repeat match goal with
  | H : _ ∈ _ :: _ |- _ => apply elem_of_cons in H as [H|H]; simplify_eq
  | H : <[_ := _]> _ !! _ = Some _ |- _ => apply lookup_insert_Some in H as [[? ?]|[? ?]]; simplify_eq; csimpl in *; simplify_eq
  | H : delete _ _ !! _ = Some _ |- _ => apply lookup_delete_Some in H as [? ?]; simplify_eq
  end.

Local Arguments owned : simpl never.
Lemma cstep_inv o s e s' : cinv o s -> cstep s e = Some s' -> exists o', cinv o' s' /\ (forall k r, o k = Some r -> o' k = Some r).
Proof.
  intros (I0 & I1 & I2 & I3 & I4 & I5 & I6) H. destruct s as [rows cur cache used tasks lg]. csimpl in *.
  destruct e as [c r|c|c|c v|c|r k v|c r k v|c v|k]; csimpl in *.
  - destruct (rows !! r) as [k|] eqn:Hr; csimpl in *; [|done]. injection H as <-. exists o. split; [|done].
    split_and!; csimpl; [done..| |done|done|].
    + intros c' t r' k' Ht Htr. cinv_tac; eauto.
    + intros c' r' k' v' [Ht|Ht]; cinv_tac; eauto.
  - injection H as <-. exists o. split; [|done]. split_and!; csimpl; [done..| |done|done|].
    + intros c' t r' k' Ht Htr. cinv_tac; eauto. done.
    + intros c' r' k' v' [Ht|Ht]; cinv_tac; eauto.
  - destruct (tasks !! c) as [[r k|r k|r k v|r k v|r k]|] eqn:Hc; try done.
    injection H as <-. exists o. split; [|done].
    assert (Hk := I3 _ _ _ _ Hc eq_refl). split_and!; csimpl; [done..| |done|done|].
    + intros c' t r' k' Ht Htr. cinv_tac; eauto. destruct (cache !! k) as [v|] eqn:E; [destruct (falsy v)|]; csimpl in *; simplify_eq; done.
    + intros c' r' k' v' [Ht|Ht]; cinv_tac; eauto; destruct (cache !! k) as [v|] eqn:E; try destruct (falsy v); simplify_eq; eauto.
      destruct (I5 _ _ E) as [r2 H2]. assert (Hr2 := I4 _ _ _ H2). rewrite (owned_inj _ _ _ _ Hk Hr2). done.
  - destruct (tasks !! c) as [[r k|r k|r k w|r k w|r k]|] eqn:Hc; try done. assert (Hk := I3 _ _ _ _ Hc eq_refl).
    assert (exists w, s' = Cst rows cur cache used (<[c := TPut r k w]> tasks) ((r, k, w) :: lg)) as [w ->].
    { destruct r as [r|]; [destruct (cur !! r) as [w|]; csimpl in *; [|done]|]; injection H as <-; eauto. }
    exists o. split; [|done]. split_and!; csimpl; [done..| | | |].
    + intros c' t r' k' Ht Htr. cinv_tac; eauto.
    + intros r' k' v' Hl. cinv_tac; eauto.
    + intros k' v' Hl. destruct (I5 _ _ Hl) as [r2 H2]. exists r2. by right.
    + intros c' r' k' v' [Ht|Ht]; cinv_tac; try (by left); right; eauto.
  - destruct (tasks !! c) as [[r k|r k|r k w|r k w|r k]|] eqn:Hc; try done. injection H as <-. assert (Hk := I3 _ _ _ _ Hc eq_refl).
    assert (Hl := I6 c r k w (or_introl Hc)).
    exists o. split; [|done]. split_and!; csimpl; [done| |done| |done| |].
    + intros k0 Hk0. destruct (I1 _ Hk0) as [Ho Hca]. split; [done|]. apply lookup_insert_None. split; [done|]. intros ->.
      destruct r as [r|]; csimpl in *; [destruct Hk as [Hk _]; congruence|unfold owned in Hk; subst; done].
    + intros c' t r' k' Ht Htr. cinv_tac; eauto.
    + intros k' v' Ht. cinv_tac; eauto.
    + intros c' r' k' v' [Ht|Ht]; cinv_tac; eauto.
  - case_bool_decide as Hu; [done|]. destruct (rows !! r) as [k0|] eqn:Hr; [|done]. injection H as <-.
    destruct (I1 k Hu) as [Ho Hca]. assert (Hk0 : k <> default_key) by (intros ->; done).
    exists (fun k' => if decide (k' = k) then Some r else o k'). split.
    + split_and!; csimpl.
      * set_solver.
      * intros k' Hk'. rewrite decide_False by set_solver. apply I1. set_solver.
      * intros r' k' Hr'. cinv_tac; [split; [by rewrite decide_True|done]|]. apply (owned_upd o k r (Some r')); eauto.
      * intros. apply owned_upd; eauto.
      * intros. apply owned_upd; eauto.
      * eauto.
      * eauto.
    + intros k' r' Hk'. case_decide; [congruence|done].
  - case_bool_decide as Hu; [done|]. injection H as <-.
    destruct (I1 k Hu) as [Ho Hca]. assert (Hk0 : k <> default_key) by (intros ->; done).
    exists (fun k' => if decide (k' = k) then Some r else o k'). split.
    + assert (Hown : owned (fun k' => if decide (k' = k) then Some r else o k') (Some r) k) by (split; [by rewrite decide_True|done]).
      split_and!; csimpl.
      * set_solver.
      * intros k' Hk'. rewrite decide_False by set_solver. destruct (I1 k') as [? ?]; [set_solver|]. split; [done|]. apply lookup_insert_None. split; [done|set_solver].
      * intros r' k' Hr'. apply (owned_upd o k r (Some r')); eauto.
      * intros c' t r' k' Ht Htr. cinv_tac; [exact Hown|]. apply owned_upd; eauto.
      * intros r' k' v' Hl. cinv_tac; [exact Hown|]. apply owned_upd; eauto.
      * intros k' v' Hl. apply lookup_insert_Some in Hl as [[<- <-]|[_ Hl]]; [exists (Some r); by left|]. destruct (I5 _ _ Hl) as [r2 H2]. exists r2. by right.
      * intros c' r' k' v' [Ht|Ht]; cinv_tac; right; eauto.
    + intros k' r' Hk'. case_decide; [congruence|done].
  - destruct (tasks !! c) as [[r k|r k|r k w|r k w|r k]|] eqn:Hc; try done. injection H as <-. assert (Hk := I3 _ _ _ _ Hc eq_refl).
    exists o. split; [|done]. split_and!; csimpl; [done..| | |done|done|].
    + intros r' k' Hr'. cinv_tac; [exact Hk|eauto].
    + intros c' t r' k' Ht Htr. cinv_tac. eauto.
    + intros c' r' k' v' [Ht|Ht]; cinv_tac; eauto.
  - injection H as <-. exists o. split; [|done]. split_and!; csimpl; [done| |done..| |done].
    + intros k' Hk'. destruct (I1 k' Hk') as [? ?]. split; [done|]. apply lookup_delete_None. by right.
    + intros k' v' Hl. cinv_tac. eauto.
Qed.
Lemma crun_inv es : forall o s s', cinv o s -> crun s es = Some s' -> exists o', cinv o' s' /\ (forall k r, o k = Some r -> o' k = Some r).
Proof.
  induction es as [|e es IH]; intros o s s' Hi H; csimpl in *; [simplify_eq; eauto|].
  destruct (cstep s e) as [s1|] eqn:E; csimpl in *; [|done]. destruct (cstep_inv _ _ _ _ Hi E) as (o1 & H1 & G1).
  destruct (IH _ _ _ H1 H) as (o2 & H2 & G2). exists o2. eauto.
Qed.

(** ** Being up to date *)
(** The key of a row is redrawn whenever the function would return something else for
    it (C35); saves are atomic: no other client runs between pre_save and the UPDATE. *)
Definition sync_ev (s : cst) (e : cev) : Prop :=
  match e with CSaveDraw _ _ _ _ | CSaveWrite _ _ => False | _ => True end.
Inductive sync_run : cst -> cst -> Prop :=
  | sr_nil s : sync_run s s
  | sr_ev s e s1 s' : sync_ev s e -> cstep s e = Some s1 -> sync_run s1 s' -> sync_run s s'
  | sr_save s c r k v s1 s2 s' : cstep s (CSaveDraw c r k v) = Some s1 -> cstep s1 (CSaveWrite c v) = Some s2 -> sync_run s2 s' -> sync_run s s'.
Definition cfresh (s : cst) : Prop :=
  forall r k v, c_rows s !! r = Some k -> (Some r, k, v) ∈ c_log s -> c_cur s !! r = Some v.

Lemma sync_fresh s s' : sync_run s s' -> forall o, cinv o s -> cfresh s -> exists o', cinv o' s' /\ cfresh s'.
Proof.
  induction 1 as [s|s e s1 s' He Hs Hr IH|s c r k v s1 s2 s' H1 H2 Hr IH]; intros o Hi Hf; [eauto| |].
  - destruct (cstep_inv _ _ _ _ Hi Hs) as (o1 & Hi1 & _). apply (IH o1 Hi1). clear IH Hr.
    destruct Hi as (I0 & I1 & I2 & I3 & I4 & I5 & I6).
    destruct s as [rows cur cache used tasks lg]. unfold cfresh in *. csimpl in *.
    destruct e as [c r|c|c|c v|c|r k v|c r k v|c v|k]; csimpl in *; try done.
    + destruct (rows !! r) as [k|]; csimpl in *; [|done]. injection Hs as <-. done.
    + injection Hs as <-. done.
    + destruct (tasks !! c) as [[]|]; try done. injection Hs as <-. done.
    + destruct (tasks !! c) as [[r k|[r|] k|r k w|r k w|r k]|] eqn:Hc; try done.
      * destruct (cur !! r) as [w|] eqn:Hw; csimpl in *; [|done]. injection Hs as <-. csimpl.
        intros r' k' v' Hr' Hl. cinv_tac; eauto.
      * injection Hs as <-. csimpl. intros r' k' v' Hr' Hl. cinv_tac; eauto.
    + destruct (tasks !! c) as [[]|]; try done. injection Hs as <-. done.
    + case_bool_decide as Hu; [done|]. destruct (rows !! r); [|done]. injection Hs as <-. csimpl.
      intros r' k' v' Hr' Hl. cinv_tac.
      * exfalso. destruct (I4 _ _ _ Hl) as [Ho _]. destruct (I1 k' Hu). congruence.
      * rewrite lookup_insert_ne by done. eauto.
    + injection Hs as <-. done.
  - destruct (cstep_inv _ _ _ _ Hi H1) as (o1 & Hi1 & _). destruct (cstep_inv _ _ _ _ Hi1 H2) as (o2 & Hi2 & _).
    apply (IH o2 Hi2). clear IH Hr Hi1 Hi2. destruct Hi as (I0 & I1 & I2 & I3 & I4 & I5 & I6).
    destruct s as [rows cur cache used tasks lg]. unfold cfresh in *. csimpl in *. case_bool_decide as Hu; [done|].
    injection H1 as <-. csimpl in *. rewrite lookup_insert in H2. injection H2 as <-. csimpl.
    intros r' k' v' Hr' Hl. destruct (decide (r' = r)) as [->|Hne].
    + rewrite lookup_insert in Hr'. injection Hr' as <-. rewrite lookup_insert. apply elem_of_cons in Hl as [Hl|Hl]; [by simplify_eq|].
      exfalso. destruct (I4 _ _ _ Hl) as [Ho _]. destruct (I1 k Hu). congruence.
    + rewrite lookup_insert_ne in Hr' by done. rewrite lookup_insert_ne by done. apply elem_of_cons in Hl as [Hl|Hl]; [simplify_eq|eauto].
Qed.

Lemma cstep_log s e s' : cstep s e = Some s' -> exists l, c_log s' = l ++ c_log s.
Proof.
  destruct s as [rows cur cache used tasks lg]. destruct e as [c r|c|c|c v|c|r k v|c r k v|c v|k]; csimpl; intros H.
  - destruct (rows !! r); csimpl in *; [|done]. injection H as <-. by exists [].
  - injection H as <-. by exists [].
  - destruct (tasks !! c) as [[]|]; try done. injection H as <-. by exists [].
  - destruct (tasks !! c) as [[r k|[r|] k|r k w|r k w|r k]|]; try done; [destruct (cur !! r); csimpl in *; [|done]|]; injection H as <-; by eexists [_].
  - destruct (tasks !! c) as [[]|]; try done. injection H as <-. by exists [].
  - case_bool_decide; [done|]. destruct (rows !! r); [|done]. injection H as <-. by exists [].
  - case_bool_decide; [done|]. injection H as <-. by eexists [_].
  - destruct (tasks !! c) as [[]|]; try done. injection H as <-. by exists [].
  - injection H as <-. by exists [].
Qed.
Lemma crun_log es : forall s s', crun s es = Some s' -> exists l, c_log s' = l ++ c_log s.
Proof.
  induction es as [|e es IH]; intros s s' H; csimpl in *; [simplify_eq; by exists []|].
  destruct (cstep s e) as [s1|] eqn:E; csimpl in *; [|done]. destruct (IH _ _ H) as [l ->]. destruct (cstep_log _ _ _ E) as [l' ->].
  exists (l ++ l'). by rewrite app_assoc.
Qed.
Lemma crun_app es1 : forall s s1 es2, crun s es1 = Some s1 -> crun s (es1 ++ es2) = crun s1 es2.
Proof.
  induction es1 as [|e es1 IH]; intros s s1 es2 H; csimpl in *; [by simplify_eq|].
  destruct (cstep s e) as [s0|]; csimpl in *; [|done]. eauto.
Qed.
Lemma unused_not_logged o s k r v : cinv o s -> k ∉ c_used s -> (r, k, v) ∉ c_log s.
Proof.
  intros (I0 & I1 & I2 & I3 & I4 & _) Hk Hl. pose proof (I4 _ _ _ Hl) as Ho. destruct (I1 _ Hk) as [H1 _].
  destruct r; unfold owned in Ho; [destruct Ho; congruence|subst; done].
Qed.
Lemma cached_since s es1 s1 es2 s2 c r k v : cstart s -> crun s es1 = Some s1 -> k ∉ c_used s1 -> crun s1 es2 = Some s2 ->
  c_tasks s2 !! c = Some (TDone (Some r) k v) -> exists l, c_log s2 = l ++ c_log s1 /\ (Some r, k, v) ∈ l.
Proof.
  intros H0 H1 Hk H2 Hc. destruct (crun_inv _ _ _ _ (cinv_start _ H0) H1) as (o1 & I1 & _).
  destruct (crun_inv _ _ _ _ I1 H2) as (o2 & I2 & _). destruct (crun_log _ _ _ H2) as [l Hl]. exists l. split; [done|].
  destruct I2 as (_ & _ & _ & _ & _ & _ & I6). pose proof (I6 c (Some r) k v (or_intror Hc)) as Hin. rewrite Hl in Hin.
  apply elem_of_app in Hin as [?|Hin]; [done|]. exfalso. by eapply unused_not_logged.
Qed.
Lemma cached_logged s es s' c r k v : cstart s -> crun s es = Some s' -> c_tasks s' !! c = Some (TDone (Some r) k v) ->
  (Some r, k, v) ∈ c_log s' /\ forall r' v', (r', k, v') ∈ c_log s' -> r' = Some r.
Proof.
  intros H0 H1 Hc. destruct (crun_inv _ _ _ _ (cinv_start _ H0) H1) as (o & (I0 & I1 & I2 & I3 & I4 & I5 & I6) & _).
  pose proof (I6 c (Some r) k v (or_intror Hc)) as Hl. split; [done|]. intros r' v' H'.
  eapply owned_inj; [exact (I4 _ _ _ H')|exact (I4 _ _ _ Hl)].
Qed.
Lemma cached_current s s' c r k v : cstart s -> sync_run s s' -> c_tasks s' !! c = Some (TDone (Some r) k v) ->
  c_rows s' !! r = Some k -> c_cur s' !! r = Some v.
Proof.
  intros H0 H1 Hc Hr. pose proof (cinv_start _ H0) as Hi. destruct H0 as (_ & _ & _ & _ & _ & Hlog).
  destruct (sync_fresh _ _ H1 _ Hi) as (o & (I0 & I1 & I2 & I3 & I4 & I5 & I6) & Hf).
  { intros r' k' v' _ Hl. rewrite Hlog in Hl. set_solver. }
  eapply Hf; [exact Hr|]. exact (I6 c (Some r) k v (or_intror Hc)).
Qed.

(** ** How often the function is called *)
(** The calls made while looking up key [k]. *)
Definition calls (k : Z) (l : list (option Z * Z * val)) : list (option Z * Z * val) := filter (fun e => e.1.2 = k) l.
(** No client is between a lookup of [k] that found nothing and storing the result. *)
Definition nobody_computes (k : Z) (s : cst) : Prop :=
  forall c r w, c_tasks s !! c <> Some (TMiss r k) /\ c_tasks s !! c <> Some (TPut r k w).

Lemma cstep_hit s e s' k v : k ∈ c_used s -> c_cache s !! k = Some v -> v <> 0%Z -> nobody_computes k s -> e <> CEvict k -> cstep s e = Some s' ->
  calls k (c_log s') = calls k (c_log s) /\ c_cache s' !! k = Some v /\ nobody_computes k s' /\ k ∈ c_used s'.
Proof.
  intros Hu Hc Hv Hn He H. destruct s as [rows cur cache used tasks lg]. unfold nobody_computes in *. csimpl in *.
  assert (Hins : forall c t, (forall r w, t <> TMiss r k /\ t <> TPut r k w) -> forall c' r w,
    <[c := t]> tasks !! c' <> Some (TMiss r k) /\ <[c := t]> tasks !! c' <> Some (TPut r k w)).
  { intros c t Ht c' r w. destruct (decide (c = c')) as [<-|Hne]; [rewrite !lookup_insert|rewrite !lookup_insert_ne by done; eauto].
    destruct (Ht r w). split; congruence. }
  assert (Hne : forall r k' w, k' <> k -> calls k ((r, k', w) :: lg) = calls k lg).
  { intros r k' w Hk. unfold calls. rewrite filter_cons_False; [done|exact Hk]. }
  destruct e as [c r|c|c|c w|c|r k' w|c r k' w|c w|k']; csimpl in *.
  - destruct (rows !! r) as [k'|]; csimpl in *; [|done]. injection H as <-. csimpl. split_and!; [done..| |done]. apply Hins. done.
  - injection H as <-. csimpl. split_and!; [done..| |done]. apply Hins. done.
  - destruct (tasks !! c) as [[r k'|r k'|r k' w|r k' w|r k']|] eqn:E; try done. injection H as <-. csimpl. split_and!; [done..| |done].
    apply Hins. intros r' w. destruct (decide (k' = k)) as [->|Hk].
    + destruct (cache !! k) as [x|]; [|done]. injection Hc as ->. unfold falsy. rewrite bool_decide_eq_false_2 by done. done.
    + destruct (cache !! k') as [x|]; [destruct (falsy x)|]; split; congruence.
  - destruct (tasks !! c) as [[r k'|r k'|r k' w'|r k' w'|r k']|] eqn:E; try done.
    assert (Hk : k' <> k) by (intros ->; destruct (Hn c r 0%Z); congruence).
    assert (exists x, s' = Cst rows cur cache used (<[c := TPut r k' x]> tasks) ((r, k', x) :: lg)) as [x ->].
    { destruct r as [r|]; [destruct (cur !! r) as [x|]; csimpl in *; [|done]|]; injection H as <-; eauto. }
    csimpl. split_and!; [by apply Hne|done| |done]. apply Hins. intros r' w'. split; congruence.
  - destruct (tasks !! c) as [[r k'|r k'|r k' w|r k' w|r k']|] eqn:E; try done. injection H as <-.
    assert (Hk : k' <> k) by (intros ->; destruct (Hn c r w); congruence). csimpl. split_and!; [done| | |done].
    + by rewrite lookup_insert_ne.
    + apply Hins. done.
  - case_bool_decide; [done|]. destruct (rows !! r); [|done]. injection H as <-. csimpl. split_and!; [done..|set_solver].
  - case_bool_decide as Hb; [done|]. injection H as <-. assert (Hk : k' <> k) by (intros ->; done). csimpl. split_and!; [by apply Hne| | |set_solver].
    + by rewrite lookup_insert_ne.
    + apply Hins. done.
  - destruct (tasks !! c) as [[r k'|r k'|r k' w'|r k' w'|r k']|] eqn:E; try done. injection H as <-. csimpl. split_and!; [done..| |done].
    intros c' r' w'. split; rewrite lookup_delete_Some; intros [_ H]; by destruct (Hn c' r' w').
  - injection H as <-. csimpl. split_and!; [done| |done..]. rewrite lookup_delete_ne; [done|]. congruence.
Qed.
Lemma crun_hit es : forall s s' k v, k ∈ c_used s -> c_cache s !! k = Some v -> v <> 0%Z -> nobody_computes k s -> CEvict k ∉ es -> crun s es = Some s' ->
  calls k (c_log s') = calls k (c_log s) /\ c_cache s' !! k = Some v.
Proof.
  induction es as [|e es IH]; intros s s' k v Hu Hc Hv Hn He H; csimpl in *; [by simplify_eq|].
  destruct (cstep s e) as [s1|] eqn:E; csimpl in *; [|done]. apply not_elem_of_cons in He as [He1 He2].
  destruct (cstep_hit _ _ _ _ _ Hu Hc Hv Hn ltac:(done) E) as (H1 & H2 & H3 & H4). rewrite <- H1. eauto.
Qed.
Lemma cached_hits s0 es0 s es s' k v : cstart s0 -> crun s0 es0 = Some s -> c_cache s !! k = Some v -> v <> 0%Z -> nobody_computes k s ->
  CEvict k ∉ es -> crun s es = Some s' -> calls k (c_log s') = calls k (c_log s) /\ c_cache s' !! k = Some v.
Proof.
  intros H0 H1 Hc Hv Hn He H. destruct (crun_inv _ _ _ _ (cinv_start _ H0) H1) as (o & (_ & I1 & _) & _).
  eapply crun_hit; [|done..]. destruct (decide (k ∈ c_used s)) as [?|Hu]; [done|]. destruct (I1 _ Hu) as [_ Hx]. unfold val in *. rewrite Hx in Hc. done.
Qed.

(** ** Assigning the attribute again *)
(** Model.refresh_from_db() assigns the attributes of a freshly loaded instance, and
    the attribute of a @cached field is its value (fields.py:307), not its key: the value
    is taken for a key (fields.py:302). *)
Inductive xev := XEv (e : cev) | XAssign (c : nat).
Definition xstep (s : cst) (e : xev) : option cst :=
  match e with
  | XEv e => cstep s e
  | XAssign c =>
      match c_tasks s !! c with
      | Some (TDone r k v) => Some (Cst (c_rows s) (c_cur s) (c_cache s) (c_used s) (<[c := TRead r v]> (c_tasks s)) (c_log s))
      | _ => None end
  end.
Fixpoint xrun (s : cst) (es : list xev) : option cst :=
  match es with [] => Some s | e :: es => s ← xstep s e; xrun s es end.
Lemma xrun_crun es : forall s, xrun s (XEv <$> es) = crun s es.
Proof. induction es as [|e es IH]; intros s; csimpl; [done|]. destruct (cstep s e); csimpl; [apply IH|done]. Qed.
(** What a client does that refreshes its instance of row [r] without being interrupted. *)
Definition refresh (c : nat) (r : Z) : list xev := [XEv (CStart c r); XEv (CLook c); XAssign c; XEv (CLook c)].
Lemma refresh_alone s c r k v :
  c_rows s !! r = Some k -> c_cur s !! r = Some v -> c_cache s !! k = Some v -> v <> 0%Z -> c_cache s !! v = None ->
  exists s', xrun s (refresh c r ++ (XEv <$> [CCall c 0; CPut c])) = Some s' /\ c_tasks s' !! c = Some (TDone (Some r) v v) /\
    c_cache s' = <[v := v]> (c_cache s) /\ c_log s' = (Some r, v, v) :: c_log s /\ c_rows s' = c_rows s.
Proof.
  intros Hr Hc Hk Hv Hn. destruct s as [rows cur cache used tasks lg]. csimpl in *. unfold val in *.
  unfold refresh. csimpl. rewrite Hr. csimpl. rewrite lookup_insert. csimpl. rewrite Hk. unfold falsy. rewrite bool_decide_eq_false_2 by done. csimpl.
  rewrite lookup_insert. csimpl. rewrite lookup_insert. csimpl. rewrite Hn. csimpl. rewrite lookup_insert. csimpl. rewrite Hc. csimpl. rewrite lookup_insert. csimpl.
  eexists. split; [reflexivity|]. csimpl. by rewrite lookup_insert.
Qed.
