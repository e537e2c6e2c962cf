(** * Statements other than INSERT, UPDATE and DELETE (db/*/triggers.py).

    The triggers of denorm are AFTER INSERT, UPDATE and DELETE triggers FOR EACH ROW (db/postgresql/triggers.py:120-131,
    db/mysql/triggers.py:99-105, db/sqlite3/triggers.py:100-106; [Render.v]).  Which statements fire them is up to the database:
    TRUNCATE fires none of them (PostgreSQL has TRUNCATE triggers of its own; on MySQL it is no DML); SQLite has no TRUNCATE, a DELETE without
    WHERE fires them for every row.  REPLACE deletes the row with the same key and inserts: MySQL fires both triggers, SQLite the DELETE
    triggers only with [PRAGMA recursive_triggers], PostgreSQL has no REPLACE.  INSERT IGNORE (INSERT ... ON CONFLICT DO NOTHING,
    INSERT OR IGNORE) of a row with a known key does nothing.  Django's command flush and TransactionTestCase truncate all tables.

    One parent model with a CountField over the children (denorms.py:374-438) and a callback field that depends on them
    (dependencies.py, BackwardDependency), say their number, too.

    Simplifications: two models; parents are not deleted; the children have a key and a foreign key, which is checked at once; flush() is one
    step that makes the callback field of the marked parents right and does not touch counts ([Flush.v], C20); UPDATE is left out. *)
From Verif Require Import Base BaseLemmas Schema.

(** The stored count and the stored value of the callback field. *)
Record rpar := Rpar { r_cnt : Z; r_cb : Z }.
Record rst := Rst { r_pars : gmap Z rpar; r_kids : gmap Z (option Z); r_marks : list Z }.
Definition rst0 : rst := Rst ∅ ∅ [].
Inductive rop :=
  | RPar (k : Z)                       (** INSERT of a parent *)
  | RIns (i : Z) (p : option Z)        (** INSERT of a child *)
  | RDel (i : Z)
  | RIgnore (i : Z) (p : option Z)     (** INSERT IGNORE *)
  | RReplace (i : Z) (p : option Z)    (** REPLACE *)
  | REmpty                             (** TRUNCATE of the children, on SQLite DELETE without WHERE *)
  | REmptyAll                          (** TRUNCATE of all tables (Django's flush command) *)
  | RFlush                             (** denorms.flush() *)
  | RRebuild.                          (** denorms.rebuildall() *)
(** The children of a parent. *)
Definition kids_n (K : gmap Z (option Z)) (k : Z) : Z := Z.of_nat (size (filter (λ x : Z * option Z, x.2 = Some k) K)).

(** The row triggers of the children: count plus [z], and a marker (denorms.py:421-438). *)
Definition rtrig (p : option Z) (z : Z) (s : rst) : rst :=
  match p with
  | None => s
  | Some k => Rst (alter (λ x, Rpar (r_cnt x + z) (r_cb x)) k (r_pars s)) (r_kids s) (k :: r_marks s)
  end.
(** Another table of children. *)
Definition set_kids (K : gmap Z (option Z)) (s : rst) : rst := Rst (r_pars s) K (r_marks s).
(** The parent exists. *)
Definition fk_ok (s : rst) (p : option Z) : bool := match p with None => true | Some k => bool_decide (is_Some (r_pars s !! k)) end.
(** One row and its trigger. *)
Definition ins_kid (i : Z) (p : option Z) (s : rst) : rst := rtrig p 1 (set_kids (<[i := p]> (r_kids s)) s).
Definition del_kid (i : Z) (p : option Z) (s : rst) : rst := rtrig p (-1) (set_kids (delete i (r_kids s)) s).
(** flush(), denorms.py:593-635: the callback field of the parents [ks] is computed anew. *)
Definition rfresh (ks : Z → bool) (s : rst) : gmap Z rpar := map_imap (λ k x, Some (if ks k then Rpar (r_cnt x) (kids_n (r_kids s) k) else x)) (r_pars s).
(** [rec] is SQLite's PRAGMA recursive_triggers, off by default. *)
Definition rrun (b : backend) (rec : bool) (o : rop) (s : rst) : res rst :=
  match o with
  | RPar k => match r_pars s !! k with Some _ => Err EIntegrity | None => Ok (Rst (<[k := Rpar 0 0]> (r_pars s)) (r_kids s) (r_marks s)) end
  | RIns i p => match r_kids s !! i with Some _ => Err EIntegrity | None => if fk_ok s p then Ok (ins_kid i p s) else Err EIntegrity end
  | RDel i => match r_kids s !! i with None => Ok s | Some p => Ok (del_kid i p s) end
  | RIgnore i p => match r_kids s !! i with Some _ => Ok s | None => if fk_ok s p then Ok (ins_kid i p s) else Err EIntegrity end
  | RReplace i p => match b with
      | Postgres => Err ESyntax
      | _ => if fk_ok s p then
          match r_kids s !! i with
          | None => Ok (ins_kid i p s)
          | Some o => Ok (ins_kid i p (if bool_decide (b = MySQL) || rec then del_kid i o s else set_kids (delete i (r_kids s)) s))
          end else Err EIntegrity
      end
  | REmpty => match b with
      | SQLite => Ok (foldl (λ s x, del_kid x.1 x.2 s) s (map_to_list (r_kids s)))
      | _ => Ok (set_kids ∅ s)
      end
  | REmptyAll => Ok rst0
  | RFlush => Ok (Rst (rfresh (λ k, bool_decide (k ∈ r_marks s)) s) (r_kids s) [])
  | RRebuild => Ok (Rst (rfresh (λ _, true) s) (r_kids s) [])
  end.
(** A statement that raises changes nothing. *)
Definition rstep (b : backend) (rec : bool) (s : rst) (o : rop) : rst := match rrun b rec o s with Ok s' => s' | Err _ => s end.
Definition rhist (b : backend) (rec : bool) (ops : list rop) : rst := foldl (rstep b rec) rst0 ops.

(** ** What is promised *)
(** The children of [k] that the statement removes without firing a trigger. *)
Definition silent (b : backend) (rec : bool) (s : rst) (o : rop) (k : Z) : Z :=
  match o, b with
  | REmpty, (Postgres | MySQL) => kids_n (r_kids s) k
  | RReplace i p, SQLite => if rec then 0 else if fk_ok s p then (if decide (r_kids s !! i = Some (Some k)) then 1 else 0) else 0
  | _, _ => 0
  end.
(** All of them since the tables were last emptied. *)
Fixpoint silents (b : backend) (rec : bool) (s : rst) (ops : list rop) (acc k : Z) : Z :=
  match ops with [] => acc | o :: ops => silents b rec (rstep b rec s o) ops (match o with REmptyAll => 0 | _ => acc + silent b rec s o k end) k end.
(** The statement fires a trigger for every row that it adds or removes. *)
Definition noticed (b : backend) (rec : bool) (s : rst) (o : rop) : Prop :=
  match o, b with
  | REmpty, (Postgres | MySQL) => False
  | RReplace i _, SQLite => rec = true ∨ r_kids s !! i = None
  | _, _ => True
  end.
Fixpoint all_noticed (b : backend) (rec : bool) (s : rst) (ops : list rop) : Prop :=
  match ops with [] => True | o :: ops => noticed b rec s o ∧ all_noticed b rec (rstep b rec s o) ops end.

(** ** Lemmas *)
Definition ind (p : option Z) (k : Z) : Z := if decide (p = Some k) then 1 else 0.
Lemma kids_ins K i p k : K !! i = None → kids_n (<[i := p]> K) k = kids_n K k + ind p k.
Proof.
  intros H. unfold kids_n, ind. destruct (decide (p = Some k)) as [->|Hp].
  - rewrite map_filter_insert_True by done. rewrite map_size_insert_None; [lia|]. apply map_filter_lookup_None. by left.
  - rewrite map_filter_insert_False by done. rewrite delete_notin by done. lia.
Qed.
Lemma kids_del K i p k : K !! i = Some p → kids_n (delete i K) k = kids_n K k - ind p k.
Proof.
  intros H. rewrite <- (insert_delete K i p H) at 2. rewrite kids_ins by apply lookup_delete. lia.
Qed.
Lemma kids_empty k : kids_n ∅ k = 0.
Proof. unfold kids_n. by rewrite map_filter_empty, map_size_empty. Qed.

(** Children point at parents that exist; counts are off by [z k]. *)
Definition refs (s : rst) : Prop := ∀ i k, r_kids s !! i = Some (Some k) → is_Some (r_pars s !! k).
Definition off (z : Z → Z) (s : rst) : Prop := ∀ k x, r_pars s !! k = Some x → r_cnt x = kids_n (r_kids s) k + z k.
Definition cb_ok (s : rst) : Prop := ∀ k x, r_pars s !! k = Some x → r_cb x = kids_n (r_kids s) k ∨ k ∈ r_marks s.
Lemma kids_none s k : refs s → r_pars s !! k = None → kids_n (r_kids s) k = 0.
Proof.
  intros Hr Hk. unfold kids_n. replace (filter _ (r_kids s)) with (∅ : gmap Z (option Z)); [by rewrite map_size_empty|].
  symmetry. apply map_filter_empty_iff. intros i p Hp. cbn. intros ->. destruct (Hr i k Hp) as [x Hx]. congruence.
Qed.
Lemma rtrig_pars p z s k : r_pars (rtrig p z s) !! k = (λ x, Rpar (r_cnt x + z * ind p k) (r_cb x)) <$> r_pars s !! k.
Proof.
  destruct p as [k'|]; cbn [rtrig r_pars].
  - unfold ind. destruct (decide (k = k')) as [->|Hn].
    + rewrite lookup_alter, decide_True by done. destruct (r_pars s !! k') as [[c v]|]; cbn; [|done]. f_equal. f_equal. lia.
    + rewrite lookup_alter_ne, decide_False by congruence. destruct (r_pars s !! k) as [[c v]|]; cbn; [|done]. f_equal. f_equal. lia.
  - unfold ind. rewrite decide_False by done. destruct (r_pars s !! k) as [[c v]|]; cbn; [|done]. f_equal. f_equal. lia.
Qed.
Lemma rtrig_kids p z s : r_kids (rtrig p z s) = r_kids s.
Proof. by destruct p. Qed.
Lemma rtrig_marks p z s k : k ∈ r_marks (rtrig p z s) ↔ p = Some k ∨ k ∈ r_marks s.
Proof. destruct p as [k'|]; cbn; [rewrite elem_of_cons; naive_solver|naive_solver]. Qed.
Lemma ins_refs i p s : refs s → fk_ok s p = true → refs (ins_kid i p s).
Proof.
  intros Hr Hf j k. unfold ins_kid. rewrite rtrig_kids, rtrig_pars, fmap_is_Some. cbn [set_kids r_kids r_pars]. destruct (decide (j = i)) as [->|Hn].
  - rewrite lookup_insert. intros [= ->]. cbn in Hf. by apply bool_decide_eq_true in Hf.
  - rewrite lookup_insert_ne by done. apply Hr.
Qed.
Lemma ins_off z i p s : off z s → r_kids s !! i = None → off z (ins_kid i p s).
Proof.
  intros Ho Hi k x. unfold ins_kid. rewrite rtrig_kids, rtrig_pars. cbn [set_kids r_kids r_pars]. intros Hx. apply fmap_Some in Hx as (y & Hy & ->).
  cbn [r_cnt]. rewrite kids_ins by done. rewrite (Ho k y Hy). lia.
Qed.
Lemma ins_cb i p s : cb_ok s → r_kids s !! i = None → cb_ok (ins_kid i p s).
Proof.
  intros Hc Hi k x. unfold ins_kid. rewrite rtrig_kids, rtrig_pars, rtrig_marks. cbn [set_kids r_kids r_pars r_marks]. intros Hx. apply fmap_Some in Hx as (y & Hy & ->).
  cbn [r_cb]. rewrite kids_ins by done. unfold ind. destruct (decide (p = Some k)); [by right; left|]. destruct (Hc k y Hy) as [->|]; [left; lia|by right; right].
Qed.
Lemma del_refs i p s : refs s → refs (del_kid i p s).
Proof.
  intros Hr j k. unfold del_kid. rewrite rtrig_kids, rtrig_pars, fmap_is_Some. cbn [set_kids r_kids r_pars]. intros [_ H]%lookup_delete_Some. by apply Hr in H.
Qed.
Lemma del_off z i p s : off z s → r_kids s !! i = Some p → off z (del_kid i p s).
Proof.
  intros Ho Hi k x. unfold del_kid. rewrite rtrig_kids, rtrig_pars. cbn [set_kids r_kids r_pars]. intros Hx. apply fmap_Some in Hx as (y & Hy & ->).
  cbn [r_cnt]. rewrite (kids_del _ _ _ _ Hi). rewrite (Ho k y Hy). lia.
Qed.
Lemma del_cb i p s : cb_ok s → r_kids s !! i = Some p → cb_ok (del_kid i p s).
Proof.
  intros Hc Hi k x. unfold del_kid. rewrite rtrig_kids, rtrig_pars, rtrig_marks. cbn [set_kids r_kids r_pars r_marks]. intros Hx. apply fmap_Some in Hx as (y & Hy & ->).
  cbn [r_cb]. rewrite (kids_del _ _ _ _ Hi). unfold ind. destruct (decide (p = Some k)); [by right; left|]. destruct (Hc k y Hy) as [->|]; [left; lia|by right; right].
Qed.
Lemma del_all (R : rst → Prop) : (∀ i p s, R s → r_kids s !! i = Some p → R (del_kid i p s)) → ∀ l s,
  NoDup l.*1 → (∀ i p, (i, p) ∈ l → r_kids s !! i = Some p) → R s → R (foldl (λ s x, del_kid x.1 x.2 s) s l).
Proof.
  intros Hstep. induction l as [|[i p] l IH]; intros s Hd Hl Hs; [done|]. cbn [foldl fst snd]. cbn in Hd. apply NoDup_cons in Hd as [Hi Hd]. apply IH; [done| |].
  - intros j q Hj. unfold del_kid. rewrite rtrig_kids. cbn [set_kids r_kids]. rewrite lookup_delete_ne; [apply Hl; by right|].
    intros ->. apply Hi. apply elem_of_list_fmap. by exists (j, q).
  - apply Hstep; [done|]. apply Hl. by left.
Qed.
Lemma del_every (R : rst → Prop) s : (∀ i p s, R s → r_kids s !! i = Some p → R (del_kid i p s)) → R s → R (foldl (λ s x, del_kid x.1 x.2 s) s (map_to_list (r_kids s))).
Proof. intros Hstep Hs. apply (del_all R Hstep); [apply NoDup_fst_map_to_list| |done]. intros i p Hp. by apply elem_of_map_to_list in Hp. Qed.
Lemma fresh_lookup ks s k : rfresh ks s !! k = (λ x, if ks k then Rpar (r_cnt x) (kids_n (r_kids s) k) else x) <$> r_pars s !! k.
Proof. unfold rfresh. rewrite map_lookup_imap. by destruct (r_pars s !! k). Qed.
Lemma fresh_refs ks s l : refs s → refs (Rst (rfresh ks s) (r_kids s) l).
Proof. intros Hr i k Hi. cbn [r_pars r_kids] in *. rewrite fresh_lookup, fmap_is_Some. by apply (Hr i). Qed.
Lemma fresh_off z ks s l : off z s → off z (Rst (rfresh ks s) (r_kids s) l).
Proof.
  intros Ho k x. cbn [r_pars r_kids]. rewrite fresh_lookup. intros Hx. apply fmap_Some in Hx as (y & Hy & ->). rewrite <- (Ho k y Hy). by destruct (ks k).
Qed.
Lemma off_ext z z' s : (∀ k, z k = z' k) → off z s → off z' s.
Proof. intros H Ho k x Hx. rewrite <- H. by apply Ho. Qed.
Definition zok (z : Z → Z) (s : rst) : Prop := ∀ k, r_pars s !! k = None → z k = 0.
Lemma same_pars_zok z s s' : (∀ k, r_pars s' !! k = None → r_pars s !! k = None) → zok z s → zok z s'.
Proof. intros H Hz k Hk. apply Hz. by apply H. Qed.
Lemma ins_none i p s k : r_pars (ins_kid i p s) !! k = None → r_pars s !! k = None.
Proof. unfold ins_kid. rewrite rtrig_pars. cbn. intros H. by apply fmap_None in H. Qed.
Lemma del_none i p s k : r_pars (del_kid i p s) !! k = None → r_pars s !! k = None.
Proof. unfold del_kid. rewrite rtrig_pars. cbn. intros H. by apply fmap_None in H. Qed.
Lemma del_fk i p s q : fk_ok (del_kid i p s) q = fk_ok s q.
Proof. destruct q as [k|]; [|done]. cbn. apply bool_decide_ext. unfold del_kid. rewrite rtrig_pars, fmap_is_Some. done. Qed.
Lemma del_at i p s : r_kids (del_kid i p s) !! i = None.
Proof. unfold del_kid. rewrite rtrig_kids. apply lookup_delete. Qed.
(** A row taken away silently. *)
Lemma cut_refs i s : refs s → refs (set_kids (delete i (r_kids s)) s).
Proof. intros Hr j k. cbn. intros [_ H]%lookup_delete_Some. by apply Hr in H. Qed.
Lemma cut_off z i p s : off z s → r_kids s !! i = Some p → off (λ k, z k + ind p k) (set_kids (delete i (r_kids s)) s).
Proof. intros Ho Hi k x. cbn. intros Hx. rewrite (kids_del _ _ _ _ Hi). rewrite (Ho k x Hx). lia. Qed.
Lemma cut_zok z i p s : zok z s → refs s → r_kids s !! i = Some p → zok (λ k, z k + ind p k) s.
Proof.
  intros Hz Hr Hi k Hk. rewrite (Hz k Hk). unfold ind. destruct (decide (p = Some k)) as [->|]; [|done]. destruct (Hr i k Hi). congruence.
Qed.
Definition inv (z : Z → Z) (s : rst) : Prop := refs s ∧ off z s ∧ zok z s.
Lemma inv0 : inv (λ _, 0) rst0.
Proof. split; [intros i k; cbn; by rewrite lookup_empty|]. split; [intros k x; cbn; by rewrite lookup_empty|by intros k]. Qed.
Lemma inv_ext z z' s : (∀ k, z k = z' k) → inv z s → inv z' s.
Proof. intros H (Hr & Ho & Hz). split_and!; [done|by eapply off_ext|]. intros k Hk. rewrite <- H. by apply Hz. Qed.
Lemma ins_inv z i p s : inv z s → r_kids s !! i = None → fk_ok s p = true → inv z (ins_kid i p s).
Proof.
  intros (Hr & Ho & Hz) Hi Hf. split_and!; [by apply ins_refs|by apply ins_off|]. eapply same_pars_zok; [|exact Hz]. intros k. apply ins_none.
Qed.
Lemma del_inv z i p s : inv z s → r_kids s !! i = Some p → inv z (del_kid i p s).
Proof.
  intros (Hr & Ho & Hz) Hi. split_and!; [by apply del_refs|by apply del_off|]. eapply same_pars_zok; [|exact Hz]. intros k. apply del_none.
Qed.
Lemma fresh_inv z ks s l : inv z s → inv z (Rst (rfresh ks s) (r_kids s) l).
Proof.
  intros (Hr & Ho & Hz). split_and!; [by apply fresh_refs|by apply fresh_off|]. eapply same_pars_zok; [|exact Hz]. intros k. cbn [r_pars]. rewrite fresh_lookup. by intros ?%fmap_None.
Qed.
Lemma rstep_inv b rec s o z : inv z s → inv (λ k, match o with REmptyAll => 0 | _ => z k + silent b rec s o k end) (rstep b rec s o).
Proof.
  intros Hi. assert (Hz0 : inv (λ k, z k + 0) s) by (eapply inv_ext; [|exact Hi]; intros k; lia).
  unfold rstep. destruct o as [k|i p|i|i p|i p| | | |]; cbn [rrun silent].
  - destruct (r_pars s !! k) as [x|] eqn:Hk; [by destruct b|]. destruct Hi as (Hr & Ho & Hz). eapply (inv_ext z); [intros k'; destruct b; lia|]. split_and!.
    + intros i k' H. cbn [r_pars r_kids] in *. destruct (decide (k' = k)) as [->|]; [by rewrite lookup_insert|]. rewrite lookup_insert_ne by done. by apply (Hr i).
    + intros k' x. cbn [r_pars r_kids]. destruct (decide (k' = k)) as [->|].
      * rewrite lookup_insert. intros [= <-]. rewrite (kids_none s k Hr Hk), (Hz k Hk). done.
      * rewrite lookup_insert_ne by done. apply Ho.
    + eapply same_pars_zok; [|exact Hz]. intros k'. cbn [r_pars]. by intros [? _]%lookup_insert_None.
  - destruct (r_kids s !! i) eqn:Hk; [by destruct b|]. destruct (fk_ok s p) eqn:Hf; [|by destruct b]. assert (inv z (ins_kid i p s)) by by apply ins_inv.
    eapply inv_ext; [|done]. intros k; destruct b; lia.
  - destruct (r_kids s !! i) eqn:Hk; [|by destruct b]. eapply (inv_ext z); [intros k; destruct b; lia|]. by apply del_inv.
  - destruct (r_kids s !! i) eqn:Hk; [by destruct b|]. destruct (fk_ok s p) eqn:Hf; [|by destruct b]. eapply (inv_ext z); [intros k; destruct b; lia|]. by apply ins_inv.
  - destruct b; [|done|].
    + destruct (fk_ok s p) eqn:Hf; [|by destruct rec]. destruct (r_kids s !! i) as [o|] eqn:Hk.
      * rewrite (bool_decide_eq_false_2 (SQLite = MySQL)) by done. cbn [orb]. destruct rec.
        -- eapply (inv_ext z); [intros k; lia|]. apply ins_inv; [by apply del_inv|apply del_at|by rewrite del_fk].
        -- eapply (inv_ext (λ k, z k + ind o k)).
           { intros k. unfold ind. destruct (decide (o = Some k)) as [->|Hn]; [by rewrite decide_True by done|]. rewrite decide_False; [lia|congruence]. }
           destruct Hi as (Hr & Ho & Hz). apply ins_inv; [|apply lookup_delete|done]. split; [by apply cut_refs|split; [by apply cut_off|exact (cut_zok z i o s Hz Hr Hk)]].
      * eapply (inv_ext z); [intros k; destruct rec; [|rewrite decide_False by done]; lia|]. by apply ins_inv.
    + eapply (inv_ext z); [intros k; lia|]. destruct (fk_ok s p) eqn:Hf; [|done]. destruct (r_kids s !! i) as [o|] eqn:Hk; [|by apply ins_inv].
      rewrite bool_decide_eq_true_2 by done. cbn [orb]. apply ins_inv; [by apply del_inv|apply del_at|by rewrite del_fk].
  - destruct Hi as (Hr & Ho & Hz). assert (inv (λ k, z k + kids_n (r_kids s) k) (set_kids ∅ s)) as He.
    { split_and!; [intros i k; cbn; by rewrite lookup_empty| |].
      - intros k x. cbn. intros Hx. rewrite kids_empty, (Ho k x Hx). lia.
      - intros k Hk. cbn in Hk. by rewrite (kids_none s k Hr Hk), (Hz k Hk). }
    destruct b; [|done|done]. apply del_every; [|done]. intros i p s' Hs' Hi. by apply del_inv.
  - apply inv0.
  - eapply (inv_ext z); [intros k; destruct b; lia|]. by apply fresh_inv.
  - eapply (inv_ext z); [intros k; destruct b; lia|]. by apply fresh_inv.
Qed.
Lemma run_inv b rec ops : ∀ s z, inv z s → inv (λ k, silents b rec s ops (z k) k) (foldl (rstep b rec) s ops).
Proof.
  induction ops as [|o ops IH]; intros s z Hi; [exact Hi|]. cbn [foldl silents]. eapply inv_ext; [|apply IH, (rstep_inv b rec s o z Hi)].
  intros k. cbn beta. by destruct o.
Qed.
Lemma noticed_silent b rec s o k : noticed b rec s o → silent b rec s o k = 0.
Proof.
  destruct o, b; cbn; try done. intros [->|H]; [done|]. destruct rec; [done|]. destruct (fk_ok s p); [|done]. rewrite decide_False; [done|]. rewrite H. done.
Qed.
Lemma noticed_silents b rec ops k : ∀ s, all_noticed b rec s ops → silents b rec s ops 0 k = 0.
Proof.
  induction ops as [|o ops IH]; intros s H; [done|]. destruct H as [Hn H]. cbn [silents].
  replace (match o with REmptyAll => 0 | _ => 0 + silent b rec s o k end) with 0; [by apply IH|]. rewrite (noticed_silent _ _ _ _ _ Hn). by destruct o.
Qed.
Lemma silents_pos b rec ops k : ∀ s acc, 0 ≤ acc → 0 ≤ silents b rec s ops acc k.
Proof.
  induction ops as [|o ops IH]; intros s acc H; [done|]. cbn [silents]. apply IH. destruct o; try lia; destruct b; cbn [silent]; unfold kids_n; repeat case_match; lia.
Qed.
(** The callback field. *)
Lemma fresh_cb (ks : Z → bool) s : (∀ k, k ∈ r_marks s → ks k = true) → cb_ok s → ∀ k x, rfresh ks s !! k = Some x → r_cb x = kids_n (r_kids s) k.
Proof.
  intros Hk Hc k x. rewrite fresh_lookup. intros Hx. apply fmap_Some in Hx as (y & Hy & ->). destruct (ks k) eqn:E; [done|]. destruct (Hc k y Hy) as [|Hm]; [done|].
  by rewrite (Hk k Hm) in E.
Qed.
Lemma rstep_cb b rec s o : refs s → noticed b rec s o → cb_ok s → cb_ok (rstep b rec s o).
Proof.
  intros Hr Hn Hc. unfold rstep. destruct o as [k|i p|i|i p|i p| | | |]; cbn [rrun noticed] in *.
  - destruct (r_pars s !! k) as [x|] eqn:Hk; [done|]. intros k' x. cbn [r_pars r_kids r_marks]. destruct (decide (k' = k)) as [->|].
    + rewrite lookup_insert. intros [= <-]. left. by rewrite (kids_none s k Hr Hk).
    + rewrite lookup_insert_ne by done. apply Hc.
  - destruct (r_kids s !! i) eqn:Hk; [done|]. destruct (fk_ok s p) eqn:Hf; [|done]. by apply ins_cb.
  - destruct (r_kids s !! i) eqn:Hk; [|done]. by apply del_cb.
  - destruct (r_kids s !! i) eqn:Hk; [done|]. destruct (fk_ok s p) eqn:Hf; [|done]. by apply ins_cb.
  - destruct b; [|done|].
    + destruct (fk_ok s p) eqn:Hf; [|done]. destruct (r_kids s !! i) as [o|] eqn:Hk; [|by apply ins_cb]. destruct Hn as [->|]; [|done].
      rewrite orb_true_r. apply ins_cb; [by apply del_cb|apply del_at].
    + destruct (fk_ok s p) eqn:Hf; [|done]. destruct (r_kids s !! i) as [o|] eqn:Hk; [|by apply ins_cb].
      rewrite bool_decide_eq_true_2 by done. cbn [orb]. apply ins_cb; [by apply del_cb|apply del_at].
  - destruct b; [|done|done]. apply del_every; [|done]. intros i p s' Hs' Hi. by apply del_cb.
  - intros k x. cbn. by rewrite lookup_empty.
  - intros k x Hx. left. cbn [r_pars r_kids] in *. eapply fresh_cb; [|exact Hc|exact Hx]. intros k' Hk'. by apply bool_decide_eq_true_2.
  - intros k x. cbn [r_pars r_kids]. rewrite fresh_lookup. intros Hx. apply fmap_Some in Hx as (y & Hy & ->). by left.
Qed.
Lemma run_cb b rec ops : ∀ s z, inv z s → all_noticed b rec s ops → cb_ok s → cb_ok (foldl (rstep b rec) s ops).
Proof.
  induction ops as [|o ops IH]; intros s z Hi Ha Hc; [done|]. destruct Ha as [Hn Ha]. cbn [foldl]. eapply IH; [by apply (rstep_inv b rec s o z)|done|].
  apply rstep_cb; [apply Hi|done|done].
Qed.
Lemma rebuild_cb b rec s k x : r_pars (rstep b rec s RRebuild) !! k = Some x → r_cb x = kids_n (r_kids (rstep b rec s RRebuild)) k.
Proof. unfold rstep. cbn [rrun r_pars r_kids]. rewrite fresh_lookup. intros Hx. apply fmap_Some in Hx as (y & Hy & ->). done. Qed.
(** What the statements do to the children. *)
Lemma del_all_kids l : ∀ s, r_kids (foldl (λ s x, del_kid x.1 x.2 s) s l) = foldr delete (r_kids s) (reverse l.*1).
Proof.
  induction l as [|[i p] l IH]; intros s; [done|]. cbn [foldl fst snd]. rewrite IH. unfold del_kid. rewrite rtrig_kids. cbn [set_kids r_kids fmap list_fmap].
  rewrite reverse_cons, foldr_app. done.
Qed.
Lemma del_every_kids s : r_kids (foldl (λ s x, del_kid x.1 x.2 s) s (map_to_list (r_kids s))) = ∅.
Proof.
  rewrite del_all_kids. apply map_eq. intros i. rewrite lookup_empty. set (l := reverse _).
  destruct (r_kids s !! i) as [p|] eqn:Hi.
  - apply lookup_foldr_delete. unfold l. rewrite elem_of_reverse. apply elem_of_list_fmap. exists (i, p). split; [done|]. by apply elem_of_map_to_list.
  - clear -Hi. induction l as [|j l IH]; [done|]. cbn [foldr]. apply lookup_delete_None. by right.
Qed.
Lemma ins_some i p s k : is_Some (r_pars (ins_kid i p s) !! k) ↔ is_Some (r_pars s !! k).
Proof. unfold ins_kid. rewrite rtrig_pars, fmap_is_Some. done. Qed.
Lemma del_some i p s k : is_Some (r_pars (del_kid i p s) !! k) ↔ is_Some (r_pars s !! k).
Proof. unfold del_kid. rewrite rtrig_pars, fmap_is_Some. done. Qed.
Lemma del_all_some l k : ∀ s, is_Some (r_pars (foldl (λ s x, del_kid x.1 x.2 s) s l) !! k) ↔ is_Some (r_pars s !! k).
Proof. induction l as [|x l IH]; intros s; [done|]. cbn [foldl]. rewrite IH. apply del_some. Qed.
