(** * Filters of aggregates that follow foreign keys (denorms.py:261-296, 374-432).

    [filter={'author__active': True}] makes Django join the table of authors.  [TriggerFilterQuery] takes the condition from
    [inc_query.where.as_sql] (denorms.py:410, 416) and drops the joins: the condition becomes
    ["author"."active" = true] in [UPDATE parent SET ... WHERE id = NEW.parent_id AND ...].  The first join of a table has the table's
    name as its alias (Query.table_alias), since the alias of the counted model itself is NEW or OLD
    (get_initial_alias, 295-296).  So a lookup that leads to the aggregate's own model is about the row that
    the UPDATE changes, and one that leads elsewhere names a table that is not in the statement: each
    database raises when the trigger fires.

    Example: Author.books = CountField('book_set', filter={...}), Book.author, Book.publisher.

    Simplifications: three tables with one column each besides the keys; one foreign key is followed; a statement changes one row;
    foreign keys are checked at once; lookups are predicates of one column that is not NULL; only
    [filter] (on SQLite the same conditions can be given by [exclude]); parents and others are not deleted. *)
From Verif Require Import Base BaseLemmas Schema.

Inductive look :=
  | LOwn (P : Z → bool)      (** col *)
  | LPar (P : Z → bool)      (** author__col *)
  | LOth (P : Z → bool).     (** publisher__col *)
Record par := Par { p_col : Z; p_cnt : Z }.
Record kid := Kid { k_par : option Z; k_oth : option Z; k_col : Z }.
#[global] Instance kid_eq_dec : EqDecision kid.
Proof. solve_decision. Defined.
Record sst := Sst { pars : gmap Z par; oths : gmap Z Z; kids : gmap Z kid }.
Definition sst0 : sst := Sst ∅ ∅ ∅.
Inductive sop :=
  | ParIns (k v : Z) | ParUpd (k v : Z)
  | OthIns (j v : Z) | OthUpd (j v : Z)
  | KidIns (i : Z) (x : kid) | KidUpd (i : Z) (x : kid) | KidDel (i : Z).

(** ** The triggers *)
(** The names in the WHERE clause are those of the updated table and of NEW or OLD. *)
Definition in_scope (l : look) : bool := match l with LOth _ => false | _ => true end.
(** The condition for the row [p] of the updated table and the row [x] of the trigger. *)
Definition where_true (flt : list look) (x : kid) (p : par) : bool :=
  forallb (λ l, match l with LOwn P => P (k_col x) | LPar P => P (p_col p) | LOth _ => false end) flt.
(** UPDATE parent SET cnt = cnt + z WHERE id = x.parent_id AND ... (TriggerActionUpdate, denorms.py:421-432). *)
Definition sbump (flt : list look) (x : kid) (z : Z) (m : gmap Z par) : res (gmap Z par) :=
  if forallb in_scope flt then
    match k_par x with
    | None => Ok m
    | Some k => match m !! k with
        | None => Ok m
        | Some p => if where_true flt x p then
            (if bool_decide (p_cnt p + z < 0) then Err ECheck else Ok (<[k := Par (p_col p) (p_cnt p + z)]> m)) else Ok m
        end
    end
  else Err ESyntax.
Definition ref_ok {A} (m : gmap Z A) (k : option Z) : bool := match k with None => true | Some k => bool_decide (is_Some (m !! k)) end.
Definition kid_ok (s : sst) (x : kid) : bool := ref_ok (pars s) (k_par x) && ref_ok (oths s) (k_oth x).
(** denorms.py:434-438 *)
Definition srun (flt : list look) (o : sop) (s : sst) : res sst :=
  match o with
  | ParIns k v => match pars s !! k with Some _ => Err EIntegrity | None => Ok (Sst (<[k := Par v 0]> (pars s)) (oths s) (kids s)) end
  | ParUpd k v => match pars s !! k with None => Ok s | Some p => Ok (Sst (<[k := Par v (p_cnt p)]> (pars s)) (oths s) (kids s)) end
  | OthIns j v => match oths s !! j with Some _ => Err EIntegrity | None => Ok (Sst (pars s) (<[j := v]> (oths s)) (kids s)) end
  | OthUpd j v => match oths s !! j with None => Ok s | Some _ => Ok (Sst (pars s) (<[j := v]> (oths s)) (kids s)) end
  | KidIns i x => match kids s !! i with
      | Some _ => Err EIntegrity
      | None => if kid_ok s x then rbind (sbump flt x 1 (pars s)) (λ m, Ok (Sst m (oths s) (<[i := x]> (kids s)))) else Err EIntegrity
      end
  | KidUpd i x => match kids s !! i with
      | None => Ok s
      | Some o => if bool_decide (o = x) then Ok s else if kid_ok s x then
          rbind (sbump flt x 1 (pars s)) (λ m, rbind (sbump flt o (-1) m) (λ m', Ok (Sst m' (oths s) (<[i := x]> (kids s))))) else Err EIntegrity
      end
  | KidDel i => match kids s !! i with
      | None => Ok s
      | Some o => rbind (sbump flt o (-1) (pars s)) (λ m, Ok (Sst m (oths s) (delete i (kids s))))
      end
  end.
Definition sstep (flt : list look) (s : sst) (o : sop) : sst := match srun flt o s with Ok s' => s' | Err _ => s end.
Definition shist (flt : list look) (ops : list sop) : sst := foldl (sstep flt) sst0 ops.

(** ** What the field promises: [book_set.filter(...).count()] *)
Definition look_true (s : sst) (x : kid) (l : look) : bool :=
  match l with
  | LOwn P => P (k_col x)
  | LPar P => match k_par x ≫= λ k, pars s !! k with Some p => P (p_col p) | None => false end
  | LOth P => match k_oth x ≫= λ j, oths s !! j with Some v => P v | None => false end
  end.
Definition kids_of (s : sst) (k : Z) (Q : kid → bool) : gmap Z kid := filter (λ p : Z * kid, k_par p.2 = Some k ∧ Q p.2 = true) (kids s).
Definition books (flt : list look) (s : sst) (k : Z) : Z := Z.of_nat (size (kids_of s k (λ x, forallb (look_true s x) flt))).
(** The statement does not change the value of a lookup on the parent's columns. *)
Definition steady (flt : list look) (s : sst) (o : sop) : Prop :=
  match o with
  | ParUpd k v => ∀ P p, LPar P ∈ flt → pars s !! k = Some p → P v = P (p_col p)
  | _ => True
  end.
Fixpoint steady_all (flt : list look) (s : sst) (ops : list sop) : Prop :=
  match ops with [] => True | o :: ops => steady flt s o ∧ steady_all flt (sstep flt s o) ops end.
Definition is_own (l : look) : Prop := match l with LOwn _ => True | _ => False end.

(** ** Counting *)
Definition one (k : Z) (Q : kid → bool) (x : kid) : Z := if decide (k_par x = Some k ∧ Q x = true) then 1 else 0.
Definition tally (Q : kid → bool) (M : gmap Z kid) (k : Z) : Z := Z.of_nat (size (filter (λ p : Z * kid, k_par p.2 = Some k ∧ Q p.2 = true) M)).
Lemma tally_ins Q M i x k : M !! i = None → tally Q (<[i := x]> M) k = one k Q x + tally Q M k.
Proof.
  intros H. unfold tally, one. destruct (decide (k_par x = Some k ∧ Q x = true)) as [Hd|Hd].
  - rewrite map_filter_insert_True by done. rewrite map_size_insert_None; [lia|]. apply map_filter_lookup_None. by left.
  - rewrite map_filter_insert_False by done. rewrite delete_notin by done. lia.
Qed.
Lemma tally_del Q M i x k : M !! i = Some x → tally Q M k = one k Q x + tally Q (delete i M) k.
Proof. intros H. rewrite <- (insert_delete M i x H) at 1. apply tally_ins. apply lookup_delete. Qed.
Lemma tally_upd Q M i o x k : M !! i = Some o → tally Q (<[i := x]> M) k = tally Q M k + one k Q x - one k Q o.
Proof. intros H. rewrite (tally_del Q M i o k H). rewrite <- insert_delete_insert. rewrite tally_ins by apply lookup_delete. lia. Qed.
Lemma tally_ext Q R M k : (∀ i x, M !! i = Some x → k_par x = Some k → Q x = R x) → tally Q M k = tally R M k.
Proof.
  intros H. unfold tally. do 2 f_equal. apply map_filter_strong_ext. intros i x. cbn [snd]. split; intros [[Hk Hq] Hi]; (split; [|done]); (split; [done|]).
  - by rewrite <- (H i x).
  - by rewrite (H i x).
Qed.
Lemma tally_none Q M k : (∀ i x, M !! i = Some x → k_par x ≠ Some k) → tally Q M k = 0.
Proof.
  intros H. unfold tally. replace (filter _ M) with (∅ : gmap Z kid); [done|]. symmetry. apply map_filter_empty_iff. intros i x Hi [Hk _]. by eapply H.
Qed.
Lemma tally_pos Q M k : 0 ≤ tally Q M k.
Proof. unfold tally. lia. Qed.

(** ** The invariant *)
Section inv.
Context (flt : list look).
Definition right (s : sst) : Prop :=
  (∀ i x, kids s !! i = Some x → forallb in_scope flt = true) ∧
  (∀ i x k, kids s !! i = Some x → k_par x = Some k → is_Some (pars s !! k)) ∧
  ∀ k p, pars s !! k = Some p → p_cnt p = tally (λ x, where_true flt x p) (kids s) k.
Lemma where_col x p p' : p_col p = p_col p' → where_true flt x p = where_true flt x p'.
Proof. intros H. unfold where_true. by rewrite H. Qed.
Lemma sbump_ok x z m m' : sbump flt x z m = Ok m' → forallb in_scope flt = true ∧
  ∀ k, m' !! k = (λ p, Par (p_col p) (p_cnt p + z * one k (λ x, where_true flt x p) x)) <$> m !! k.
Proof.
  unfold sbump. destruct (forallb in_scope flt); [|done]. intros H. split; [done|]. intros k. unfold one.
  assert (Hid : ∀ m0 : gmap Z par, m0 = m → (∀ p, m !! k = Some p → ¬ (k_par x = Some k ∧ where_true flt x p = true)) →
    m0 !! k = (λ p, Par (p_col p) (p_cnt p + z * (if decide (k_par x = Some k ∧ where_true flt x p = true) then 1 else 0))) <$> m !! k).
  { intros m0 -> Hn. destruct (m !! k) as [p|] eqn:Hk; [|done]. cbn [fmap option_fmap option_map]. rewrite decide_False by (by apply Hn). rewrite Z.mul_0_r, Z.add_0_r. by destruct p. }
  destruct (k_par x) as [j|] eqn:Hj; [|injection H as <-; apply Hid; [done|]; naive_solver].
  destruct (m !! j) as [p|] eqn:Hp; [|injection H as <-; apply Hid; [done|]; naive_solver].
  destruct (where_true flt x p) eqn:Hw; [|injection H as <-; apply Hid; [done|]; intros q Hq [[= ->] Hw']; congruence].
  destruct (bool_decide (p_cnt p + z < 0)); [done|]. injection H as <-. destruct (decide (j = k)) as [->|Hn].
  - rewrite lookup_insert, Hp. cbn [fmap option_fmap option_map]. rewrite decide_True by done. by rewrite Z.mul_1_r.
  - rewrite lookup_insert_ne by done. destruct (m !! k) as [q|]; [|done]. cbn [fmap option_fmap option_map]. rewrite decide_False by naive_solver. rewrite Z.mul_0_r, Z.add_0_r. by destruct q.
Qed.
Lemma right0 : right sst0.
Proof. split; [|split]; intros *; cbn; rewrite lookup_empty; done. Qed.
Lemma kid_ok_par s x k : kid_ok s x = true → k_par x = Some k → is_Some (pars s !! k).
Proof. intros H Hk. unfold kid_ok in H. apply andb_prop in H as [H _]. unfold ref_ok in H. rewrite Hk in H. by apply bool_decide_eq_true_1 in H. Qed.
Lemma srun_right s o s' : steady flt s o → right s → srun flt o s = Ok s' → right s'.
Proof.
  intros Hst (H0 & H1 & H2) H. destruct s as [m O M]. destruct o as [k v|k v|j v|j v|i x|i x|i]; cbn [srun pars oths kids steady] in *.
  - destruct (m !! k) eqn:Hk; [done|]. injection H as <-. split; [done|]. cbn [pars kids]. split.
    + intros i x k' Hi Hx. destruct (decide (k = k')) as [->|]; [rewrite lookup_insert; by eexists|]. rewrite lookup_insert_ne by done. by eapply H1.
    + intros k' p Hp. apply lookup_insert_Some in Hp as [[-> <-]|[_ Hp]]; [|by apply H2]. cbn [p_cnt]. rewrite tally_none; [done|]. intros i x Hi Hx. destruct (H1 i x k' Hi Hx). congruence.
  - destruct (m !! k) as [q|] eqn:Hk; injection H as <-; [|done]. split; [done|]. cbn [pars kids]. split.
    + intros i x k' Hi Hx. destruct (decide (k = k')) as [->|]; [rewrite lookup_insert; by eexists|]. rewrite lookup_insert_ne by done. by eapply H1.
    + intros k' p Hp. apply lookup_insert_Some in Hp as [[-> <-]|[_ Hp]]; [|by apply H2]. cbn [p_cnt]. rewrite (H2 k' q Hk). apply tally_ext. intros i x _ _.
      unfold where_true. clear -Hst Hk. assert (Hst' : ∀ P, LPar P ∈ flt → P v = P (p_col q)) by (intros P HP; by apply (Hst P q)). clear Hst Hk. cbn [p_col].
      revert Hst'. generalize flt. intros l. induction l as [|a l IH]; intros Hl; [done|]. cbn [forallb]. rewrite IH by (intros P HP; apply Hl; by right). f_equal. destruct a; [done| |done]. symmetry. apply Hl. left.
  - destruct (O !! j) eqn:Hj; [done|]. by injection H as <-.
  - destruct (O !! j) eqn:Hj; by injection H as <-.
  - destruct (M !! i) eqn:Hi; [done|]. destruct (kid_ok _ x) eqn:Hok; [|done]. apply rbind_ok in H as (m' & Hb & H). injection H as <-. apply sbump_ok in Hb as [Hsc Hl]. split; [done|]. cbn [pars kids]. split.
    + intros j y k Hj Hy. rewrite Hl, fmap_is_Some. apply lookup_insert_Some in Hj as [[-> <-]|[_ Hj]]; [|by eapply H1]. by apply (kid_ok_par _ _ _ Hok).
    + intros k p Hp. rewrite Hl in Hp. destruct (m !! k) as [q|] eqn:Hq; [|done]. injection Hp as <-. cbn [p_cnt]. rewrite tally_ins by done. rewrite (H2 k q Hq). unfold where_true. cbn [p_col]. fold (where_true flt). unfold one, where_true. lia.
  - destruct (M !! i) as [o|] eqn:Hi; [|by injection H as <-]. destruct (bool_decide _); [by injection H as <-|]. destruct (kid_ok _ x) eqn:Hok; [|done].
    apply rbind_ok in H as (m1 & Hb & H). apply rbind_ok in H as (m2 & Hb2 & H). injection H as <-. apply sbump_ok in Hb as [Hsc Hl]. apply sbump_ok in Hb2 as [_ Hl2]. split; [done|]. cbn [pars kids]. split.
    + intros j y k Hj Hy. rewrite Hl2, Hl, !fmap_is_Some. apply lookup_insert_Some in Hj as [[-> <-]|[_ Hj]]; [|by eapply H1]. by apply (kid_ok_par _ _ _ Hok).
    + intros k p Hp. rewrite Hl2, Hl in Hp. destruct (m !! k) as [q|] eqn:Hq; [|done]. injection Hp as <-. cbn [p_cnt p_col]. rewrite (tally_upd _ M i o x k Hi). rewrite (H2 k q Hq). unfold one, where_true. cbn [p_col]. lia.
  - destruct (M !! i) as [o|] eqn:Hi; [|by injection H as <-]. apply rbind_ok in H as (m' & Hb & H). injection H as <-. apply sbump_ok in Hb as [Hsc Hl]. split; [intros; done|]. cbn [pars kids]. split.
    + intros j y k Hj Hy. rewrite Hl, fmap_is_Some. apply lookup_delete_Some in Hj as [_ Hj]. by eapply H1.
    + intros k p Hp. rewrite Hl in Hp. destruct (m !! k) as [q|] eqn:Hq; [|done]. injection Hp as <-. cbn [p_cnt]. pose proof (H2 k q Hq) as Hc. rewrite (tally_del _ M i o k Hi) in Hc. rewrite Hc. unfold one, where_true. cbn [p_col]. lia.
Qed.
Lemma shist_right ops s : steady_all flt s ops → right s → right (foldl (sstep flt) s ops).
Proof.
  revert s. induction ops as [|o l IH]; intros s Hs Hr; [done|]. destruct Hs as [Ho Hs]. cbn [foldl]. apply IH; [done|]. unfold sstep. destruct (srun flt o s) eqn:Hd; [|done]. by eapply srun_right.
Qed.
Lemma right_books s k p : right s → pars s !! k = Some p → p_cnt p = books flt s k.
Proof.
  intros (H0 & H1 & H2) Hp. rewrite (H2 k p Hp). unfold books, kids_of. apply (tally_ext _ (λ x, forallb (look_true s x) flt)). intros i x Hi Hk.
  unfold where_true. specialize (H0 i x Hi). clear -H0 Hk Hp. induction flt as [|a l IH]; [done|]. cbn [forallb] in *. apply andb_prop in H0 as [Ha H0]. rewrite IH by done. f_equal.
  destruct a; cbn [look_true]; [done| |done]. rewrite Hk. cbn. by rewrite Hp.
Qed.
Lemma right_no_check s o : right s → srun flt o s ≠ Err ECheck.
Proof.
  intros (H0 & H1 & H2) H. destruct s as [m O M]. cbn [pars kids oths] in *.
  assert (Hpos : ∀ k p, m !! k = Some p → 0 ≤ p_cnt p) by (intros k p Hp; rewrite (H2 k p Hp); apply tally_pos).
  assert (Hup : ∀ x, sbump flt x 1 m ≠ Err ECheck).
  { intros x. unfold sbump. destruct (forallb _ _); [|done]. destruct (k_par x); [|done]. destruct (m !! z) as [p|] eqn:Hp; [|done]. destruct (where_true _ _ _); [|done]. rewrite bool_decide_eq_false_2; [done|]. specialize (Hpos z p Hp). lia. }
  assert (Hdn : ∀ i x m', M !! i = Some x → (∀ k p', m' !! k = Some p' → ∃ p, m !! k = Some p ∧ p_col p' = p_col p ∧ p_cnt p ≤ p_cnt p') → sbump flt x (-1) m' ≠ Err ECheck).
  { intros i x m' Hi Hm. unfold sbump. destruct (forallb _ _); [|done]. destruct (k_par x) as [k|] eqn:Hk; [|done]. destruct (m' !! k) as [p'|] eqn:Hp'; [|done]. destruct (where_true _ _ _) eqn:Hw; [|done].
    destruct (Hm k p' Hp') as (p & Hp & Hcol & Hle). rewrite bool_decide_eq_false_2; [done|]. pose proof (H2 k p Hp) as Hc. rewrite (tally_del _ M i x k Hi) in Hc. unfold one in Hc. rewrite decide_True in Hc.
    - pose proof (tally_pos (λ x, where_true flt x p) (delete i M) k). lia.
    - split; [done|]. by rewrite (where_col x p p'). }
  destruct o as [k v|k v|j v|j v|i x|i x|i]; cbn [srun pars oths kids] in H.
  - by destruct (m !! k).
  - by destruct (m !! k).
  - by destruct (O !! j).
  - by destruct (O !! j).
  - destruct (M !! i); [done|]. destruct (kid_ok _ _); [|done]. specialize (Hup x). destruct (sbump flt x 1 m); cbn [rbind] in H; [done|]. congruence.
  - destruct (M !! i) as [o|] eqn:Hi; [|done]. destruct (bool_decide _); [done|]. destruct (kid_ok _ _); [|done]. specialize (Hup x). destruct (sbump flt x 1 m) as [m'|e] eqn:Hb; cbn [rbind] in H; [|congruence].
    apply sbump_ok in Hb as [_ Hl]. specialize (Hdn i o m' Hi). destruct (sbump flt o (-1) m'); cbn [rbind] in H; [done|]. apply Hdn; [|congruence]. intros k p' Hp'. rewrite Hl in Hp'. destruct (m !! k) as [p|] eqn:Hp; [|done].
    injection Hp' as <-. exists p. split; [done|]. split; [done|]. cbn [p_cnt]. unfold one. destruct (decide _); lia.
  - destruct (M !! i) as [o|] eqn:Hi; [|done]. specialize (Hdn i o m Hi). destruct (sbump flt o (-1) m); cbn [rbind] in H; [done|]. apply Hdn; [|congruence]. intros k p' Hp'. by exists p'.
Qed.
Lemma own_steady ops s : Forall is_own flt → steady_all flt s ops.
Proof.
  intros Hf. revert s. induction ops as [|o l IH]; intros s; [done|]. split; [|apply IH]. unfold steady. destruct o; try done. intros P p HP. rewrite Forall_forall in Hf. by specialize (Hf _ HP).
Qed.
Lemma other_no_scope P : LOth P ∈ flt → forallb in_scope flt = false.
Proof. intros H. apply not_true_iff_false. rewrite forallb_forall. intros Hf. by specialize (Hf _ (proj1 (elem_of_list_In _ _) H)). Qed.
End inv.

(** ** What statements write *)
Lemma sbump_cases flt x z m : forallb in_scope flt = true →
  sbump flt x z m = Err ECheck ∨ ∃ m', sbump flt x z m = Ok m' ∧ p_col <$> m' = p_col <$> m.
Proof.
  intros Hs. unfold sbump. rewrite Hs. destruct (k_par x) as [k|]; [|right; eauto]. destruct (m !! k) as [p|] eqn:Hk; [|right; eauto].
  destruct (where_true flt x p); [|right; eauto]. destruct (bool_decide _); [by left|]. right. eexists. split; [done|].
  rewrite fmap_insert. cbn [p_col]. apply insert_id. by rewrite lookup_fmap, Hk.
Qed.
Lemma scope_all flt : (∀ P, LOth P ∉ flt) → forallb in_scope flt = true.
Proof.
  intros H. apply forallb_forall. intros l Hl. apply elem_of_list_In in Hl. destruct l as [P|P|P]; [done|done|]. by destruct (H P).
Qed.
(** What a statement makes of the table of the counted model. *)
Definition kids_after (o : sop) (m : gmap Z kid) : gmap Z kid :=
  match o with KidIns i x | KidUpd i x => <[i := x]> m | KidDel i => delete i m | _ => m end.
Definition may_write (s : sst) (o : sop) : Prop :=
  match o with
  | KidIns i x => kids s !! i = None ∧ kid_ok s x = true
  | KidUpd i x => is_Some (kids s !! i) ∧ kid_ok s x = true
  | KidDel i => is_Some (kids s !! i)
  | _ => False
  end.
Lemma srun_cases flt o s : forallb in_scope flt = true → may_write s o → srun flt o s = Err ECheck ∨
  ∃ s', srun flt o s = Ok s' ∧ kids s' = kids_after o (kids s) ∧ oths s' = oths s ∧ p_col <$> pars s' = p_col <$> pars s.
Proof.
  intros Hs Hw. destruct o as [k v|k v|j v|j v|i x|i x|i]; cbn [may_write] in Hw; try done; cbn [srun kids_after].
  - destruct Hw as [-> ->]. destruct (sbump_cases flt x 1 (pars s) Hs) as [->|(m & -> & Hm)]; [by left|right]. cbn [rbind]. eexists. split; [done|]. done.
  - destruct Hw as [[o Ho] Hx]. rewrite Ho, Hx. case_bool_decide as He.
    + right. exists s. subst. split_and!; [done| |done|done]. by rewrite insert_id.
    + destruct (sbump_cases flt x 1 (pars s) Hs) as [->|(m & -> & Hm)]; [by left|]. cbn [rbind].
      destruct (sbump_cases flt o (-1) m Hs) as [->|(m' & -> & Hm')]; [by left|right]. cbn [rbind]. eexists. split; [done|]. cbn. split_and!; [done|done|congruence].
  - destruct Hw as [o Ho]. rewrite Ho. destruct (sbump_cases flt o (-1) (pars s) Hs) as [->|(m & -> & Hm)]; [by left|right]. cbn [rbind]. eexists. split; [done|]. done.
Qed.
