(** * Row locks of concurrent transactions (denorms.py:405-450, db/*/triggers.py).

    A row that a transaction writes stays locked until the transaction ends.  The triggers of an aggregate write the
    row of the parent ([TriggerActionUpdate], denorms.py:421-432), so the rows of the counted model carry over their locks to the parents.

    Example: Forum.count = CountField('post_set'), Post.forum.

    - PostgreSQL: the check of a foreign key takes FOR KEY SHARE on the parent, which goes together with the
      lock of an UPDATE of other columns (FOR NO KEY UPDATE); two of the latter exclude each other.
    - MySQL (InnoDB): the check of a foreign key takes a shared lock on the parent before the AFTER triggers run;
      it excludes the exclusive lock of an UPDATE by somebody else.
    - SQLite: one writer at a time.

    Simplifications: transactions write from their first statement on; a request is granted as soon as no other transaction holds a
    conflicting lock (no queues, no timeouts); the locks of indexes and gaps are left out; markers and their content types are inserted and shared
    only, which excludes nobody; parents are not deleted and their keys not changed; aggregates have no filter. *)
From Coq Require Import Sorting.Sorted.
From Verif Require Import Base BaseLemmas Schema.
Local Open Scope Z_scope.

Inductive rsc := RAll | RKid (k : Z) | RPar (k : Z).
Inductive mode := MS | MX.
Definition req : Type := rsc * mode.
#[global] Instance rsc_eq_dec : EqDecision rsc. Proof. solve_decision. Defined.
#[global] Instance mode_eq_dec : EqDecision mode. Proof. solve_decision. Defined.
(** On PostgreSQL the shared lock of a foreign key excludes no write. *)
Definition conflict (b : backend) (m1 m2 : mode) : bool :=
  match m1, m2 with MX, MX => true | MS, MS => false | _, _ => bool_decide (b = MySQL) end.

(** ** Statements and the locks they take, in this order *)
Inductive stmt :=
  | KIns (k : Z) (p : option Z)          (** INSERT of a post *)
  | KUpd (k : Z) (p q : option Z)        (** UPDATE of a tracked column of a post, from forum [p] to forum [q] (they may be equal) *)
  | KDel (k : Z) (p : option Z)          (** DELETE of a post *)
  | PSav (p : Z).                        (** UPDATE of a forum *)
Definition par (o : option Z) (m : mode) : list req := match o with Some p => [(RPar p, m)] | None => [] end.
(** The update trigger increments the new parent first and then decrements the old one (denorms.py:434-438); [agg]: the
    triggers are installed. *)
Definition rlocks (agg : bool) (s : stmt) : list req :=
  match s with
  | KIns k p => (RKid k, MX) :: par p MS ++ (if agg then par p MX else [])
  | KUpd k p q => (RKid k, MX) :: (if bool_decide (p = q) then [] else par q MS) ++ (if agg then par q MX ++ par p MX else [])
  | KDel k p => (RKid k, MX) :: (if agg then par p MX else [])
  | PSav p => [(RPar p, MX)]
  end.
Definition locks (b : backend) (agg : bool) (s : stmt) : list req := match b with SQLite => [(RAll, MX)] | _ => rlocks agg s end.
Definition tlocks (b : backend) (agg : bool) (tx : list stmt) : list req := tx ≫= locks b agg.

(** ** The lock manager *)
Record thr := Thr { t_held : list req; t_todo : list req }.
#[global] Instance thr_eq_dec : EqDecision thr. Proof. solve_decision. Defined.
Definition refuses (b : backend) (r : req) (t : thr) : bool :=
  existsb (λ h, bool_decide (h.1 = r.1) && conflict b h.2 r.2) (t_held t).
Definition blocked (b : backend) (s : list thr) (i : nat) (r : req) : bool :=
  existsb (λ jt, negb (bool_decide (jt.1 = i)) && refuses b r jt.2) (imap pair s).
(** Transaction [i] takes its next lock, or commits and drops all. *)
Definition lstep (b : backend) (s : list thr) (i : nat) : option (list thr) :=
  match s !! i with
  | None => None
  | Some t => match t_todo t with
      | r :: l => if blocked b s i r then None else Some (<[i := Thr (r :: t_held t) l]> s)
      | [] => match t_held t with [] => None | _ => Some (<[i := Thr [] []]> s) end
      end
  end.
Definition start (txs : list (list req)) : list thr := Thr [] <$> txs.
Definition sched (b : backend) (s : list thr) (is : list nat) : option (list thr) := foldl (λ o i, o ≫= λ s, lstep b s i) (Some s) is.

(** ** Specification *)
Definition goes (b : backend) (s s' : list thr) : Prop := ∃ i, lstep b s i = Some s'.
Definition committed (s : list thr) : Prop := ∀ t, t ∈ s → t = Thr [] [].
Definition stands (b : backend) (s : list thr) : Prop := ∀ s', ¬ goes b s s'.
(** Every run ends, and it ends with all transactions committed. *)
Definition finishes (b : backend) (txs : list (list req)) : Prop :=
  (∃ N, ∀ n s, nsteps (goes b) n (start txs) s → (n ≤ N)%nat) ∧
  ∀ s, rtc (goes b) (start txs) s → stands b s → committed s.
(** The transactions can lock each other out for ever. *)
Definition deadlock (b : backend) (txs : list (list req)) : Prop :=
  ∃ s, rtc (goes b) (start txs) s ∧ stands b s ∧ ¬ committed s.

(** ** Decisions *)
Lemma blocked_spec b s i r : blocked b s i r = true ↔ ∃ j t h, j ≠ i ∧ s !! j = Some t ∧ h ∈ t_held t ∧ h.1 = r.1 ∧ conflict b h.2 r.2 = true.
Proof.
  unfold blocked. rewrite existsb_exists. split.
  - intros ([j t] & Hin & Hb). apply elem_of_list_In, elem_of_lookup_imap in Hin as (j' & t' & [= -> ->] & Hj).
    apply andb_true_iff in Hb as [Hn Hr]. apply negb_true_iff, bool_decide_eq_false in Hn. unfold refuses in Hr.
    apply existsb_exists in Hr as (h & Hh & Hc). apply andb_true_iff in Hc as [He Hc]. apply bool_decide_eq_true in He.
    exists j', t', h. split_and!; try done. by apply elem_of_list_In.
  - intros (j & t & h & Hn & Hj & Hh & He & Hc). exists (j, t). split.
    + apply elem_of_list_In, elem_of_lookup_imap. by exists j, t.
    + apply andb_true_iff. split; [by apply negb_true_iff, bool_decide_eq_false|]. apply existsb_exists. exists h.
      split; [by apply elem_of_list_In|]. apply andb_true_iff. split; [by apply bool_decide_eq_true|done].
Qed.
Lemma sched_rtc b is s s' : sched b s is = Some s' → rtc (goes b) s s'.
Proof.
  unfold sched. revert s. induction is as [|i is IH]; intros s; cbn [foldl].
  - intros [= ->]. apply rtc_refl.
  - cbn [mbind option_bind]. destruct (lstep b s i) as [s1|] eqn:E; intros H.
    + apply rtc_l with s1; [by exists i|by apply IH].
    + exfalso. clear -H. induction is as [|? ? IH]; [done|]. by apply IH.
Qed.
Lemma stands_spec b s : forallb (λ i, match lstep b s i with None => true | _ => false end) (seq 0 (length s)) = true → stands b s.
Proof.
  intros H s' [i Hi]. assert (Hl : (i < length s)%nat).
  { apply lookup_lt_is_Some. unfold lstep in Hi. destruct (s !! i); [by eexists|done]. }
  rewrite forallb_forall in H. specialize (H i). rewrite Hi in H. assert (false = true) by (apply H, in_seq; lia). done.
Qed.
Lemma not_committed s i t : s !! i = Some t → t ≠ Thr [] [] → ¬ committed s.
Proof. intros Hi Hn Hc. apply Hn, Hc. by eapply elem_of_list_lookup_2. Qed.

(** ** Every run ends *)
Definition wt (t : thr) : nat := (length (t_todo t) + match t with Thr [] [] => 0 | _ => 1 end)%nat.
Definition work (s : list thr) : nat := sum_list_with wt s.
Lemma sum_insert s i t t' : s !! i = Some t → (sum_list_with wt (<[i := t']> s) + wt t = sum_list_with wt s + wt t')%nat.
Proof.
  revert i. induction s as [|x s IH]; intros [|i] Hi; try done.
  - injection Hi as ->. cbn. lia.
  - cbn [lookup list_lookup] in Hi. specialize (IH _ Hi). change (<[Datatypes.S i:=t']> (x :: s)) with (x :: <[i:=t']> s). cbn [sum_list_with]. lia.
Qed.
Lemma work_down b s s' : goes b s s' → (work s' < work s)%nat.
Proof.
  intros [i Hi]. unfold lstep in Hi. destruct (s !! i) as [[h [|r l]]|] eqn:E; cbn [t_todo t_held] in Hi; [|destruct (blocked b s i r); [done|]|done].
  - destruct h as [|x h]; [done|]. injection Hi as <-. pose proof (sum_insert _ _ _ (Thr [] []) E) as Hs. unfold work. change (wt (Thr [] [])) with 0%nat in Hs. change (wt (Thr (x :: h) [])) with 1%nat in Hs. lia.
  - injection Hi as <-. pose proof (sum_insert _ _ _ (Thr (r :: h) l) E) as Hs. unfold work. assert (wt (Thr (r :: h) l) = (length l + 1)%nat) as H1 by done. assert (wt (Thr h (r :: l)) = (length l + 2)%nat) as H2 by (destruct h; unfold wt; cbn; lia). lia.
Qed.
Lemma runs_end b s n s' : nsteps (goes b) n s s' → (n ≤ work s)%nat.
Proof. induction 1 as [|n x y z Hxy _ IH]; [lia|]. apply work_down in Hxy. lia. Qed.

(** ** The invariant *)
Definition part (txs : list (list req)) (i : nat) (t : thr) : Prop := ∃ l, txs !! i = Some l ∧ (t = Thr [] [] ∨ l = rev (t_held t) ++ t_todo t).
Definition excl (b : backend) (s : list thr) : Prop := ∀ i j t t' r r', i ≠ j → s !! i = Some t → s !! j = Some t' →
  r ∈ t_held t → r' ∈ t_held t' → r.1 = r'.1 → conflict b r.2 r'.2 = false.
Definition linv (b : backend) (txs : list (list req)) (s : list thr) : Prop := (∀ i t, s !! i = Some t → part txs i t) ∧ excl b s.
Lemma conflict_sym b m1 m2 : conflict b m1 m2 = conflict b m2 m1.
Proof. by destruct m1, m2. Qed.
Lemma linv0 b txs : linv b txs (start txs).
Proof.
  split.
  - intros i t Hi. unfold start in Hi. rewrite list_lookup_fmap in Hi. destruct (txs !! i) as [l|] eqn:Hl; [|done]. injection Hi as <-. exists l. split; [done|by right].
  - intros i j t t' r r' _ Hi _ Hr. unfold start in Hi. rewrite list_lookup_fmap in Hi. destruct (txs !! i) as [l|] eqn:Hl; [|done]. injection Hi as <-. by apply elem_of_nil in Hr.
Qed.
Lemma linv_step b txs s s' : linv b txs s → goes b s s' → linv b txs s'.
Proof.
  intros [Hp He] [i Hi]. unfold lstep in Hi. destruct (s !! i) as [[h [|r l]]|] eqn:E; cbn [t_todo t_held] in Hi; [|destruct (blocked b s i r) eqn:Hb; [done|]|done].
  - destruct h as [|x h]; [done|]. injection Hi as <-. split.
    + intros j t Hj. apply list_lookup_insert_Some in Hj as [(-> & <- & _)|[Hn Hj]]; [|by apply Hp].
      destruct (Hp _ _ E) as (l & Hl & _). exists l. split; [done|by left].
    + intros j k t t' r r' Hn Hj Hk Hr Hr' Hrr.
      apply list_lookup_insert_Some in Hj as [(_ & <- & _)|[_ Hj]]; [by apply elem_of_nil in Hr|].
      apply list_lookup_insert_Some in Hk as [(_ & <- & _)|[_ Hk]]; [by apply elem_of_nil in Hr'|]. by apply (He j k t t').
  - injection Hi as <-. split.
    + intros j t Hj. apply list_lookup_insert_Some in Hj as [(-> & <- & _)|[Hn Hj]]; [|by apply Hp].
      destruct (Hp _ _ E) as (l' & Hl & Ht). exists l'. split; [done|]. right. destruct Ht as [Ht|Ht]; [done|]. cbn [t_held t_todo rev] in *. by rewrite <- app_assoc.
    + assert (Hnew : ∀ j t' r', i ≠ j → s !! j = Some t' → r' ∈ t_held t' → r.1 = r'.1 → conflict b r.2 r'.2 = false).
      { intros j t' r' Hn Hj Hr' Hrr. destruct (conflict b r.2 r'.2) eqn:Hc; [|done]. exfalso.
        assert (blocked b s i r = true) as Hb'; [|congruence]. apply blocked_spec. exists j, t', r'. rewrite conflict_sym. done. }
      intros j k t t' x x' Hn Hj Hk Hr Hr' Hrr.
      apply list_lookup_insert_Some in Hj as [(-> & <- & _)|[Hnj Hj]]; apply list_lookup_insert_Some in Hk as [(-> & <- & _)|[Hnk Hk]]; try done.
      * cbn [t_held] in Hr. apply elem_of_cons in Hr as [->|Hr]; [by apply (Hnew k t' x')|]. by apply (He j k _ _ x x' Hn E Hk).
      * cbn [t_held] in Hr'. apply elem_of_cons in Hr' as [->|Hr']; [|by apply (He j k _ _ x x' Hn Hj E)].
        rewrite conflict_sym. by apply (Hnew j t x).
      * by apply (He j k t t').
Qed.
Lemma linv_rtc b txs s : rtc (goes b) (start txs) s → linv b txs s.
Proof. intros H. assert (∀ x y, rtc (goes b) x y → linv b txs x → linv b txs y) as Hx; [|eapply Hx; [done|apply linv0]]. induction 1; eauto using linv_step. Qed.

(** If nobody can go on, an open transaction waits for another open one. *)
Lemma waits b txs s i t : linv b txs s → stands b s → s !! i = Some t → t ≠ Thr [] [] →
  ∃ r l j t' h, t_todo t = r :: l ∧ j ≠ i ∧ s !! j = Some t' ∧ t' ≠ Thr [] [] ∧ h ∈ t_held t' ∧ h.1 = r.1 ∧ conflict b h.2 r.2 = true.
Proof.
  intros _ Hs Hi Ht. destruct t as [hs [|r l]].
  - exfalso. destruct hs as [|x hs]; [done|]. apply (Hs (<[i := Thr [] []]> s)). exists i. unfold lstep. by rewrite Hi.
  - destruct (blocked b s i r) eqn:Hb.
    + apply blocked_spec in Hb as (j & t' & h & Hn & Hj & Hh & He & Hc). exists r, l, j, t', h. split_and!; try done. intros ->. by apply elem_of_nil in Hh.
    + exfalso. apply (Hs (<[i := Thr (r :: hs) l]> s)). exists i. unfold lstep. rewrite Hi. cbn [t_todo t_held]. by rewrite Hb.
Qed.
Lemma finishes_of b txs : (∀ s, linv b txs s → stands b s → ∀ i t, s !! i = Some t → t = Thr [] []) → finishes b txs.
Proof.
  intros H. split.
  - exists (work (start txs)). intros n s. apply runs_end.
  - intros s Hr Hs t [i Hi]%elem_of_list_lookup_1. apply (H s (linv_rtc _ _ _ Hr) Hs i t Hi).
Qed.
Lemma finishes_no_deadlock b txs : finishes b txs → ¬ deadlock b txs.
Proof. intros [_ H] (s & Hr & Hs & Hn). apply Hn, H; done. Qed.

(** ** No conflicts *)
Definition no_conflict (b : backend) (txs : list (list req)) : Prop := ∀ i j l l' r r', i ≠ j → txs !! i = Some l → txs !! j = Some l' →
  r ∈ l → r' ∈ l' → r.1 = r'.1 → conflict b r.2 r'.2 = false.
Lemma held_in txs i t r : part txs i t → r ∈ t_held t → ∃ l, txs !! i = Some l ∧ r ∈ l.
Proof.
  intros (l & Hl & Ht) Hr. exists l. split; [done|]. destruct Ht as [->|Hll]; [by apply elem_of_nil in Hr|]. rewrite Hll, elem_of_app. left.
  by apply elem_of_list_In, in_rev; rewrite rev_involutive; apply elem_of_list_In.
Qed.
Lemma todo_in txs i t r : part txs i t → r ∈ t_todo t → ∃ l, txs !! i = Some l ∧ r ∈ l.
Proof.
  intros (l & Hl & Ht) Hr. exists l. split; [done|]. destruct Ht as [->|Hll]; [by apply elem_of_nil in Hr|]. rewrite Hll, elem_of_app. by right.
Qed.
Lemma free_finishes b txs : no_conflict b txs → finishes b txs.
Proof.
  intros Hn. apply finishes_of. intros s [Hp He] Hs i t Hi. destruct (decide (t = Thr [] [])) as [|Ht]; [done|exfalso].
  destruct (waits b txs s i t (conj Hp He) Hs Hi Ht) as (r & l & j & t' & h & Htd & Hji & Hj & _ & Hh & Hhr & Hc).
  destruct (held_in txs j t' h (Hp _ _ Hj) Hh) as (l1 & Hl1 & Hin1).
  destruct (todo_in txs i t r (Hp _ _ Hi)) as (l2 & Hl2 & Hin2); [rewrite Htd; left|].
  rewrite (Hn j i l1 l2 h r Hji Hl1 Hl2 Hin1 Hin2 Hhr) in Hc. done.
Qed.

(** ** Locks in order *)
Definition pos (x : rsc) : option Z := match x with RAll => Some 0 | RKid _ => None | RPar p => Some p end.
Definition before (x y : rsc) : Prop := match pos x, pos y with Some a, Some c => a < c | _, _ => True end.
(** Requests that can be refused. *)
Definition strong (b : backend) (m : mode) : Prop := m = MX ∨ b = MySQL.
Definition in_order (b : backend) (l : list req) : Prop := ∀ l1 r l2, l = l1 ++ r :: l2 → strong b r.2 →
  (r.1, MX) ∈ l1 ∨ ∀ h, h ∈ l1 → strong b h.2 → before h.1 r.1.
(** No post is written by two transactions. *)
Definition own_rows (txs : list (list req)) : Prop := ∀ i j l l' k m m', i ≠ j → txs !! i = Some l → txs !! j = Some l' → (RKid k, m) ∈ l → (RKid k, m') ∉ l'.
Lemma conflict_strong b m1 m2 : conflict b m1 m2 = true → strong b m1 ∧ strong b m2.
Proof. unfold strong. destruct m1, m2; cbn; auto; try done; intros H%bool_decide_eq_true; auto. Qed.
Lemma strong_conflict b m : strong b m → conflict b m MX = true.
Proof. intros [->| ->]; [done|]. by destruct m. Qed.
Lemma bounded (l : list Z) : ∃ M, ∀ x, x ∈ l → x ≤ M.
Proof.
  induction l as [|a l [M IH]]; [exists 0; intros x Hx; by apply elem_of_nil in Hx|]. exists (Z.max a M). intros x [->|Hx]%elem_of_cons; [lia|]. specialize (IH x Hx). lia.
Qed.
Lemma ordered_finishes b txs : own_rows txs → (∀ l, l ∈ txs → in_order b l) → finishes b txs.
Proof.
  intros Hown Hord. apply finishes_of. intros s [Hp He] Hs.
  assert (Hw : ∀ i t, s !! i = Some t → t ≠ Thr [] [] → ∃ x r l, t_todo t = r :: l ∧ pos r.1 = Some x ∧
    ∃ j t' h, j ≠ i ∧ s !! j = Some t' ∧ t' ≠ Thr [] [] ∧ h ∈ t_held t' ∧ h.1 = r.1 ∧ conflict b h.2 r.2 = true).
  { intros i t Hi Ht. destruct (waits b txs s i t (conj Hp He) Hs Hi Ht) as (r & l & j & t' & h & Htd & Hji & Hj & Ht' & Hh & Hhr & Hc).
    destruct (pos r.1) as [x|] eqn:Hx.
    - exists x, r, l. split_and!; try done. exists j, t', h. done.
    - exfalso. destruct r as [[|k|p] m], h as [x' m']; cbn in Hx, Hhr; try done. subst x'.
      destruct (held_in txs j t' _ (Hp _ _ Hj) Hh) as (l1 & Hl1 & Hin1).
      destruct (todo_in txs i t (RKid k, m) (Hp _ _ Hi)) as (l2 & Hl2 & Hin2); [rewrite Htd; left|].
      by apply (Hown j i l1 l2 k m' m Hji Hl1 Hl2 Hin1). }
  destruct (bounded (omap (λ r : req, pos r.1) (concat txs))) as [M HM].
  assert (Hle : ∀ i t r l x, s !! i = Some t → t_todo t = r :: l → pos r.1 = Some x → x ≤ M).
  { intros i t r l x Hi Htd Hx. apply HM. apply elem_of_list_omap. exists r. split; [|done].
    destruct (todo_in txs i t r (Hp _ _ Hi)) as (l2 & Hl2 & Hin2); [rewrite Htd; left|].
    apply elem_of_list_In, in_concat. exists l2. split; apply elem_of_list_In; [by eapply elem_of_list_lookup_2|done]. }
  assert (Hno : ∀ n : nat, ∀ i t r l x, s !! i = Some t → t ≠ Thr [] [] → t_todo t = r :: l → pos r.1 = Some x → M - x < Z.of_nat n → False).
  { induction n as [|n IH]; intros i t r l x Hi Ht Htd Hx Hlt; [pose proof (Hle i t r l x Hi Htd Hx); lia|].
    destruct (Hw i t Hi Ht) as (x' & r' & l' & Htd' & Hx' & j & t' & h & Hji & Hj & Ht' & Hh & Hhr & Hc).
    rewrite Htd in Htd'. injection Htd' as <- <-. rewrite Hx in Hx'. injection Hx' as <-.
    destruct (Hw j t' Hj Ht') as (y & r2 & l2 & Htd2 & Hy & k & t2 & h2 & Hkj & Hk & _ & Hh2 & Hhr2 & Hc2).
    apply (IH j t' r2 l2 y Hj Ht' Htd2 Hy). assert (x < y); [|lia].
    destruct (Hp _ _ Hj) as (lj & Hlj & Hpart). destruct Hpart as [->|Hlj2]; [done|].
    pose proof (conflict_strong _ _ _ Hc) as [Hs1 Hs2]. pose proof (conflict_strong _ _ _ Hc2) as [Hs3 Hs4].
    rewrite Htd2 in Hlj2. destruct (Hord lj (elem_of_list_lookup_2 _ _ _ Hlj) _ _ _ Hlj2 Hs4) as [Hin|Hbf].
    - exfalso. assert (Hin' : (r2.1, MX) ∈ t_held t') by (by apply elem_of_list_In, in_rev, elem_of_list_In).
      pose proof (He k j t2 t' h2 (r2.1, MX) Hkj Hk Hj Hh2 Hin' Hhr2) as Hcc. cbn [snd] in Hcc. rewrite strong_conflict in Hcc by done. done.
    - assert (Hb : before h.1 r2.1). { apply Hbf; [|done]. apply elem_of_list_In. rewrite <- in_rev. by apply elem_of_list_In. }
      unfold before in Hb. rewrite Hhr, Hx, Hy in Hb. done. }
  intros i t Hi. destruct (decide (t = Thr [] [])) as [|Ht]; [done|exfalso].
  destruct (Hw i t Hi Ht) as (x & r & l & Htd & Hx & _). apply (Hno (Z.to_nat (M - x + 1)) i t r l x Hi Ht Htd Hx).
  pose proof (Hle i t r l x Hi Htd Hx). lia.
Qed.

(** ** From statements to locks *)
(** The forums whose rows a statement writes by its triggers, in this order. *)
Definition parents (s : stmt) : list Z :=
  match s with
  | KIns _ p => option_list p
  | KUpd _ p q => option_list q ++ option_list p
  | KDel _ p => option_list p
  | PSav p => [p]
  end.
Definition kids_of (s : stmt) : list Z := match s with KIns k _ | KUpd k _ _ | KDel k _ => [k] | PSav _ => [] end.
(** No post is written by two transactions. *)
Definition own_posts (txs : list (list stmt)) : Prop := ∀ i j t t' k, i ≠ j → txs !! i = Some t → txs !! j = Some t' → k ∈ t ≫= kids_of → k ∉ t' ≫= kids_of.
Lemma par_kid o m k m' : (RKid k, m') ∉ par o m.
Proof. destruct o; cbn; set_solver. Qed.
Lemma locks_kid b agg s k m : (RKid k, m) ∈ locks b agg s → k ∈ kids_of s.
Proof.
  intros H. assert (Hs : b = SQLite ∨ b ≠ SQLite) by (destruct b; auto). destruct Hs as [->|Hb]; [cbn in H; set_solver|].
  assert (H' : (RKid k, m) ∈ rlocks agg s) by (by destruct b). clear H. unfold rlocks in H'.
  destruct s; cbn [kids_of]; [| | |set_solver]; apply elem_of_cons in H' as [[= -> ->]|H']; try (by left); exfalso;
    repeat first [apply elem_of_app in H' as [H'|H'] | destruct agg | case_bool_decide]; try (by apply elem_of_nil in H'); by apply par_kid in H'.
Qed.
Lemma own_of b agg txs : own_posts txs → own_rows (tlocks b agg <$> txs).
Proof.
  intros H i j l l' k m m' Hn Hi Hj Hk Hk'. rewrite list_lookup_fmap in Hi, Hj.
  destruct (txs !! i) as [t|] eqn:Ei; [|done]. destruct (txs !! j) as [t'|] eqn:Ej; [|done]. injection Hi as <-. injection Hj as <-.
  unfold tlocks in Hk, Hk'. apply elem_of_list_bind in Hk as (s & Hks & Hs). apply elem_of_list_bind in Hk' as (s' & Hks' & Hs').
  apply (H i j t t' k Hn Ei Ej); apply elem_of_list_bind; [exists s|exists s']; eauto using locks_kid.
Qed.

(** PostgreSQL: only the exclusive locks count. *)
Lemma locks_pg s : omap (λ r : req, match r with (RPar p, MX) => Some p | _ => None end) (locks Postgres true s) = parents s.
Proof. by destruct s as [k [p|]|k [p|] [q|]|k [p|]|p]; cbn; try case_bool_decide; cbn. Qed.
Lemma omap_bind {A B C} (f : B → option C) (g : A → list B) l : omap f (l ≫= g) = l ≫= (λ x, omap f (g x)).
Proof. induction l as [|x l IH]; [done|]. cbn [mbind list_bind]. rewrite omap_app. f_equal. exact IH. Qed.
Lemma tlocks_pg tx : omap (λ r : req, match r with (RPar p, MX) => Some p | _ => None end) (tlocks Postgres true tx) = tx ≫= parents.
Proof. unfold tlocks. rewrite omap_bind. induction tx as [|s tx IH]; [done|]. cbn [mbind list_bind]. rewrite locks_pg. f_equal. exact IH. Qed.
Lemma sorted_app_inv (l1 : list Z) x l2 : StronglySorted Z.le (l1 ++ x :: l2) → ∀ y, y ∈ l1 → y ≤ x.
Proof.
  induction l1 as [|a l1 IH]; intros H y Hy; [by apply elem_of_nil in Hy|]. cbn [app] in H. apply StronglySorted_inv in H as [H Ha].
  apply elem_of_cons in Hy as [->|Hy]; [|by apply IH]. rewrite Forall_forall in Ha. apply Ha. set_solver.
Qed.
Lemma rall_pg agg s m : (RAll, m) ∉ locks Postgres agg s.
Proof. destruct s as [k [p|]|k [p|] [q|]|k [p|]|p], agg; cbn; try case_bool_decide; cbn; set_solver. Qed.
Lemma order_x b l : (∀ m, (RAll, m) ∉ l) → (∀ p m, (RPar p, m) ∈ l → strong b m → m = MX) →
  StronglySorted Z.le (omap (λ r : req, match r with (RPar p, MX) => Some p | _ => None end) l) → in_order b l.
Proof.
  intros Hall Hx Hs l1 r l2 Hl Hr. destruct r as [x m].
  destruct x as [|k|p]; [exfalso| |].
  - apply (Hall m). rewrite Hl. set_solver.
  - right. intros h _ _. unfold before. by destruct (pos h.1).
  - assert (m = MX) as -> by (apply (Hx p m); [rewrite Hl; set_solver|done]). cbn [fst snd] in *.
    destruct (decide ((RPar p, MX) ∈ l1)) as [|Hp]; [by left|right]. intros h Hh Hm. destruct h as [y m]. cbn [fst snd] in *.
    destruct y as [|k|q].
    + exfalso. apply (Hall m). rewrite Hl. set_solver.
    + done.
    + assert (m = MX) as -> by (apply (Hx q m); [rewrite Hl; set_solver|done]).
      unfold before. cbn. assert (q ≠ p) by congruence. assert (q ≤ p); [|lia].
      rewrite Hl, omap_app in Hs. cbn [omap list_omap] in Hs. apply (sorted_app_inv _ _ _ Hs). apply elem_of_list_omap. by exists (RPar q, MX).
Qed.
Lemma order_pg tx : StronglySorted Z.le (tx ≫= parents) → in_order Postgres (tlocks Postgres true tx).
Proof.
  intros Hs. apply order_x.
  - intros m H. unfold tlocks in H. apply elem_of_list_bind in H as (s & H & _). by apply rall_pg in H.
  - intros p m _ [Hm|]; done.
  - by rewrite tlocks_pg.
Qed.
(** Statements that make no post point to another forum need no check of a foreign key. *)
Definition keeps (s : stmt) : Prop := match s with KIns _ _ => False | KUpd _ p q => p = q | _ => True end.
Lemma locks_keep s : keeps s → locks MySQL true s = ((λ k, (RKid k, MX)) <$> kids_of s) ++ ((λ p, (RPar p, MX)) <$> parents s).
Proof. destruct s as [k [p|]|k [p|] [q|]|k [p|]|p]; cbn; intros H; try done; rewrite bool_decide_eq_true_2 by done; done. Qed.
Lemma locks_keep_x s x m : keeps s → (x, m) ∈ locks MySQL true s → m = MX ∧ x ≠ RAll.
Proof.
  intros Hk H. rewrite locks_keep in H by done. apply elem_of_app in H as [H|H]; by apply elem_of_list_fmap in H as (y & [= -> ->] & _).
Qed.
Lemma locks_keep_parents s : keeps s → omap (λ r : req, match r with (RPar p, MX) => Some p | _ => None end) (locks MySQL true s) = parents s.
Proof. destruct s as [k [p|]|k [p|] [q|]|k [p|]|p]; cbn; intros H; try done; rewrite bool_decide_eq_true_2 by done; done. Qed.
Lemma order_keep tx : (∀ s, s ∈ tx → keeps s) → StronglySorted Z.le (tx ≫= parents) → in_order MySQL (tlocks MySQL true tx).
Proof.
  intros Hk Hs. apply order_x.
  - intros m H. unfold tlocks in H. apply elem_of_list_bind in H as (s & H & Hin). by apply (locks_keep_x s RAll m (Hk s Hin)) in H as [_ []].
  - intros p m H _. unfold tlocks in H. apply elem_of_list_bind in H as (s & H & Hin). by apply (locks_keep_x s _ m (Hk s Hin)) in H as [-> _].
  - replace (omap _ _) with (tx ≫= parents); [done|]. unfold tlocks. rewrite omap_bind. clear Hs.
    induction tx as [|s tx IH]; [done|]. cbn [mbind list_bind]. rewrite locks_keep_parents by (apply Hk; left). f_equal. apply IH. intros s' Hs'. apply Hk. by right.
Qed.

(** MySQL: all forums are written first, in order. *)
Lemma locks_my agg s x m : (x, m) ∈ locks MySQL agg s → (∃ k, x = RKid k) ∨ ∃ p, x = RPar p ∧ p ∈ parents s.
Proof.
  destruct s as [k [p|]|k [p|] [q|]|k [p|]|p], agg; cbn; try case_bool_decide; cbn; rewrite ?elem_of_cons, ?elem_of_nil; intros Hin;
    repeat destruct Hin as [Hin|Hin]; try done; injection Hin as -> ->; first [left; by eexists | right; eexists; split; [done|set_solver]].
Qed.
Definition pw (p : Z) : req := (RPar p, MX).
Lemma order_my agg ps body : StronglySorted Z.lt ps → (∀ p, p ∈ body ≫= parents → p ∈ ps) → in_order MySQL (tlocks MySQL agg ((PSav <$> ps) ++ body)).
Proof.
  intros Hs Hb. unfold tlocks. rewrite bind_app.
  assert (Hps : @eq (list req) (mbind (B:=req) (locks MySQL agg) (PSav <$> ps)) (pw <$> ps)). { clear. induction ps as [|p ps IH]; [done|]. cbn. f_equal. exact IH. }
  rewrite Hps. intros l1 r l2 Hl Hr.
  destruct (decide (length l1 < length ps)%nat) as [Hlt|Hge].
  - right. intros h Hh _. destruct (elem_of_list_lookup_1 _ _ Hh) as [i Hi]. assert (Hi1 : (i < @length req l1)%nat) by exact (lookup_lt_Some _ _ _ Hi).
    assert (Hr' : (pw <$> ps) !! length l1 = Some r).
    { rewrite <- (lookup_app_l (pw <$> ps) (mbind (B:=req) (locks MySQL agg) body) (length l1)) by (rewrite fmap_length; lia). rewrite Hl. by apply list_lookup_middle. }
    assert (Hh' : (pw <$> ps) !! i = Some h).
    { rewrite <- (lookup_app_l (pw <$> ps) (mbind (B:=req) (locks MySQL agg) body) i) by (rewrite fmap_length; lia). rewrite Hl. by rewrite lookup_app_l. }
    rewrite list_lookup_fmap in Hr', Hh'. destruct (ps !! length l1) as [p|] eqn:Ep; [|done]. destruct (ps !! i) as [q|] eqn:Eq; [|done].
    injection Hr' as <-. injection Hh' as <-. unfold before; cbn. clear -Hs Ep Eq Hi1. revert i Eq Hi1. remember (length l1) as n eqn:En. clear En l1.
    revert n Ep. induction Hs as [|a ps Hs IH Ha]; intros [|n] Ep [|i] Eq Hi; try done; try lia.
    + cbn in Eq, Ep. injection Eq as ->. rewrite Forall_forall in Ha. apply Ha. by eapply elem_of_list_lookup_2.
    + cbn in Eq, Ep. apply (IH n Ep i Eq). lia.
  - assert (Hl1 : ∃ l', l1 = (pw <$> ps) ++ l').
    { exists (drop (length ps) l1). rewrite <- (take_drop (length ps) l1) at 1. f_equal.
      transitivity (take (length ps) (l1 ++ r :: l2)); [symmetry; apply take_app_le; lia|]. rewrite <- Hl. rewrite <- (fmap_length pw ps) at 1. apply take_app. }
    destruct Hl1 as [l' ->]. rewrite <- app_assoc in Hl. apply app_inv_head in Hl.
    assert (Hin : r ∈ body ≫= locks MySQL agg) by (rewrite Hl; set_solver).
    apply elem_of_list_bind in Hin as (s & Hin & Hsb). destruct r as [x m]. destruct (locks_my _ _ _ _ Hin) as [[k ->]|(p & -> & Hp)].
    + right. intros h _ _. unfold before. by destruct (pos h.1).
    + left. cbn [fst]. apply elem_of_app. left. apply elem_of_list_fmap. exists p. split; [done|]. apply Hb, elem_of_list_bind. by exists s.
Qed.

(** SQLite: one lock. *)
Lemma order_lite agg tx : in_order SQLite (tlocks SQLite agg tx).
Proof.
  intros l1 r l2 Hl _. assert (Hall : ∀ x, x ∈ tlocks SQLite agg tx → x = (RAll, MX)).
  { intros x Hx. unfold tlocks in Hx. apply elem_of_list_bind in Hx as (s & Hx & _). cbn in Hx. set_solver. }
  assert (Hr : r = (RAll, MX)) by (apply Hall; rewrite Hl; set_solver). subst r.
  destruct l1 as [|h l1]; [right; intros h Hh; by apply elem_of_nil in Hh|]. left. cbn [fst]. rewrite (Hall h) by (rewrite Hl; set_solver). left.
Qed.
Lemma own_lite agg txs : own_rows (tlocks SQLite agg <$> txs).
Proof.
  intros i j l l' k m m' _ Hi _ Hk _. rewrite list_lookup_fmap in Hi. destruct (txs !! i) as [t|]; [|done]. injection Hi as <-.
  unfold tlocks in Hk. apply elem_of_list_bind in Hk as (s & Hk & _). cbn in Hk. set_solver.
Qed.

(** Without the triggers, transactions that write posts only exclude nobody. *)
Definition posts_only (tx : list stmt) : Prop := ∀ p, PSav p ∉ tx.
Lemma locks_plain b s x m : b ≠ SQLite → (∀ p, s ≠ PSav p) → (x, m) ∈ locks b false s → (∃ k, x = RKid k ∧ k ∈ kids_of s) ∨ ∃ p, x = RPar p ∧ m = MS.
Proof.
  intros Hb Hp H. destruct b; [done| |]; destruct s as [k [p|]|k [p|] [q|]|k [p|]|p]; cbn in H; try case_bool_decide; cbn in H;
    try (by destruct (Hp p)); rewrite ?elem_of_cons, ?elem_of_nil in H; repeat destruct H as [H|H]; try done; injection H as -> ->;
    first [right; eexists; by split | left; eexists; split; [done|cbn; set_solver]].
Qed.
Lemma plain_free b txs : b ≠ SQLite → own_posts txs → (∀ tx, tx ∈ txs → posts_only tx) → no_conflict b (tlocks b false <$> txs).
Proof.
  intros Hb Ho Hp i j l l' r r' Hn Hi Hj Hr Hr' Hrr. rewrite list_lookup_fmap in Hi, Hj.
  destruct (txs !! i) as [t|] eqn:Ei; [|done]. destruct (txs !! j) as [t'|] eqn:Ej; [|done]. injection Hi as <-. injection Hj as <-.
  unfold tlocks in Hr, Hr'. apply elem_of_list_bind in Hr as (s & Hks & Hs). apply elem_of_list_bind in Hr' as (s' & Hks' & Hs').
  assert (Hps : ∀ p, s ≠ PSav p) by (intros p ->; by apply (Hp t (elem_of_list_lookup_2 _ _ _ Ei) p)).
  assert (Hps' : ∀ p, s' ≠ PSav p) by (intros p ->; by apply (Hp t' (elem_of_list_lookup_2 _ _ _ Ej) p)).
  destruct r as [x m], r' as [x' m']. cbn [fst snd] in *. subst x'.
  destruct (locks_plain b s x m Hb Hps Hks) as [(k & -> & Hk)|(p & -> & ->)]; destruct (locks_plain b s' _ m' Hb Hps' Hks') as [(k' & Hx & Hk')|(p' & Hx & ->)]; try done.
  injection Hx as <-. exfalso. apply (Ho i j t t' k Hn Ei Ej); apply elem_of_list_bind; [by exists s|by exists s'].
Qed.
Definition own_postsb (txs : list (list stmt)) : bool :=
  forallb (λ x, forallb (λ y, bool_decide (x.1 = y.1) || forallb (λ k, negb (bool_decide (k ∈ y.2 ≫= kids_of))) (x.2 ≫= kids_of)) (imap pair txs)) (imap pair txs).
Lemma own_postsb_ok txs : own_postsb txs = true → own_posts txs.
Proof.
  intros H i j t t' k Hn Hi Hj Hk Hk'. unfold own_postsb in H. rewrite forallb_forall in H.
  assert (Hx : In (i, t) (imap pair txs)) by (apply elem_of_list_In, elem_of_lookup_imap; by exists i, t).
  assert (Hy : In (j, t') (imap pair txs)) by (apply elem_of_list_In, elem_of_lookup_imap; by exists j, t').
  specialize (H _ Hx). rewrite forallb_forall in H. specialize (H _ Hy). cbn [fst snd] in H. rewrite bool_decide_eq_false_2 in H by done. cbn in H.
  rewrite forallb_forall in H. assert (Hin : In k (t ≫= kids_of)) by (by apply elem_of_list_In). specialize (H _ Hin).
  apply negb_true_iff, bool_decide_eq_false in H. done.
Qed.
Lemma deadlock_run b txs is s i t : sched b (start txs) is = Some s →
  forallb (λ i, match lstep b s i with None => true | _ => false end) (seq 0 (length s)) = true → s !! i = Some t → t ≠ Thr [] [] → deadlock b txs.
Proof. intros H1 H2 H3 H4. exists s. split_and!; [by eapply sched_rtc|by apply stands_spec|by eapply not_committed]. Qed.
Lemma posts_ok txs : forallb (forallb (λ s, match s with PSav _ => false | _ => true end)) txs = true → ∀ tx, tx ∈ txs → posts_only tx.
Proof.
  intros H tx Htx p Hp. rewrite forallb_forall in H. apply elem_of_list_In in Htx. specialize (H _ Htx). rewrite forallb_forall in H.
  apply elem_of_list_In in Hp. by specialize (H _ Hp).
Qed.
