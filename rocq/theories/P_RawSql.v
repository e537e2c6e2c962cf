(** * Claims on statements other than INSERT, UPDATE and DELETE (C142, C143). *)
From Verif Require Import Base BaseLemmas Schema RawSql.

(** ** C142 *)
(** A parent with two children; the children are truncated: after a flush both fields still say 2. *)
Theorem raw_truncate_refuted : ∃ ops, ∀ b rec, b ≠ SQLite → let s := rhist b rec (ops ++ [REmpty; RFlush]) in
  r_kids s !! 1 = None ∧ r_kids s !! 2 = None ∧ kids_n (r_kids s) 7 = 0 ∧ r_pars s !! 7 = Some (Rpar 2 2) ∧ r_marks s = [].
Proof. exists [RPar 7; RIns 1 (Some 7); RIns 2 (Some 7); RFlush]. intros b rec Hb. destruct b, rec; (done || (vm_compute; done)). Qed.
Print Assumptions raw_truncate_refuted.
(** A REPLACE that moves a child: the fields of the old parent are wrong on SQLite; on MySQL they are right. *)
Theorem raw_replace_refuted : ∃ ops o, let s b := rhist b false (ops ++ [o; RFlush]) in
  (∀ b, b ≠ Postgres → r_kids (s b) !! 1 = Some (Some 8) ∧ kids_n (r_kids (s b)) 7 = 0 ∧ r_pars (s b) !! 8 = Some (Rpar 1 1)) ∧
  r_pars (s SQLite) !! 7 = Some (Rpar 1 1) ∧ r_pars (s MySQL) !! 7 = Some (Rpar 0 0) ∧
  r_pars (rhist SQLite true (ops ++ [o; RFlush])) !! 7 = Some (Rpar 0 0).
Proof.
  exists [RPar 7; RPar 8; RIns 1 (Some 7); RFlush], (RReplace 1 (Some 8)). cbv zeta. split; [intros b Hb; destruct b; (done || (vm_compute; done))|].
  vm_compute. done.
Qed.
Print Assumptions raw_replace_refuted.

(** ** C143 *)
(** If every row is noticed the count is right at once, the callback field right or marked, and right after the next flush. *)
Theorem raw_noticed b rec ops : all_noticed b rec rst0 ops → let s := rhist b rec ops in ∀ k,
  (∀ x, r_pars s !! k = Some x → r_cnt x = kids_n (r_kids s) k ∧ (r_cb x = kids_n (r_kids s) k ∨ k ∈ r_marks s)) ∧
  (∀ x, r_pars (rstep b rec s RFlush) !! k = Some x → r_cb x = kids_n (r_kids s) k ∧ r_cnt x = kids_n (r_kids s) k).
Proof.
  intros Ha s k. destruct (run_inv b rec ops rst0 (λ _, 0) inv0) as (Hr & Ho & Hz).
  assert (Hc : cb_ok s) by (apply (run_cb b rec ops rst0 (λ _, 0) inv0 Ha); intros k' x; cbn; by rewrite lookup_empty).
  assert (Ho' : ∀ x, r_pars s !! k = Some x → r_cnt x = kids_n (r_kids s) k).
  { intros x Hx. rewrite (Ho k x Hx), (noticed_silents b rec ops k rst0 Ha). fold (rhist b rec ops). subst s. lia. }
  split; [intros x Hx; split; [by apply Ho'|by apply Hc]|]. intros x Hx. unfold rstep in Hx. cbn [rrun r_pars] in Hx. split.
  - eapply fresh_cb; [|exact Hc|exact Hx]. intros k' Hk. by apply bool_decide_eq_true_2.
  - rewrite fresh_lookup in Hx. apply fmap_Some in Hx as (y & Hy & ->). rewrite <- (Ho' y Hy). by destruct (bool_decide _).
Qed.
Print Assumptions raw_noticed.
Definition raw_ops : list rop :=
  [RPar 7; RPar 8; RIns 1 (Some 7); RIgnore 2 (Some 7); RIgnore 1 (Some 8); RFlush; RReplace 3 (Some 8); RDel 2; RIns 4 None; RReplace 1 (Some 8)].
Example raw_noticed_ex : (∀ rec, all_noticed MySQL rec rst0 raw_ops) ∧ all_noticed SQLite true rst0 (raw_ops ++ [REmpty]) ∧
  (let s := rhist MySQL false raw_ops in r_pars s !! 8 = Some (Rpar 2 0) ∧ 8 ∈ r_marks s ∧ r_pars (rstep MySQL false s RFlush) !! 8 = Some (Rpar 2 2)) ∧
  r_pars (rhist SQLite true (raw_ops ++ [REmpty])) !! 8 = Some (Rpar 0 0).
Proof.
  split; [intros rec; by repeat (split; [done|])|]. split; [cbn [all_noticed raw_ops app noticed]; repeat (split; [by try left|]); done|].
  split; [split; [vm_compute; done|split; [left|vm_compute; done]]|vm_compute; done].
Qed.
(** Whatever happens, the count is too high by the rows that went unnoticed since all tables were emptied; so the check of the field
    never fails. *)
Theorem raw_drift b rec ops k x : let s := rhist b rec ops in r_pars s !! k = Some x →
  r_cnt x = kids_n (r_kids s) k + silents b rec rst0 ops 0 k ∧ 0 ≤ silents b rec rst0 ops 0 k.
Proof.
  intros s Hx. destruct (run_inv b rec ops rst0 (λ _, 0) inv0) as (_ & Ho & _). split; [by apply Ho|]. by apply silents_pos.
Qed.
Print Assumptions raw_drift.
Example raw_drift_ex : silents SQLite false rst0 (raw_ops ++ [REmpty]) 0 7 = 1 ∧ r_pars (rhist SQLite false (raw_ops ++ [REmpty])) !! 7 = Some (Rpar 1 2) ∧
  silents Postgres false rst0 (raw_ops ++ [REmpty]) 0 7 = 1 ∧ silents Postgres false rst0 (raw_ops ++ [REmpty; REmptyAll]) 0 7 = 0.
Proof. vm_compute. done. Qed.
(** denorm_rebuild makes the callback field right after any statements; the count stays as it is. *)
Theorem raw_rebuild b rec ops k x : let s := rhist b rec ops in r_pars s !! k = Some x →
  r_pars (rstep b rec s RRebuild) !! k = Some (Rpar (r_cnt x) (kids_n (r_kids s) k)) ∧ r_kids (rstep b rec s RRebuild) = r_kids s.
Proof. intros s Hx. unfold rstep. cbn [rrun r_pars r_kids]. rewrite fresh_lookup, Hx. done. Qed.
Print Assumptions raw_rebuild.
Example raw_rebuild_ex : r_pars (rhist MySQL false (raw_ops ++ [REmpty; RRebuild])) !! 8 = Some (Rpar 2 0).
Proof. vm_compute. done. Qed.
(** What the statements do to the children; nothing else changes them. *)
Theorem raw_rows b rec o s s' : rrun b rec o s = Ok s' → r_kids s' =
  match o with
  | RIns i p | RReplace i p => <[i := p]> (r_kids s)
  | RIgnore i p => if decide (r_kids s !! i = None) then <[i := p]> (r_kids s) else r_kids s
  | RDel i => delete i (r_kids s)
  | REmpty | REmptyAll => ∅
  | RPar _ | RFlush | RRebuild => r_kids s
  end.
Proof.
  destruct o as [k|i p|i|i p|i p| | | |]; cbn [rrun].
  - destruct (r_pars s !! k); [done|]. by intros [= <-].
  - destruct (r_kids s !! i); [done|]. destruct (fk_ok s p); [|done]. intros [= <-]. unfold ins_kid. by rewrite rtrig_kids.
  - destruct (r_kids s !! i) eqn:Hi; intros [= <-]; [unfold del_kid; by rewrite rtrig_kids|]. by rewrite delete_notin.
  - destruct (r_kids s !! i) eqn:Hi; [intros [= <-]; by rewrite decide_False|]. destruct (fk_ok s p); [|done]. intros [= <-]. unfold ins_kid. by rewrite rtrig_kids, decide_True.
  - set (r := bool_decide (b = MySQL) || rec). clearbody r. destruct b; [|done|]; (destruct (fk_ok s p); [|done]; destruct (r_kids s !! i) eqn:Hi; intros [= <-]; unfold ins_kid; rewrite rtrig_kids; cbn [set_kids r_kids]; [|done];
      destruct r; unfold del_kid; rewrite ?rtrig_kids; cbn [set_kids r_kids]; by rewrite insert_delete_insert).
  - destruct b; intros [= <-]; [apply del_every_kids|done..].
  - by intros [= <-].
  - by intros [= <-].
  - by intros [= <-].
Qed.
Print Assumptions raw_rows.
(** Which statements raise. *)
Theorem raw_raises b rec o s e : rrun b rec o s = Err e →
  match o with
  | RPar k => is_Some (r_pars s !! k) ∧ e = EIntegrity
  | RIns i p => (is_Some (r_kids s !! i) ∨ fk_ok s p = false) ∧ e = EIntegrity
  | RIgnore i p => r_kids s !! i = None ∧ fk_ok s p = false ∧ e = EIntegrity
  | RReplace i p => b = Postgres ∧ e = ESyntax ∨ b ≠ Postgres ∧ fk_ok s p = false ∧ e = EIntegrity
  | _ => False
  end.
Proof.
  destruct o as [k|i p|i|i p|i p| | | |]; cbn [rrun]; try done.
  - destruct (r_pars s !! k); [|done]. intros [= <-]. eauto.
  - destruct (r_kids s !! i); [intros [= <-]; eauto|]. destruct (fk_ok s p); [done|]. intros [= <-]. eauto.
  - by destruct (r_kids s !! i).
  - destruct (r_kids s !! i); [done|]. destruct (fk_ok s p); [done|]. intros [= <-]. eauto.
  - destruct b; [|intros [= <-]; by left|]; (destruct (fk_ok s p); [by destruct (r_kids s !! i)|]; intros [= <-]; right; done).
  - by destruct b.
Qed.
Print Assumptions raw_raises.
Example raw_raises_ex : rrun Postgres false (RReplace 1 None) (rhist Postgres false raw_ops) = Err ESyntax ∧ rrun MySQL false (RIgnore 9 (Some 9)) (rhist MySQL false raw_ops) = Err EIntegrity.
Proof. vm_compute. done. Qed.
(** Only emptying all tables removes parents, and only an INSERT of a parent adds one; flush() and the emptying leave no markers. *)
Theorem raw_parents b rec o s s' : rrun b rec o s = Ok s' →
  (∀ k, is_Some (r_pars s' !! k) ↔ match o with RPar k' => k = k' ∨ is_Some (r_pars s !! k) | REmptyAll => False | _ => is_Some (r_pars s !! k) end) ∧
  match o with REmptyAll | RFlush | RRebuild => r_marks s' = [] | _ => ∀ k, k ∈ r_marks s → k ∈ r_marks s' end.
Proof.
  assert (Hi : ∀ i p s k, k ∈ r_marks s → k ∈ r_marks (ins_kid i p s)) by (intros; apply rtrig_marks; by right).
  assert (Hd : ∀ i p s k, k ∈ r_marks s → k ∈ r_marks (del_kid i p s)) by (intros; apply rtrig_marks; by right).
  assert (Hl : ∀ l s k, k ∈ r_marks s → k ∈ r_marks (foldl (λ s x, del_kid x.1 x.2 s) s l)).
  { intros l. induction l as [|x l IH]; intros s0 k Hk; [done|]. cbn [foldl]. apply IH. by apply Hd. }
  destruct o as [k|i p|i|i p|i p| | | |]; cbn [rrun].
  - destruct (r_pars s !! k) eqn:Hk; [done|]. intros [= <-]. cbn. split; [|done]. intros k'. rewrite lookup_insert_is_Some. destruct (decide (k' = k)); naive_solver.
  - destruct (r_kids s !! i); [done|]. destruct (fk_ok s p); [|done]. intros [= <-]. split; [apply ins_some|by apply Hi].
  - destruct (r_kids s !! i); intros [= <-]; [|done]. split; [apply del_some|by apply Hd].
  - destruct (r_kids s !! i); [by intros [= <-]|]. destruct (fk_ok s p); [|done]. intros [= <-]. split; [apply ins_some|by apply Hi].
  - set (r := bool_decide (b = MySQL) || rec). clearbody r. destruct b; [|done|]; (destruct (fk_ok s p); [|done]; destruct (r_kids s !! i) as [o|]; intros [= <-];
      [|split; [apply ins_some|by apply Hi]]; destruct r; [|split; [intros k; exact (ins_some i p (set_kids _ s) k)|intros k Hk; by apply Hi]]; split; [intros k; rewrite ins_some; apply del_some|intros k Hk; by apply Hi, Hd]).
  - destruct b; intros [= <-]; [|done..]. split; [intros k; apply del_all_some|intros k; apply Hl].
  - intros [= <-]. split; [|done]. intros k. cbn. rewrite lookup_empty. split; [by intros [? ?]|done].
  - intros [= <-]. split; [|done]. intros k. cbn [r_pars]. by rewrite fresh_lookup, fmap_is_Some.
  - intros [= <-]. split; [|done]. intros k. cbn [r_pars]. by rewrite fresh_lookup, fmap_is_Some.
Qed.
Print Assumptions raw_parents.
