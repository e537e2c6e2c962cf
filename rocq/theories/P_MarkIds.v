(** * Claims on the ids of the markers (C138, C139). *)
From Verif Require Import Base BaseLemmas Schema MarkIds.

(** ** C138 *)
Definition mk (k : string) : marker := (7, Some k).
(** PostgreSQL: after markers were restored with their ids, the trigger catches the clash and the marker is lost; one clash loses
    all markers of the statement. *)
Theorem restored_refuted :
  (let s := ihist Postgres [ILoad 1 (mk "1")] in
   (mark Postgres [mk "2"] s).2 = true ∧ ¬ marked (mark Postgres [mk "2"] s).1 (mk "2")) ∧
  (let s := ihist Postgres [ILoad 2 (mk "1")] in
   (mark Postgres [mk "2"; mk "3"] s).2 = true ∧ i_rows (mark Postgres [mk "2"; mk "3"] s).1 = i_rows s).
Proof.
  cbv zeta. split; (split; [vm_compute; reflexivity|]).
  - intros [i Hi]. change (i_rows (mark Postgres [mk "2"] (ihist Postgres [ILoad 1 (mk "1")])).1) with (<[1 := mk "1"]> (∅ : gmap Z marker)) in Hi.
    apply lookup_insert_Some in Hi as [[_ [=]]|[_ Hi]]. by rewrite lookup_empty in Hi.
  - vm_compute. reflexivity.
Qed.
Print Assumptions restored_refuted.
(** The number is used up, so later statements come to free numbers. *)
Theorem restored_recovers s m n : i_next s + Z.of_nat n ≤ maxid Postgres → (∀ i, i_next s ≤ i < i_next s + Z.of_nat n → is_Some (i_rows s !! i)) →
  i_rows s !! (i_next s + Z.of_nat n) = None →
  let s1 := foldl (λ s o, (irun Postgres o s).1) s (replicate n (IMark [m])) in
  i_rows s1 = i_rows s ∧ (mark Postgres [m] s1).2 = true ∧ i_rows (mark Postgres [m] s1).1 = <[i_next s + Z.of_nat n := m]> (i_rows s).
Proof.
  intros Hn Hi Hf s1. unfold s1. rewrite clash_steps by done. cbn [i_rows mark i_next pg_ins]. rewrite bool_decide_eq_false_2 by lia. by rewrite Hf.
Qed.
Print Assumptions restored_recovers.
Example restored_recovers_ex : let s := ihist Postgres [ILoad 1 (mk "1"); ILoad 2 (mk "1")] in
  i_next s = 1 ∧ is_Some (i_rows s !! 1) ∧ is_Some (i_rows s !! 2) ∧ i_rows s !! 3 = None.
Proof. cbv zeta. split_and!; [reflexivity|by eexists|by eexists|reflexivity]. Qed.
(** PostgreSQL and SQLite: although flush() has deleted all markers, no row can be marked any more, and it stays so until the sequence is set anew. *)
Theorem exhausted_refuted b (m : marker) : b ≠ MySQL → ∃ ops, Forall is_mark ops ∧
  Z.of_nat (sum_list_with given ops) = (if bool_decide (b = SQLite) then 9223372036854775807 else 2147483647) ∧ i_rows (ihist b ops) = ∅ ∧
  ∀ ops' l, Forall (λ o, o ≠ IReset) ops' → l ≠ [] → (irun b (IMark l) (ihist b (ops ++ ops'))).2 = false.
Proof.
  intros Hb. assert (H0 : 0 ≤ maxid b) by (destruct b; vm_compute; discriminate). destruct (Z_of_nat_complete _ H0) as [n Hn]. exists (rounds m n).
  assert (Hs : ihist b (rounds m n) = Idt ∅ (1 + maxid b)).
  { rewrite rounds_state by (done || lia). f_equal. lia. }
  split_and!.
  - apply rounds_mark.
  - rewrite rounds_given, <- Hn. by destruct b.
  - by rewrite Hs.
  - intros ops' l Ho Hl. unfold ihist at 1. rewrite foldl_app. change (foldl _ idt0 (rounds m n)) with (ihist b (rounds m n)).
    rewrite Hs. cbn [irun]. rewrite full_raises; [done|done| |done]. apply full_stays; [done|cbn [i_next]; lia|done].
Qed.
Print Assumptions exhausted_refuted.
(** MySQL: the markers are lost while the last number is in the table. *)
Theorem exhausted_mysql_refuted (m a c : marker) : a ≠ c → ∃ ops, Forall is_mark ops ∧ Z.of_nat (sum_list_with given ops) = 2147483647 ∧ let s := ihist MySQL ops in
  marked s a ∧ (mark MySQL [c] s).2 = true ∧ ¬ marked (mark MySQL [c] s).1 c.
Proof.
  intros Hac. assert (H0 : 0 ≤ maxid MySQL - 1) by (vm_compute; discriminate). destruct (Z_of_nat_complete _ H0) as [n Hn].
  assert (Hs : ihist MySQL (rounds m n) = Idt ∅ (maxid MySQL)).
  { rewrite rounds_state_my by lia. f_equal. lia. }
  exists (rounds m n ++ [IMark [a]]). split; [apply Forall_app; split; [apply rounds_mark|by repeat constructor]|].
  split; [rewrite sum_list_with_app, rounds_given; cbn [sum_list_with given length]; assert (maxid MySQL = 2147483647) by reflexivity; lia|].
  assert (Hs' : ihist MySQL (rounds m n ++ [IMark [a]]) = Idt {[maxid MySQL := a]} (maxid MySQL)).
  { unfold ihist. rewrite foldl_snoc. change (foldl _ idt0 (rounds m n)) with (ihist MySQL (rounds m n)). rewrite Hs.
    cbn [irun mark foldl fst]. unfold my_ins1. cbn [i_rows i_next]. rewrite lookup_empty. unfold singletonM, map_singleton. f_equal. }
  cbv zeta. rewrite Hs'. rewrite my_full; [|done|cbn [i_rows]; rewrite lookup_singleton; by eexists]. cbn [fst snd].
  split_and!; [exists (maxid MySQL); cbn [i_rows]; by rewrite lookup_singleton|done|].
  intros [i Hi]. cbn [i_rows] in Hi. apply lookup_singleton_Some in Hi as [_ ->]. done.
Qed.
Print Assumptions exhausted_mysql_refuted.

(** ** C139 *)
(** As long as there are numbers left, the markers of a statement and no others are added; on PostgreSQL if no markers were restored with their ids,
    unless the sequence has been set anew. *)
Theorem ids_mark b ops l : (b = Postgres → Forall no_load ops) → let s := ihist b ops in
  i_next s + Z.of_nat (length l) - 1 ≤ maxid b → (b = MySQL → i_rows s !! maxid MySQL = None) → marks_all b s l.
Proof. intros Hn s Hl Hm. apply good_marks; [by apply good_ihist|done|done]. Qed.
Print Assumptions ids_mark.
Definition id_ops : list iop := [IMark [mk "1"; mk "2"]; IDel (mk "1"); IReset; IMark [mk "2"]; ILoad 40 (mk "9")].
Example ids_mark_ex b : b ≠ Postgres → let s := ihist b id_ops in
  i_next s + Z.of_nat (length [mk "3"; mk "4"]) - 1 ≤ maxid b ∧ i_rows s !! maxid MySQL = None ∧ i_next s = 41 ∧ size (i_rows s) = 3%nat.
Proof. intros Hb. destruct b; [|done|]; cbv zeta; (split; [vm_compute; discriminate|]); (split; [vm_compute; reflexivity|]); (split; vm_compute; reflexivity). Qed.
Example ids_mark_pg_ex : let ops := take 4 id_ops in let s := ihist Postgres ops in Forall no_load ops ∧
  i_next s + Z.of_nat (length [mk "3"; mk "4"]) - 1 ≤ maxid Postgres ∧ i_next s = 4 ∧ size (i_rows s) = 2%nat.
Proof. cbv zeta. split; [repeat constructor|]. split; [vm_compute; discriminate|]. split; vm_compute; reflexivity. Qed.
(** In particular, with triggers and flush() alone for the first 2147483647 markers (on SQLite 9223372036854775807). *)
Theorem ids_enough b ops l : Forall is_mark ops → l ≠ [] → Z.of_nat (sum_list_with given ops) + Z.of_nat (length l) ≤ maxid b → marks_all b (ihist b ops) l.
Proof.
  intros Hf Hl Hs. pose proof (ihist_next b ops Hf) as Hn. apply good_marks.
  - apply good_ihist. intros _. eapply Forall_impl; [exact Hf|]. by intros [].
  - lia.
  - intros ->. apply my_max_free; [done|]. assert (1 ≤ Z.of_nat (length l)) by (destruct l; [done|cbn; lia]). lia.
Qed.
Print Assumptions ids_enough.
Example ids_enough_ex b : let ops := [IMark [mk "1"; mk "2"]; IDel (mk "1")] in
  Forall is_mark ops ∧ Z.of_nat (sum_list_with given ops) + Z.of_nat (length [mk "1"]) ≤ maxid b ∧ marked (ihist b ops) (mk "2").
Proof. cbv zeta. split; [repeat constructor|]. split; [destruct b; vm_compute; discriminate|]. exists 2. destruct b; vm_compute; reflexivity. Qed.
(** On SQLite always, and on PostgreSQL if no markers were restored, a statement that can not leave its markers raises. *)
Theorem never_silent b ops l : b ≠ MySQL → (b = Postgres → Forall no_load ops) → keeps_marks b (ihist b ops) l.
Proof. intros Hb Hn. apply not_silent; [done|by apply good_ihist]. Qed.
Print Assumptions never_silent.
Example never_silent_ex : (mark SQLite [mk "3"] (ihist SQLite id_ops)).2 = true ∧
  (mark SQLite [mk "3"] (ihist SQLite [ILoad 9223372036854775807 (mk "1")])).2 = false.
Proof. split; vm_compute; reflexivity. Qed.
(** Setting the sequence anew repairs a restored table. *)
Theorem reset_repairs ops l : let s := (irun Postgres IReset (ihist Postgres ops)).1 in
  top (i_rows s) + Z.of_nat (length l) ≤ maxid Postgres → marks_all Postgres s l.
Proof.
  intros s Hl. apply good_marks; [|unfold s in *; cbn [irun fst i_rows i_next] in *; lia|done].
  intros i Hi. unfold s in *. cbn [irun fst i_rows i_next] in *. pose proof (top_ge _ _ Hi). lia.
Qed.
Print Assumptions reset_repairs.
Example reset_repairs_ex : let ops := [ILoad 1 (mk "1"); ILoad 5 (mk "2"); IMark [mk "3"]] in let s := (irun Postgres IReset (ihist Postgres ops)).1 in
  size (i_rows (ihist Postgres ops)) = 2%nat ∧ top (i_rows s) = 5 ∧ top (i_rows s) + Z.of_nat (length [mk "3"]) ≤ maxid Postgres.
Proof. cbv zeta. split; [vm_compute; reflexivity|]. split; [vm_compute; reflexivity|]. vm_compute. discriminate. Qed.
