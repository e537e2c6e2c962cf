(** * Claims on the locks of concurrent transactions (C136, C137). *)
From Coq Require Import Sorting.Sorted.
From Verif Require Import Base BaseLemmas Schema Locks.

(** ** C136 *)
(** Without the triggers: transactions that write different posts never wait for each other for ever. *)
Theorem plain_finish b txs : b ≠ SQLite → own_posts txs → (∀ tx, tx ∈ txs → posts_only tx) → finishes b (tlocks b false <$> txs).
Proof. intros Hb Ho Hp. apply free_finishes. by apply plain_free. Qed.
Print Assumptions plain_finish.
(** With them, two transactions that write posts of the same two forums in another order do; neither has a row in common with the other. *)
Definition crossing : list (list stmt) := [[KIns 1 (Some 1); KIns 2 (Some 2)]; [KIns 3 (Some 2); KIns 4 (Some 1)]].
Example plain_finish_ex : own_posts crossing ∧ (∀ tx, tx ∈ crossing → posts_only tx) ∧ tlocks MySQL false <$> crossing ≠ [] ∧
  finishes Postgres (tlocks Postgres false <$> crossing) ∧ finishes MySQL (tlocks MySQL false <$> crossing).
Proof.
  assert (H1 : own_posts crossing) by (apply own_postsb_ok; vm_compute; reflexivity).
  assert (H2 : ∀ tx, tx ∈ crossing → posts_only tx). { apply posts_ok. vm_compute. reflexivity. }
  split_and!; [done|done|done| |]; by apply plain_finish.
Qed.
Theorem crossing_refuted : ∃ txs, own_posts txs ∧ (∀ tx, tx ∈ txs → posts_only tx) ∧ length txs = 2%nat ∧
  deadlock Postgres (tlocks Postgres true <$> txs) ∧ ∀ b, b ≠ SQLite → finishes b (tlocks b false <$> txs).
Proof.
  exists crossing. destruct plain_finish_ex as (H1 & H2 & _). split_and!; [done|done|done| |intros b Hb; by apply plain_finish].
  apply (deadlock_run Postgres _ [0;0;0;1;1;1;0;0;1;1]%nat (default [] (sched Postgres (start (tlocks Postgres true <$> crossing)) [0;0;0;1;1;1;0;0;1;1]%nat)) 0%nat
    (Thr [(RPar 2, MS); (RKid 2, MX); (RPar 1, MX); (RPar 1, MS); (RKid 1, MX)] [(RPar 2, MX)])); [vm_compute; reflexivity..|done].
Qed.
Print Assumptions crossing_refuted.
(** Two single statements are enough if both move a post, or on MySQL if both insert one. *)
Theorem moving_refuted b : b ≠ SQLite → let txs := [[KUpd 1 (Some 1) (Some 2)]; [KUpd 2 (Some 2) (Some 1)]] in
  own_posts txs ∧ deadlock b (tlocks b true <$> txs) ∧ finishes b (tlocks b false <$> txs).
Proof.
  intros Hb txs. assert (H1 : own_posts txs) by (apply own_postsb_ok; vm_compute; reflexivity). split; [done|]. split.
  - destruct b; [done| |].
    + apply (deadlock_run Postgres _ [0;0;0;1;1;1]%nat (default [] (sched Postgres (start (tlocks Postgres true <$> txs)) [0;0;0;1;1;1]%nat)) 0%nat
        (Thr [(RPar 2, MX); (RPar 2, MS); (RKid 1, MX)] [(RPar 1, MX)])); [vm_compute; reflexivity..|done].
    + apply (deadlock_run MySQL _ [0;0;0;1;1;1]%nat (default [] (sched MySQL (start (tlocks MySQL true <$> txs)) [0;0;0;1;1;1]%nat)) 0%nat
        (Thr [(RPar 2, MX); (RPar 2, MS); (RKid 1, MX)] [(RPar 1, MX)])); [vm_compute; reflexivity..|done].
  - apply plain_finish; [done|done|]. apply posts_ok. vm_compute. reflexivity.
Qed.
Print Assumptions moving_refuted.
Theorem mysql_insert_refuted : let txs := [[KIns 1 (Some 1)]; [KIns 2 (Some 1)]] in
  own_posts txs ∧ deadlock MySQL (tlocks MySQL true <$> txs) ∧ finishes MySQL (tlocks MySQL false <$> txs) ∧ ¬ deadlock Postgres (tlocks Postgres true <$> txs).
Proof.
  intros txs. assert (H1 : own_posts txs) by (apply own_postsb_ok; vm_compute; reflexivity). split; [done|]. split_and!.
  - apply (deadlock_run MySQL _ [0;0;1;1]%nat (default [] (sched MySQL (start (tlocks MySQL true <$> txs)) [0;0;1;1]%nat)) 0%nat
      (Thr [(RPar 1, MS); (RKid 1, MX)] [(RPar 1, MX)])); [vm_compute; reflexivity..|done].
  - apply plain_finish; [done|done|]. apply posts_ok. vm_compute. reflexivity.
  - apply finishes_no_deadlock, ordered_finishes; [by apply own_of|]. intros l (tx & -> & Htx)%elem_of_list_fmap. apply order_pg.
    unfold txs in Htx. apply elem_of_cons in Htx as [->|Htx]; [|apply elem_of_list_singleton in Htx as ->]; cbn; repeat constructor.
Qed.
Print Assumptions mysql_insert_refuted.

(** ** C137 *)
(** PostgreSQL: all transactions commit if each of them comes to the forums in ascending order; in particular, if each writes posts of one forum only. *)
Theorem ordered_pg txs : own_posts txs → (∀ tx, tx ∈ txs → StronglySorted Z.le (tx ≫= parents)) → finishes Postgres (tlocks Postgres true <$> txs).
Proof.
  intros Ho Hs. apply ordered_finishes; [by apply own_of|]. intros l (tx & -> & Htx)%elem_of_list_fmap. by apply order_pg, Hs.
Qed.
Print Assumptions ordered_pg.
Definition sorted_txs : list (list stmt) :=
  [[KIns 1 (Some 1); KDel 2 (Some 2); KUpd 3 (Some 3) (Some 2)]; [KUpd 4 (Some 1) (Some 1); PSav 2; KIns 5 (Some 3)]; [KIns 6 None; KIns 7 (Some 2); KIns 8 (Some 2)]].
Example ordered_pg_ex : own_posts sorted_txs ∧ ∀ tx, tx ∈ sorted_txs → StronglySorted Z.le (tx ≫= parents).
Proof.
  split; [apply own_postsb_ok; vm_compute; reflexivity|]. intros tx Htx. unfold sorted_txs in Htx. rewrite !elem_of_cons, elem_of_nil in Htx.
  destruct Htx as [->|[->|[->|[]]]]; cbn; repeat (constructor; try lia).
Qed.
(** MySQL: all transactions commit if each of them first saves all forums that it comes to, in ascending order. *)
Theorem ordered_mysql txs : own_posts txs →
  (∀ tx, tx ∈ txs → ∃ ps body, tx = (PSav <$> ps) ++ body ∧ StronglySorted Z.lt ps ∧ ∀ p, p ∈ body ≫= parents → p ∈ ps) →
  finishes MySQL (tlocks MySQL true <$> txs).
Proof.
  intros Ho Hs. apply ordered_finishes; [by apply own_of|]. intros l (tx & -> & Htx)%elem_of_list_fmap.
  destruct (Hs tx Htx) as (ps & body & -> & H1 & H2). by apply order_my.
Qed.
Print Assumptions ordered_mysql.
Definition saved_txs : list (list stmt) := [[PSav 1; PSav 2; KIns 1 (Some 2); KUpd 2 (Some 2) (Some 1)]; [PSav 1; KIns 3 (Some 1)]].
Example ordered_mysql_ex : own_posts saved_txs ∧
  ∀ tx, tx ∈ saved_txs → ∃ ps body, tx = (PSav <$> ps) ++ body ∧ StronglySorted Z.lt ps ∧ ∀ p, p ∈ body ≫= parents → p ∈ ps.
Proof.
  split; [apply own_postsb_ok; vm_compute; reflexivity|]. intros tx Htx. unfold saved_txs in Htx. rewrite !elem_of_cons, elem_of_nil in Htx.
  destruct Htx as [->|[->|[]]].
  - exists [1; 2], [KIns 1 (Some 2); KUpd 2 (Some 2) (Some 1)]. split_and!; [done|repeat (constructor; try lia)|cbn; set_solver].
  - exists [1], [KIns 3 (Some 1)]. split_and!; [done|repeat (constructor; try lia)|cbn; set_solver].
Qed.
(** MySQL: transactions that insert no posts and do not move them need not save the forums first. *)
Theorem ordered_unmoved txs : own_posts txs → (∀ tx, tx ∈ txs → (∀ s, s ∈ tx → keeps s) ∧ StronglySorted Z.le (tx ≫= parents)) →
  finishes MySQL (tlocks MySQL true <$> txs).
Proof.
  intros Ho Hs. apply ordered_finishes; [by apply own_of|]. intros l (tx & -> & Htx)%elem_of_list_fmap. destruct (Hs tx Htx). by apply order_keep.
Qed.
Print Assumptions ordered_unmoved.
Definition edits : list (list stmt) := [[KUpd 1 (Some 1) (Some 1); KDel 2 (Some 2)]; [KUpd 3 (Some 1) (Some 1)]; [KUpd 4 None None; PSav 1]].
Example ordered_unmoved_ex : own_posts edits ∧ ∀ tx, tx ∈ edits → (∀ s, s ∈ tx → keeps s) ∧ StronglySorted Z.le (tx ≫= parents).
Proof.
  split; [apply own_postsb_ok; vm_compute; reflexivity|]. intros tx Htx. unfold edits in Htx. rewrite !elem_of_cons, elem_of_nil in Htx.
  destruct Htx as [->|[->|[->|[]]]]; (split; [intros s Hs; rewrite !elem_of_cons, elem_of_nil in Hs; repeat destruct Hs as [->|Hs]; done|cbn; repeat (constructor; try lia)]).
Qed.
(** SQLite: with one writer at a time, always. *)
Theorem sqlite_finish agg txs : finishes SQLite (tlocks SQLite agg <$> txs).
Proof. apply ordered_finishes; [apply own_lite|]. intros l (tx & -> & _)%elem_of_list_fmap. apply order_lite. Qed.
Print Assumptions sqlite_finish.
(** Such a run exists: here two transactions on MySQL, one waiting for the other. *)
Example finish_run_ex : let txs := tlocks MySQL true <$> saved_txs in
  (let s := default [] (sched MySQL (start txs) [0]%nat) in lstep MySQL s 1 = None ∧ s ≠ []) ∧
  sched MySQL (start txs) (replicate 10 0 ++ replicate 5 1)%nat = Some [Thr [] []; Thr [] []].
Proof. cbv zeta. split; [split; vm_compute; [reflexivity|discriminate]|vm_compute; reflexivity]. Qed.
