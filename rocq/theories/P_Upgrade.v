(** * Claims on changed declarations (C91). *)
From stdpp Require Import relations.
From Verif Require Import Base BaseLemmas Schema TrigSet Gen Exec Orm Flush Machine Spec SpecAgg SpecOrder SpecSave GenLemmas Conditions Names Render RenderProps Resolve Md5 Settle Hist Sessions Install Check ExForum ExBad ExAgg CheckOrder ExTree CheckSave ExSave ExModes DaemonData ExDaemonData Request ExRequest Refs Upgrade ExUpgrade.
Open Scope list_scope.

(** Whatever triggers former declarations have left behind: after denorm_drop and denorm_init
    exactly the triggers of the present declarations fire. *)
Theorem drop_init_session b S rand imm depth E ts digest rnd c : cat_ok b c → others_foreign b c →
  mk_env b S rand imm depth = Ok E → build_triggerset b S = Ok ts →
  (∀ p, p ∈ ts → fold b (t_tab p.2) = t_tab p.2 ∧ is_Some (find_table c (t_tab p.2))) → NoDup (names_from b digest rnd 0 ts) →
  ∃ c1 c2, drop b c = (c1, true) ∧ install b digest rnd ts c1 = (c2, true) ∧ cat_env b S rand imm depth c2 = E.
Proof. exact (upgraded_env b S rand imm depth E ts digest rnd c). Qed.
Print Assumptions drop_init_session.

(** And denorm_rebuild then repairs all callback fields, whatever the data were, so that
    every row is right or marked from then on. *)
Theorem upgrade_repairs b S rand imm depth E rank ts digest rnd c : cat_ok b c → others_foreign b c →
  mk_env b S rand imm depth = Ok E → flushable S rank imm → build_triggerset b S = Ok ts →
  (∀ p, p ∈ ts → fold b (t_tab p.2) = t_tab p.2 ∧ is_Some (find_table c (t_tab p.2))) → NoDup (names_from b digest rnd 0 ts) →
  ∃ c1 c2, drop b c = (c1, true) ∧ install b digest rnd ts c1 = (c2, true) ∧
    ∀ d ord n d', links_ok S d → no_self_relation S d → (∀ m k r, m ∈ s_models S → getrow d (m_table m) k = Some r → m_visible m r = true) →
      rebuildall (cat_env b S rand imm depth c2) S ord n None None d = (d', Done) →
      consistent S d' ∧ d_dirty d' = [] ∧ ∀ os, consistent_or_marked S (run_ops (cat_env b S rand imm depth c2) S os d').1.
Proof. exact (upgrade_ok b S rand imm depth E rank ts digest rnd c). Qed.
Print Assumptions upgrade_repairs.
Example upgrade_repairs_ex b rnd : cat_ok b (old_cat b) ∧ others_foreign b (old_cat b) ∧ (4 ≤ length (cat_trigs (old_cat b)))%nat ∧
  mk_env b (QS false) rand0 true 10 = Ok (UE b) ∧ flushable (QS false) q_rank true ∧ build_triggerset b (QS false) = Ok (tset_of b (QS false)) ∧
  (∀ p, p ∈ tset_of b (QS false) → fold b (t_tab p.2) = t_tab p.2 ∧ is_Some (find_table (old_cat b) (t_tab p.2))) ∧
  NoDup (names_from b digest4 rnd 0 (tset_of b (QS false))) ∧
  links_ok (QS false) (zero_counts (qd b false)) ∧ no_self_relation (QS false) (zero_counts (qd b false)) ∧
  rebuildall (UE b) (QS false) id_ord 10 None None (zero_counts (qd b false)) = (zc_1 b, Done).
Proof.
  split; [apply old_cat_ok|]. split; [apply old_cat_foreign|]. split; [apply old_cat_many|]. split; [apply QE_ok|]. split; [apply QS_flushable|].
  split; [apply q_tset|]. split; [apply q_tabs|]. split; [apply q_names|]. split; [apply QS_nolinks|]. split; [apply zc_noself|apply zc_1_ok].
Qed.

(** denorm_init does not drop anything: as soon as one name is taken it raises, and the
    triggers stay as they were (on MySQL some new ones are there). *)
Theorem init_needs_drop b digest rnd ts c j p it s : ts !! j = Some p → trig_sql b p.2 = Ok it → find_table c (fold b (t_tab p.2)) = Some s →
  ckey b (new_entry b digest (rnd j) p.2 s it) ∈ ckey b <$> ct_trigs c →
  (install b digest rnd ts c).2 = false ∧ (b ≠ MySQL → (install b digest rnd ts c).1 = c).
Proof. exact (install_taken b digest rnd ts c j p it s). Qed.
Print Assumptions init_needs_drop.
Definition first_taken (b : backend) (ts : tset) (c : catalog) : Prop := match ts !! 0%nat with
  | Some p => match trig_sql b p.2 with
              | Ok it => find_table c (fold b (t_tab p.2)) = Some "public" ∧ ckey b (new_entry b digest4 (no_rnd 0%nat) p.2 "public" it) ∈ ckey b <$> ct_trigs c
              | Err _ => False end
  | None => False end.
#[local] Instance first_taken_dec b ts c : Decision (first_taken b ts c).
Proof. unfold first_taken. destruct (ts !! 0%nat) as [p|]; [|apply _]. destruct (trig_sql b p.2); apply _. Defined.
Example init_needs_drop_ex b : first_taken b (tset_of b (QS false)) (old_cat b).
Proof. apply (bool_decide_eq_true_1 _). destruct b; vm_compute; reflexivity. Qed.

(** "denorm_init brings the triggers up to date" (docs/tutorial.rst:207-211: "This has to be redone
    after every time you make changes to denormalized fields"): refuted.  It fails, the old triggers go on, and a
    change that the new declarations name is neither marked nor seen by flush. *)
Theorem init_updates_triggers_refuted : ∀ b, ∃ S0 S rank ts c d o d1 d2 ord n,
  mk_env b S rand0 true 10 = Ok (env_of b S true) ∧ flushable S rank true ∧ build_triggerset b S = Ok ts ∧
  (∃ ts0 c0, build_triggerset b S0 = Ok ts0 ∧ c = (install b digest4 no_rnd ts0 c0).1) ∧ cat_ok b c ∧
  (install b digest4 no_rnd ts c).2 = false ∧ consistent S d ∧ d_dirty d = [] ∧ no_self_relation S d ∧
  let E := cat_env b S rand0 true 10 (install b digest4 no_rnd ts c).1 in
  run_op E S o d = Ok d1 ∧ flush E S ord n d1 = (d2, Done) ∧ ¬ consistent S d2.
Proof.
  intros b. exists OldS, (QS false), q_rank, (tset_of b (QS false)), (old_cat b), (qd b false), (rename 1 "z"), (ag_1 b), (ag_2 b), id_ord, 10%nat.
  split; [apply QE_ok|]. split; [apply QS_flushable|]. split; [apply q_tset|].
  split; [exists (tset_of b OldS), (empty_cat ["forum"; "post"]); split; [apply tset_of_ok; destruct b; vm_compute; reflexivity|reflexivity]|].
  split; [apply old_cat_ok|]. split; [exact (again_fails b)|]. split; [apply qd_consistent|]. split; [apply qd_clean|]. split; [apply qd_noself|].
  split; [exact (ag_1_ok b)|]. split; [exact (ag_2_ok b)|exact (ag_wrong b)].
Qed.
Print Assumptions init_updates_triggers_refuted.

(** "Triggers of removed declarations are gone after denorm_init": refuted.  If no name is
    taken it succeeds, and a trigger that selects from the table of a removed model
    goes on firing, so that writing the other table fails. *)
Theorem init_leaves_dangling_refuted : ∀ b, ∃ S0 S c0 c t ts0 ts c',
  build_triggerset b S0 = Ok ts0 ∧ install b digest4 no_rnd ts0 c0 = (c, true) ∧
  (∀ col, ¬ has_column S t col) ∧ build_triggerset b S = Ok ts ∧ install b digest4 no_rnd ts (drop_table c t) = (c', true) ∧
  ∃ e it a col, e ∈ ct_trigs c' ∧ fires c' e = Some it ∧ a ∈ i_acts it ∧ (t, col) ∈ act_refs (i_tab it) a ∧ find_table c' t = None ∧
    ∃ col', has_column S (i_tab it) col'.
Proof.
  intros b. exists (QS false), NoteS, (empty_cat ["forum"; "post"; "note"]), (q_cat b), "post", (tset_of b (QS false)), (tset_of b NoteS), (note_cat b).
  split; [apply q_tset|]. split; [apply q_cat_ok|]. split; [apply note_no_post|]. split; [apply tset_of_ok; destruct b; vm_compute; reflexivity|].
  split; [apply note_cat_ok|]. exact (note_dangles b).
Qed.
Print Assumptions init_leaves_dangling_refuted.

(** "denorm_rebuild fills a new CountField": refuted.  The column starts with its default 0, the
    rows that are there are never counted. *)
Theorem upgrade_counts_rows_refuted : ∀ b, ∃ S rank m f a rel d d' ord n,
  mk_env b S rand0 true 10 = Ok (env_of b S true) ∧ flushable S rank true ∧ agg_field S m f a rel ∧ links_ok S d ∧ no_self_relation S d ∧
  (∀ k r, getrow d (m_table m) k = Some r → col r (f_col f) = VInt 0) ∧
  rebuildall (env_of b S true) S ord n None None d = (d', Done) ∧ consistent S d' ∧ ¬ agg_exact m f a rel d'.
Proof.
  intros b. exists (QS false), q_rank, QForum, q_cf, q_count, QPost, (zero_counts (qd b false)), (zc_1 b), id_ord, 10%nat.
  split; [apply QE_ok|]. split; [apply QS_flushable|]. split; [apply QS_count|]. split; [apply QS_nolinks|]. split; [apply zc_noself|].
  split; [exact (zc_zero b)|]. split; [exact (zc_1_ok b)|]. split; [exact (zc_consistent b)|exact (zc_wrong b)].
Qed.
Print Assumptions upgrade_counts_rows_refuted.

(** "The triggers go on working when the content types are numbered anew" (the commands flush and loaddata of Django do that):
    refuted.  The triggers hold the numbers of the day they were installed (denorms.py:184, dependencies.py), so a forum's
    marker is taken for one of the post with its key.  What repairs it: denorm_drop, denorm_init and
    denorm_rebuild ([upgrade_repairs]). *)
Theorem renumbered_refuted : ∀ b, ∃ g S rank ts c0 c d o d1 d2 ord n,
  (∀ x y, g x = g y → x = y) ∧ mk_env b S rand0 true 10 = Ok (env_of b S true) ∧ flushable S rank true ∧
  build_triggerset b (renumber g S) = Ok ts ∧ install b digest4 no_rnd ts c0 = (c, true) ∧ consistent S d ∧ d_dirty d = [] ∧ no_self_relation S d ∧
  let E := cat_env b S rand0 true 10 c in
  run_op E S o d = Ok d1 ∧ flush E S ord n d1 = (d2, Done) ∧ ¬ consistent S d2.
Proof.
  intros b. exists swap_ct, (QS false), q_rank, (tset_of b (renumber swap_ct (QS false))), (empty_cat ["forum"; "post"]), (ren_cat b), (qd b false), (rename 1 "z"), (re_1 b), (re_2 b), id_ord, 10%nat.
  split; [exact swap_ct_inj|]. split; [apply QE_ok|]. split; [apply QS_flushable|]. split; [apply tset_of_ok; destruct b; vm_compute; reflexivity|].
  split; [apply ren_cat_ok|]. split; [apply qd_consistent|]. split; [apply qd_clean|]. split; [apply qd_noself|].
  split; [exact (re_1_ok b)|]. split; [exact (re_2_ok b)|exact (re_wrong b)].
Qed.
Print Assumptions renumbered_refuted.
Example renumbered_ex b : d_dirty (re_1 b) = [(11%Z, Some "1"); (11%Z, Some "2")] ∧ m_ct QPost = 11%Z.
Proof. split; [apply re_marks|done]. Qed.
