(** * The management commands (C81). *)
From Verif Require Import Base BaseLemmas Schema TrigSet Gen Exec Orm Flush Spec Install MultiDb Check ExForum ExRich P_Flush Commands.

(** ** C81 *)
(** denorm_rebuild refreshes everything or, when its line is not understood, does nothing;
    there is no line with which it refreshes less. *)
Theorem rebuild_command_rebuilds_all P l w :
  let r := rebuildall (pj_env P) (pj_schema P) (pj_ord P) (pj_rounds P) None None (w_db w) in
  (run_command P DenormRebuild l w).1 = w ∧ (run_command P DenormRebuild l w).2 ∈ [RRejected; RExit] ∨
  run_command P DenormRebuild l w = (World r.1 (w_cats w), result_of r.2).
Proof.
  unfold run_command. destruct (parse_command DenormRebuild l) as [| |opts] eqn:Hp; [left; split; [done|simpl; set_solver]..|right].
  simpl. by rewrite (rebuild_no_model _ _ Hp).
Qed.
Print Assumptions rebuild_command_rebuilds_all.
(** A line with a word that is not an option is understood by none of the commands. *)
Theorem words_rejected P c l w : has_word l → (run_command P c l w).1 = w ∧ (run_command P c l w).2 ∈ [RRejected; RExit].
Proof.
  intros Hl. unfold run_command. destruct (parse_word (base_options ++ own_options c) l [] Hl) as [H|H];
    unfold parse_command, positionals; rewrite H; split; try done; simpl; set_solver.
Qed.
Print Assumptions words_rejected.
(** Neither by denorm_daemon, whose interval the tutorial gives as such a word. *)
Theorem daemon_words_rejected l : has_word l → parse_daemon l ∈ [PRejected; PExit].
Proof.
  intros Hl. unfold parse_daemon. destruct (parse_word (base_options ++ daemon_options) l [] Hl) as [->| ->]; set_solver.
Qed.
Print Assumptions daemon_words_rejected.
Theorem daemon_interval_word_refuted : ∃ w, parse_daemon [Pos w] = PRejected ∧ parse_daemon [Opt "i" (Some w); Opt "n" None] = POk [("n", "True"); ("i", w)].
Proof. exists "10". split; vm_compute; reflexivity. Qed.
Print Assumptions daemon_interval_word_refuted.
(** So the model to refresh, which handle() takes, can not be named on the command line. *)
Definition c81_project (b : backend) : project := Project (RE b) RS id_ord 10 b id (λ _, "XXXXX") [].
Definition c81_world (b : backend) : world := World (c17_db b) (λ _, Catalog [("public", "post")] ["public"] [CEntry "public" "post" "denorm_x" (TForeign 7)] ∅).
Theorem rebuild_of_one_model_refuted (b : backend) : ∃ P m w, m ∈ s_models (pj_schema P) ∧
  (let r := rebuildall (pj_env P) (pj_schema P) (pj_ord P) (pj_rounds P) (Some (m_name m)) None (w_db w) in
   r.2 = Done ∧ cellv r.1 "post" 7 "rating" = Some (VInt 107)) ∧
  cellv (w_db w) "post" 7 "rating" = Some (VInt 999) ∧
  run_command P DenormRebuild [Pos (m_name m)] w = (w, RRejected) ∧
  run_command P DenormRebuild [Opt "model_name" (Some (m_name m))] w = (w, RRejected).
Proof.
  exists (c81_project b), RPost, (c81_world b). split; [simpl; set_solver|]. cbv zeta. split; [|split; [|split]].
  - split; destruct b; vm_compute; reflexivity.
  - destruct b; vm_compute; reflexivity.
  - reflexivity.
  - reflexivity.
Qed.
Print Assumptions rebuild_of_one_model_refuted.
(** call_command() with the keyword argument reaches handle() before Django 2.0 and is an error since. *)
Theorem rebuild_of_one_model_called P mn w :
  (let r := rebuildall (pj_env P) (pj_schema P) (pj_ord P) (pj_rounds P) (Some mn) None (w_db w) in
   call_command false P DenormRebuild [] [("model_name", mn)] w = (World r.1 (w_cats w), result_of r.2)) ∧
  call_command true P DenormRebuild [] [("model_name", mn)] w = (w, RRaised EType).
Proof. split; reflexivity. Qed.
Print Assumptions rebuild_of_one_model_called.

(** denorm_flush runs flush() on the default database. *)
Theorem flush_command_flushes P l w :
  let r := flush (pj_env P) (pj_schema P) (pj_ord P) (pj_rounds P) (w_db w) in
  (run_command P DenormFlush l w).1 = w ∧ (run_command P DenormFlush l w).2 ∈ [RRejected; RExit] ∨
  run_command P DenormFlush l w = (World r.1 (w_cats w), result_of r.2).
Proof. unfold run_command. destruct (parse_command DenormFlush l) as [| |opts]; [left; split; [done|simpl; set_solver]..|by right]. Qed.
Print Assumptions flush_command_flushes.
(** denorm_init and denorm_drop change the triggers of the database that is named last, or of the
    default one, and nothing else. *)
Theorem init_command_installs P l w :
  let u := last_database l in
  let r := install_on (bool_decide (u = default_alias)) (pj_be P) (pj_digest P) (pj_rnd P) (pj_triggers P) (w_cats w u) in
  let o := run_command P DenormInit l w in
  o.1 = w ∧ o.2 ∈ [RRejected; RExit] ∨
  w_db o.1 = w_db w ∧ w_cats o.1 u = r.1 ∧ (∀ v, v ≠ u → w_cats o.1 v = w_cats w v) ∧ o.2 = (if r.2 then RDone else RFailed).
Proof.
  intros u r o. subst o. unfold run_command. destruct (parse_command DenormInit l) as [| |opts] eqn:Hp; [left; split; [done|simpl; set_solver]..|right].
  cbn [handle]. rewrite (command_database _ _ _ (or_introl eq_refl) Hp). fold u. fold r. simpl. rewrite decide_True by done.
  split; [done|]. split; [done|]. split; [|done]. intros v Hv. by rewrite decide_False.
Qed.
Print Assumptions init_command_installs.
Theorem drop_command_drops P l w :
  let u := last_database l in
  let r := drop_on (bool_decide (u = default_alias)) (pj_be P) (w_cats w u) in
  let o := run_command P DenormDrop l w in
  o.1 = w ∧ o.2 ∈ [RRejected; RExit] ∨
  w_db o.1 = w_db w ∧ w_cats o.1 u = r.1 ∧ (∀ v, v ≠ u → w_cats o.1 v = w_cats w v) ∧ o.2 = (if r.2 then RDone else RFailed).
Proof.
  intros u r o. subst o. unfold run_command. destruct (parse_command DenormDrop l) as [| |opts] eqn:Hp; [left; split; [done|simpl; set_solver]..|right].
  cbn [handle]. rewrite (command_database _ _ _ (or_intror eq_refl) Hp). fold u. fold r. simpl. rewrite decide_True by done.
  split; [done|]. split; [done|]. split; [|done]. intros v Hv. by rewrite decide_False.
Qed.
Print Assumptions drop_command_drops.
(** Both know --database, given any number of times, and the line without options. *)
Theorem database_option_accepted P c us w : c = DenormInit ∨ c = DenormDrop →
  (run_command P c ((λ u, Opt "database" (Some u)) <$> us) w).2 ∈ [RDone; RFailed] ∧
  last_database ((λ u, Opt "database" (Some u)) <$> us) = default default_alias (last us).
Proof.
  intros Hc. split.
  - unfold run_command, parse_command. assert (∀ opts, ∃ opts', parse (base_options ++ own_options c) (positionals c) opts ((λ u, Opt "database" (Some u)) <$> us) = POk opts') as H.
    { induction us as [|u us IH]; intros opts; [by eexists|]. destruct (IH (("database", u) :: opts)) as [o Ho]. exists o.
      rewrite <- Ho. destruct Hc as [-> | ->]; reflexivity. }
    destruct (H []) as [o ->]. destruct Hc as [-> | ->]; simpl; case_match; set_solver.
  - unfold last_database. induction us as [|u us IH] using rev_ind; [done|]. rewrite fmap_app, foldl_app, last_snoc. done.
Qed.
Print Assumptions database_option_accepted.
(** denorm_sql changes nothing, and neither does denormalize, which is always an error. *)
Theorem other_commands_change_nothing P l w :
  (run_command P DenormSql l w).1 = w ∧ (run_command P Denormalize l w).1 = w ∧
  (run_command P Denormalize l w).2 ∈ [RRejected; RExit; RCommandError].
Proof.
  unfold run_command. split; [by destruct (parse_command DenormSql l)|].
  destruct (parse_command Denormalize l); simpl; (split; [done|set_solver]).
Qed.
Print Assumptions other_commands_change_nothing.
(** Lines that are understood, so that none of the above holds for want of one. *)
Definition c81_line : list arg := [Opt "verbosity" (Some "2"); Opt "database" (Some "a"); Opt "traceback" None; Opt "database" (Some "b")].
Example commands_ex b P w :
  (let o := run_command (c81_project b) DenormDrop c81_line (c81_world b) in
   o.2 = RDone ∧ ct_trigs (w_cats o.1 "b") = [] ∧ length (ct_trigs (w_cats o.1 "a")) = 1%nat) ∧
  last_database c81_line = "b" ∧ parse_command DenormInit c81_line ≠ PRejected ∧ parse_command DenormInit [Pos "b"] = PRejected ∧
  parse_command DenormFlush c81_line = PRejected ∧
  parse_command DenormRebuild [Opt "no-color" None] = POk [("no-color", "True")] ∧
  (run_command (c81_project b) DenormRebuild [] (c81_world b)).2 = RDone ∧
  run_command P DenormSql [] w = (w, RDone) ∧ run_command P Denormalize [] w = (w, RCommandError) ∧
  run_command P Denormalize [Opt "help" None] w = (w, RExit).
Proof. split; [destruct b; vm_compute; done|]. do 4 (split; [done|]). split; [done|]. split; [destruct b; vm_compute; reflexivity|]. repeat split. Qed.
