(** * Property theorems: SQL texts of the trigger actions and the final trigger names. *)
From Verif Require Import Base BaseLemmas Schema TrigSet Gen Exec Orm Spec GenLemmas Merge Conditions Names Render RenderProps Check ExForum ExRich.
From Coq Require Import Ascii.
Open Scope list_scope.

(** ** C52 *)
(** Actions over ordinary identifiers with the same text and parameters do the same, in
    every database, for every event. *)
Theorem same_sql_same_action nu b q q' a a' :
  act_ok a → act_ok a' → action_sql nu b q a = action_sql nu b q' a' → act_params a = act_params a' →
  ∀ E fire act e d, run_action E fire act e d a = run_action E fire act e d a'.
Proof. intros O O' H Hp. apply (same_text_same_run nu b q q' a a' O O'). unfold action_key. simpl. by rewrite H, Hp. Qed.
Print Assumptions same_sql_same_action.
(** Without filters they are the same action. *)
Theorem same_sql_equal nu b q q' a a' :
  act_ok a → act_ok a' → flt_of a = ([], []) → action_sql nu b q a = action_sql nu b q' a' → act_params a = act_params a' → a = a'.
Proof. intros O O' Hf H Hp. apply (same_text_eq nu b q q' a a' O O' Hf). unfold action_key. simpl. by rewrite H, Hp. Qed.
Print Assumptions same_sql_equal.
(** Dropping textual duplicates keeps a representative of every action, and each text once. *)
Theorem textual_dedup_complete nu b l :
  NoDup (action_key nu b <$> dedup_sql nu b [] l) ∧ (∀ p, p ∈ dedup_sql nu b [] l → p ∈ l) ∧
  ∀ p, p ∈ l → ∃ p', p' ∈ dedup_sql nu b [] l ∧ action_key nu b p' = action_key nu b p.
Proof.
  destruct (dedup_sql_spec nu b l []) as (H1 & H2 & H3). split; [done|]. split; [intros p Hp; by apply H2|].
  intros p Hp. destruct (H3 p Hp) as [H%elem_of_nil|H]; done.
Qed.
Print Assumptions textual_dedup_complete.
(** For unfiltered actions quoted in one way it is the de-duplication of the trigger model
    ([dedup], used by [trig_sql]). *)
Theorem textual_dedup_is_dedup nu b l :
  (∀ q a, (q, a) ∈ l → act_ok a ∧ flt_of a = ([], [])) → (∀ q q' a, (q, a) ∈ l → (q', a) ∈ l → q = q') →
  (dedup_sql nu b [] l).*2 = dedup [] (l.*2).
Proof. exact (dedup_sql_dedup nu b l). Qed.
Print Assumptions textual_dedup_is_dedup.
Definition act_okb (a : action) : bool :=
  let idb s := negb (String.eqb s "") && all_chars is_ident_char s in
  let cb c := idb (c_col c) && match c_op c, c_val c with LExact, _ => true | _, VInt _ => true | _, _ => false end in
  match a with
  | AMark _ _ c => idb c
  | AMarkSel _ t sc wc _ rc => idb t && idb sc && idb wc && idb rc
  | AUpd t c x w => idb t && idb c && match x with XAdd _ f | XSub _ f => idb f | _ => true end &&
      match w with
      | WEq c' _ rc flt excl => idb c' && idb rc && forallb cb flt && forallb cb excl
      | WIn c' t' sc wc _ rc => idb c' && idb t' && idb sc && idb wc && idb rc
      end
  end.
Lemma act_okb_spec a : act_okb a = true → act_ok a.
Proof.
  assert (Hi : ∀ s, negb (String.eqb s "") && all_chars is_ident_char s = true → ident s).
  { intros s [H1 H2]%andb_true_iff. split; [|done]. intros ->. done. }
  assert (Hc : ∀ c, (negb (String.eqb (c_col c) "") && all_chars is_ident_char (c_col c)) && match c_op c, c_val c with LExact, _ => true | _, VInt _ => true | _, _ => false end = true → cond_ok c).
  { intros c [H1 H2]%andb_true_iff. split; [by apply Hi|]. destruct (c_op c); [done|destruct (c_val c); try done; eauto..]. }
  assert (Hl : ∀ l, forallb (λ c, (negb (String.eqb (c_col c) "") && all_chars is_ident_char (c_col c)) && match c_op c, c_val c with LExact, _ => true | _, VInt _ => true | _, _ => false end) l = true → Forall cond_ok l).
  { intros l H. apply Forall_forall. intros c Hin. apply Hc. apply (proj1 (forallb_forall _ _) H). by apply elem_of_list_In. }
  destruct a as [| |t c x w]; cbn [act_okb act_ok]; intros H.
  - by apply Hi.
  - apply andb_true_iff in H as [H ?]. apply andb_true_iff in H as [H ?]. apply andb_true_iff in H as [? ?]. split_and!; by apply Hi.
  - apply andb_true_iff in H as [H Hw]. apply andb_true_iff in H as [H Hx]. apply andb_true_iff in H as [? ?].
    split; [by apply Hi|]. split; [by apply Hi|]. split; [destruct x; try done; by apply Hi|]. destruct w.
    + apply andb_true_iff in Hw as [Hw ?]. apply andb_true_iff in Hw as [Hw ?]. apply andb_true_iff in Hw as [? ?]. split_and!; [by apply Hi..|by apply Hl|by apply Hl].
    + apply andb_true_iff in Hw as [Hw ?]. apply andb_true_iff in Hw as [Hw ?]. apply andb_true_iff in Hw as [Hw ?]. apply andb_true_iff in Hw as [? ?]. split_and!; by apply Hi.
Qed.
(** Every action of the forum schema satisfies the hypotheses; one of its texts. *)
Example forum_actions_ok : match gen_all RS with Ok l => Forall (λ tr, Forall act_ok (t_acts tr)) l ∧ (10 < length l)%nat | Err _ => False end.
Proof.
  assert (H : match gen_all RS with Ok l => forallb (λ tr, forallb act_okb (t_acts tr)) l = true ∧ (10 <? length l)%nat = true | Err _ => False end) by (vm_compute; split; reflexivity).
  destruct (gen_all RS) as [l|]; [|done]. destruct H as [H1 H2]. split; [|by apply Nat.ltb_lt].
  apply Forall_forall. intros tr Htr. apply Forall_forall. intros a Ha. apply act_okb_spec.
  apply (proj1 (forallb_forall _ _)) with (x := tr) in H1; [|by apply elem_of_list_In].
  by apply (proj1 (forallb_forall _ _)) with (x := a) in H1; [|by apply elem_of_list_In].
Qed.
Example text_ex : action_sql (λ _, true) MySQL false (AMarkSel 15 "doc" "id" "forum_id" RNew "id") =
  "INSERT IGNORE INTO denorm_dirtyinstance (content_type_id, object_id) (SELECT DISTINCT 15, id FROM doc WHERE forum_id = NEW.`id`)".
Proof. vm_compute. reflexivity. Qed.
(** As stated the property fails for actions that are not built by the library from one
    declaration: [is null] can be written in two ways. *)
Theorem same_sql_equal_refuted : ∃ a a', a ≠ a' ∧ act_ok a ∧ act_ok a' ∧ act_params a = act_params a' ∧
  ∀ nu b q, action_sql nu b q a = action_sql nu b q a'.
Proof.
  exists (AUpd "forum" "n" XInc (WEq "id" RNew "forum_id" [Cond1 "x" LExact VNull] [])), (AUpd "forum" "n" XInc (WEq "id" RNew "forum_id" [Cond1 "x" LIsNull (VInt 1)] [])).
  split; [discriminate|]. split; [by apply act_okb_spec|]. split; [by apply act_okb_spec|]. split; [done|]. intros nu b q. reflexivity.
Qed.
Print Assumptions same_sql_equal_refuted.
(** With unusual identifiers two different actions have one text (table names and
    the updated column are not quoted). *)
Theorem same_sql_odd_names_refuted : ∃ a a', a ≠ a' ∧ act_params a = act_params a' ∧ ∀ nu b q, action_sql nu b q a = action_sql nu b q a'.
Proof.
  exists (AUpd "forum SET a" "b" XRand (WEq "id" RNew "forum_id" [] [])), (AUpd "forum" "a SET b" XRand (WEq "id" RNew "forum_id" [] [])).
  split; [discriminate|]. split; [done|]. intros nu b q. reflexivity.
Qed.
Print Assumptions same_sql_odd_names_refuted.

(** ** C34 *)
(** [digest]: the four digits Django's truncate_name appends; [rnd]: the five random
    characters appended on MySQL. *)
Theorem names_fit digest rnd tr : (∀ s, String.length (digest s) = 4%nat) → String.length rnd = 5%nat →
  (String.length (final_name Postgres digest rnd tr) ≤ 58)%nat ∧
  (String.length ("func_" +:+ final_name Postgres digest rnd tr) ≤ 63)%nat ∧
  (String.length (final_name MySQL digest rnd tr) ≤ 50)%nat.
Proof.
  intros Hd Hr. assert (H1 := final_len Postgres digest rnd tr Hd Hr). assert (H2 := final_len MySQL digest rnd tr Hd Hr). cbv beta iota in H1, H2.
  split; [done|]. split; [|done]. rewrite str_len_app. change (String.length "func_") with 5%nat. lia.
Qed.
Print Assumptions names_fit.
(** The name keeps the denorm_ prefix by which drop finds it, and the event. *)
Theorem names_keep_prefix b digest rnd tr : ∃ s, final_name b digest rnd tr = "denorm_after_row_" +:+ ev_str (t_ev tr) +:+ "_on_" +:+ s.
Proof. exact (final_prefix b digest rnd tr). Qed.
Print Assumptions names_keep_prefix.
(** Short names are not changed. *)
Theorem short_names_kept b digest rnd tr : (String.length (trig_name b tr) ≤ 50)%nat → final_name b digest rnd tr = trig_name b tr.
Proof.
  intros H. destruct b; cbn [final_name]; [done| |]; unfold pg_name, my_name.
  - rewrite decide_True; [done|lia].
  - rewrite decide_False; [done|lia].
Qed.
Print Assumptions short_names_kept.
Example names_fit_ex : final_name MySQL (λ _, "0f1e") "A7ZQ2" (long_trigger 12) = "denorm_after_row_update_on_a_table_name_that_A7ZQ2" ∧
  final_name Postgres (λ _, "0f1e") "A7ZQ2" (long_trigger 12) = "denorm_after_row_update_on_a_table_name_that_is_longer0f1e".
Proof. split; vm_compute; reflexivity. Qed.

(** ** C31, shortened names *)
(** Whatever the digest is, if it takes finitely many values then two tables share the
    final name on PostgreSQL, hence the function func_... that the second CREATE OR REPLACE
    overwrites. *)
Theorem shortened_names_refuted digest rnd (D : list string) : (∀ s, digest s ∈ D) → ∃ t1 t2, t_tab t1 ≠ t_tab t2 ∧ t_ev t1 = t_ev t2 ∧
  final_name Postgres digest rnd t1 = final_name Postgres digest rnd t2.
Proof. exact (truncated_collide digest rnd D). Qed.
Print Assumptions shortened_names_refuted.
(** On MySQL two long names collide if the same random characters are drawn, and a
    trigger is not called the same when it is created again with other ones. *)
Theorem random_names_refuted rnd rnd' : rnd ≠ rnd' → ∃ t1 t2, t_tab t1 ≠ t_tab t2 ∧ t_ev t1 = t_ev t2 ∧
  (∀ digest, final_name MySQL digest rnd t1 = final_name MySQL digest rnd t2) ∧
  (∀ digest, final_name MySQL digest rnd t1 ≠ final_name MySQL digest rnd' t1).
Proof.
  intros Hr. exists (long_trigger 1), (long_trigger 2). split; [by vm_compute|]. split; [done|].
  assert (H1 : (50 < String.length (trig_name MySQL (long_trigger 1)))%nat) by (apply Nat.ltb_lt; vm_compute; reflexivity).
  assert (H2 : (50 < String.length (trig_name MySQL (long_trigger 2)))%nat) by (apply Nat.ltb_lt; vm_compute; reflexivity).
  assert (H3 : String.substring 0 45 (trig_name MySQL (long_trigger 1)) = String.substring 0 45 (trig_name MySQL (long_trigger 2))) by (vm_compute; reflexivity).
  split; intros digest; cbn [final_name]; unfold my_name.
  - rewrite !decide_True by done. by rewrite H3.
  - rewrite !decide_True by done. intros H. apply str_cancel in H. done.
Qed.
Print Assumptions random_names_refuted.
