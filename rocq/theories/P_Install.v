(** * Property theorems: dropping and installing triggers. *)
From Verif Require Import Base BaseLemmas Schema TrigSet Gen GenLemmas Spec Conditions Names Render RenderProps Resolve Md5 Install Check ExForum ExRich.
From Coq Require Import Ascii.
Open Scope list_scope.

(** ** C32 *)
(** drop removes every trigger that any version of the models ever created. *)
Definition created_by_denorm (b : backend) (e : centry) : Prop := ∃ digest rnd tr s it, e = new_entry b digest rnd tr s it.
Theorem drop_removes_ours b c : cat_ok b c →
  (drop b c).2 = true ∧ ∀ e, e ∈ ct_trigs (drop b c).1 → ¬ created_by_denorm b e.
Proof.
  intros Hc. rewrite (drop_exact _ _ Hc). split; [done|]. cbn [fst set_trigs ct_trigs].
  intros e [Hs _]%elem_of_list_filter (dg & rnd & tr & s & it & ->). rewrite ours_selected in Hs. done.
Qed.
Print Assumptions drop_removes_ours.
(** Dropping and installing leaves the triggers of others and exactly the triggers of the
    current schema, each on its own table and executing its own statements. *)
Theorem drop_then_install b digest rnd ts its c : cat_ok b c → tset_sql b ts = Ok its →
  (∀ p, p ∈ ts → is_Some (find_table c (fold b (t_tab p.2)))) → NoDup (names_from b digest rnd 0 ts) →
  ∃ c1 c2 l, drop b c = (c1, true) ∧ install b digest rnd ts c1 = (c2, true) ∧
    ct_trigs c2 = filter (λ e, selected b (ce_name e) = false) (ct_trigs c) ++ l ∧ ct_tabs c2 = ct_tabs c ∧ ct_path c2 = ct_path c ∧
    Forall2 (λ it e, ce_tab e = fold b (i_tab it) ∧ find_table c (ce_tab e) = Some (ce_sch e) ∧ runs c2 e = Some it) its l.
Proof. intros H1 H2 H3 H4. destruct (drop_install b digest rnd ts its c H1 H2 H3 H4) as (c1 & c2 & l & ? & ? & ? & ? & ? & ? & _). by exists c1, c2, l. Qed.
Print Assumptions drop_then_install.
(** What was installed before does not matter. *)
Theorem drop_install_history b digest rnd ts its c c' : cat_ok b c → cat_ok b c' → tset_sql b ts = Ok its →
  ct_tabs c = ct_tabs c' → ct_path c = ct_path c' →
  filter (λ e, selected b (ce_name e) = false) (ct_trigs c) = filter (λ e, selected b (ce_name e) = false) (ct_trigs c') →
  (∀ p, p ∈ ts → is_Some (find_table c (fold b (t_tab p.2)))) → NoDup (names_from b digest rnd 0 ts) →
  ct_trigs (install b digest rnd ts (drop b c).1).1 = ct_trigs (install b digest rnd ts (drop b c').1).1.
Proof.
  intros H1 H1' H2 Ht Hp Hu H3 H4.
  destruct (drop_install b digest rnd ts its c H1 H2 H3 H4) as (c1 & c2 & l & D & I & T & _ & _ & _ & L).
  destruct (drop_install b digest rnd ts its c' H1' H2) as (c1' & c2' & l' & D' & I' & T' & _ & _ & _ & L'); [|done|].
  { intros p Hp'. assert (Hf : find_table c' (fold b (t_tab p.2)) = find_table c (fold b (t_tab p.2))) by (unfold find_table; by rewrite Ht, Hp). rewrite Hf. by apply H3. }
  rewrite D, D'. cbn [fst]. rewrite I, I'. cbn [fst]. rewrite T, T', Hu, L, L'. f_equal. by apply new_entries_tabs.
Qed.
Print Assumptions drop_install_history.
(** The names are distinct if they are short and lower-case. *)
Theorem short_names_distinct b S ts digest rnd : build_triggerset b S = Ok ts →
  (∀ p, p ∈ ts → (String.length p.1 ≤ 50)%nat ∧ (b ≠ MySQL → lower p.1 = p.1)) → NoDup (names_from b digest rnd 0 ts).
Proof. exact (short_names_nodup b S ts digest rnd). Qed.
Print Assumptions short_names_distinct.

(** The forum schema over a catalogue with two former triggers and one of somebody else. *)
Definition ex_tabs : list (string * string) := (λ t, ("public", t)) <$> ["forum"; "post"; "member"; "member_bookmarks"; "tag"; "old"].
Definition ex_cat (b : backend) : catalog := Catalog ex_tabs ["public"]
  [CEntry "public" "forum" "denorm_after_row_update_on_forum" (TCalls "func_denorm_after_row_update_on_forum");
   CEntry "public" "post" "audit" (TForeign 1);
   CEntry "public" "old" "denorm_after_row_insert_on_old" (TCalls "func_denorm_after_row_insert_on_old")] ∅.
Example drop_then_install_ex b : cat_ok b (ex_cat b) ∧
  match build_triggerset b RS with
  | Ok ts => match tset_sql b ts with
             | Ok its => (5 < length its)%nat ∧ (∀ p, p ∈ ts → is_Some (find_table (ex_cat b) (fold b (t_tab p.2)))) ∧ ∀ rnd, NoDup (names_from b digest4 rnd 0 ts)
             | Err _ => False end
  | Err _ => False end.
Proof.
  split.
  { split; [destruct b; apply (bool_decide_unpack _); vm_compute; exact I|]. intros -> e He _.
    assert (Hall : Forall (λ e, find_table (ex_cat Postgres) (ce_tab e) = Some (ce_sch e)) (ct_trigs (ex_cat Postgres))) by (apply (bool_decide_unpack _); vm_compute; exact I).
    by apply (proj1 (Forall_forall _ _) Hall). }
  assert (H : match build_triggerset b RS with
    | Ok ts => match tset_sql b ts with
       | Ok its => bool_decide ((5 < length its)%nat ∧ Forall (λ p, is_Some (find_table (ex_cat b) (fold b (t_tab p.2)))) ts ∧ Forall (λ p, (String.length p.1 ≤ 50)%nat ∧ lower p.1 = p.1) ts)
       | Err _ => false end
    | Err _ => false end = true) by (destruct b; vm_compute; reflexivity).
  destruct (build_triggerset b RS) as [ts|] eqn:E1; [|done]. destruct (tset_sql b ts) as [its|] eqn:E2; [|done]. apply bool_decide_eq_true in H as (H1 & H2 & H3).
  split; [done|]. split; [intros p Hp; by apply (proj1 (Forall_forall _ _) H2)|]. intros rnd. apply (short_names_nodup b RS ts digest4 rnd E1).
  intros p Hp. destruct (proj1 (Forall_forall _ _) H3 p Hp). done.
Qed.

(** Two tables whose trigger names are shortened to the same name (MD5 digits included):
    install succeeds, and a trigger of the first table executes the function of the second. *)
(** def t(self): return self.title *)
Definition cb_title : callback := λ d pk r, Ok (PVal (col r "title")).
Definition tab_a : string := "forum_registration_history_archive_post".
Definition tab_b : string := "forum_registration_history_audit_topic".
Definition MDa : model := mkmodel "A" tab_a 21 [plain "title" "A"; cbf "t" "A" cb_title [] []] [].
Definition MDb : model := mkmodel "B" tab_b 22 [plain "title" "B"; cbf "t" "B" cb_title [] []] [].
Definition MD : schema := Schema [MDa; MDb] false.
Definition md_cat : catalog := Catalog [("public", tab_a); ("public", tab_b)] ["public"] [] ∅.
Theorem install_shortened_refuted rnd : ∃ S ts its c c2,
  wf_schema S ∧ names_apart S ∧ build_triggerset Postgres S = Ok ts ∧ tset_sql Postgres ts = Ok its ∧ cat_ok Postgres c ∧
  (∀ p, p ∈ ts → is_Some (find_table c (t_tab p.2))) ∧
  install Postgres digest4 rnd ts (drop Postgres c).1 = (c2, true) ∧
  ∃ e it, e ∈ ct_trigs c2 ∧ runs c2 e = Some it ∧ ce_tab e ≠ i_tab it.
Proof.
  assert (Hwf : wf_schema MD) by (apply wf_schemab_spec; vm_compute; reflexivity).
  assert (Hna : names_apart MD) by (apply names_apartb_spec; vm_compute; reflexivity).
  assert (H : match build_triggerset Postgres MD with
    | Ok ts => match tset_sql Postgres ts with
       | Ok its => let r := install Postgres digest4 rnd ts (drop Postgres md_cat).1 in
           bool_decide (Forall (λ p, is_Some (find_table md_cat (t_tab p.2))) ts ∧
             r.2 = true ∧ Exists (λ e, match runs r.1 e with Some it => negb (bool_decide (ce_tab e = i_tab it)) | None => false end = true) (ct_trigs r.1))
       | Err _ => false end
    | Err _ => false end = true) by (vm_compute; reflexivity).
  destruct (build_triggerset Postgres MD) as [ts|] eqn:E1; [|done]. destruct (tset_sql Postgres ts) as [its|] eqn:E2; [|done].
  destruct (install Postgres digest4 rnd ts (drop Postgres md_cat).1) as [c2 ok] eqn:E3. apply bool_decide_eq_true in H as (H1 & H2 & H3). cbn [fst snd] in H2, H3. subst ok.
  exists MD, ts, its, md_cat, c2. do 4 (split; [done|]). split; [split; [constructor|]; intros _ e He; by apply elem_of_nil in He|].
  split; [intros p Hp; by apply (proj1 (Forall_forall _ _) H1)|]. split; [done|].
  apply Exists_exists in H3 as (e & He & Hr). destruct (runs c2 e) as [it|] eqn:Er; [|done]. exists e, it. split; [done|]. split; [done|]. by apply negb_true_iff, bool_decide_eq_false in Hr.
Qed.
Print Assumptions install_shortened_refuted.
(** On PostgreSQL a trigger on a table that the search path does not show makes drop fail
    and leave everything in place. *)
Theorem drop_other_schema_refuted : ∃ c e, NoDup (ckey Postgres <$> ct_trigs c) ∧ e ∈ ct_trigs c ∧
  selected Postgres (ce_name e) = true ∧ find_table c (ce_tab e) = Some (ce_sch e) ∧ drop Postgres c = (c, false).
Proof.
  exists (Catalog [("public", "forum"); ("archive", "forum")] ["public"]
    [CEntry "public" "forum" "denorm_after_row_update_on_forum" (TCalls "f"); CEntry "archive" "forum" "denorm_after_row_insert_on_forum" (TCalls "g")] ∅),
    (CEntry "public" "forum" "denorm_after_row_update_on_forum" (TCalls "f")).
  split; [apply (bool_decide_unpack _); vm_compute; exact I|]. split; [left|]. split_and!; vm_compute; reflexivity.
Qed.
Print Assumptions drop_other_schema_refuted.
(** On PostgreSQL nothing can be installed if a table has upper-case letters. *)
Definition UC : schema := Schema [mkmodel "Forum" "Forum" 10 [plain "title" "Forum"; cbf "t" "Forum" cb_title [] []] []] false.
Theorem install_upper_case_refuted digest rnd : ∃ S ts its c, wf_schema S ∧ build_triggerset Postgres S = Ok ts ∧ tset_sql Postgres ts = Ok its ∧ its ≠ [] ∧
  ct_trigs c = [] ∧ (∀ p, p ∈ ts → is_Some (find_table c (t_tab p.2))) ∧ install Postgres digest rnd ts c = (c, false).
Proof.
  assert (Hwf : wf_schema UC) by (apply wf_schemab_spec; vm_compute; reflexivity).
  assert (H : match build_triggerset Postgres UC with
    | Ok ts => match tset_sql Postgres ts with
       | Ok its => bool_decide (length its ≠ 0%nat ∧ Forall (λ p, is_Some (find_table (Catalog [("public", "Forum")] ["public"] [] ∅) (t_tab p.2))) ts) &&
                   match ts with p :: _ => bool_decide (fold Postgres (t_tab p.2) = "forum") | [] => false end
       | Err _ => false end
    | Err _ => false end = true) by (vm_compute; reflexivity).
  destruct (build_triggerset Postgres UC) as [ts|] eqn:E1; [|done]. destruct (tset_sql Postgres ts) as [its|] eqn:E2; [|done].
  apply andb_true_iff in H as [[H1 H2]%bool_decide_eq_true H3]. assert (its ≠ []) by (by intros ->).
  exists UC, ts, its, (Catalog [("public", "Forum")] ["public"] [] ∅). do 4 (split; [done|]). split; [done|].
  split; [intros p Hp; by apply (proj1 (Forall_forall _ _) H2)|]. destruct ts as [|p ts]; [done|]. apply bool_decide_eq_true in H3. unfold install. cbn [install_go]. unfold create. rewrite H3.
  change (find_table (Catalog [("public", "Forum")] ["public"] [] ∅) "forum") with (@None string). by destruct (trig_sql Postgres p.2).
Qed.
Print Assumptions install_upper_case_refuted.

(** ** C33 *)
(** What drop takes for a trigger of django-denorm: six characters "denorm" (in any case
    on SQLite) and at least one more; on MySQL the prefix denorm_. *)
Theorem selected_exactly b n : selected b n = true ↔
  match b with
  | SQLite => ∃ p c r, n = p +:+ String c r ∧ lower p = "denorm"
  | Postgres => ∃ c r, n = "denorm" +:+ String c r
  | MySQL => ∃ r, n = "denorm_" +:+ r
  end.
Proof.
  destruct b; cbn [selected].
  - exact (like_denorm true n).
  - rewrite like_denorm. unfold begins. split; [intros (p & c & r & -> & ->); eauto|]. intros (c & r & ->). by exists "denorm", c, r.
  - split; [apply prefix_split|]. intros [r ->]. apply prefix_app.
Qed.
Print Assumptions selected_exactly.
(** All other triggers survive, and so do the tables. *)
Theorem drop_keeps_others b c e : e ∈ ct_trigs c → selected b (ce_name e) = false → e ∈ ct_trigs (drop b c).1 ∧ ct_tabs (drop b c).1 = ct_tabs c.
Proof.
  intros He Hs. unfold drop.
  assert (Hg : ∀ l c c', (∀ x, x ∈ l → selected b (ce_name x) = true) → e ∈ ct_trigs c → drop_go b c l = Some c' → e ∈ ct_trigs c' ∧ ct_tabs c' = ct_tabs c).
  { clear c He. induction l as [|x l IH]; intros c c' Hl He H; [by injection H as <-|]. cbn [drop_go] in H. destruct (drop_one b c x) as [c0|] eqn:E1; [|done].
    assert (Hx : selected b (ce_name x) = true) by (apply Hl; left).
    assert (H0 : e ∈ ct_trigs c0 ∧ ct_tabs c0 = ct_tabs c).
    { unfold drop_one in E1. destruct (match b with Postgres => _ | _ => _ end) as [k|] eqn:Ek; [|done]. case_decide; [|done]. injection E1 as <-. split; [|done].
      cbn [set_trigs ct_trigs]. apply elem_of_list_filter. split; [|done]. intros Hk. destruct b; cbn in Ek, Hk.
      - injection Ek as <-. injection Hk as Hk. cbn [selected] in Hs, Hx. apply not_true_iff_false in Hs. apply Hs. apply like_denorm. apply like_denorm in Hx as (p & y & r & Hn & Hp).
        rewrite Hn, lower_app, Hp in Hk. cbn [lower] in Hk.
        destruct (ce_name e) as [|x1 [|x2 [|x3 [|x4 [|x5 [|x6 [|x7 s]]]]]]]; cbn [lower] in Hk; rewrite ?str_app_cons in Hk; try done.
        injection Hk as K1 K2 K3 K4 K5 K6 _ _. exists (String x1 (String x2 (String x3 (String x4 (String x5 (String x6 "")))))), x7, s.
        split; [by rewrite !str_app_cons, str_app_nil|]. cbn [lower]. rewrite K1, K2, K3, K4, K5, K6. reflexivity.
      - destruct (find_table c (ce_tab x)); [|done]. injection Ek as <-. injection Hk as _ _ Hk. rewrite Hk in Hs. congruence.
      - injection Ek as <-. injection Hk as Hk. rewrite Hk in Hs. congruence. }
    destruct H0 as [H0 H0']. rewrite <- H0'. apply (IH c0 c'); [|done|done]. intros y Hy. apply Hl. by right. }
  destruct (drop_go b c _) as [c'|] eqn:Ed; [|done]. cbn [fst]. eapply Hg; [|done|exact Ed]. intros x Hx. by apply elem_of_list_filter in Hx as [? _].
Qed.
Print Assumptions drop_keeps_others.
Example drop_keeps_ex b : CEntry "public" "post" "audit" (TForeign 1) ∈ ct_trigs (ex_cat b) ∧ selected b "audit" = false.
Proof. split; [right; left|by destruct b]. Qed.
(** Triggers of others are dropped when their names begin alike: the underscore of the
    pattern matches any character. *)
Theorem drop_only_ours_refuted b : ∃ c e, cat_ok b c ∧ e ∈ ct_trigs c ∧ ce_body e = TForeign 7 ∧
  ce_name e = (match b with SQLite => "DenormalizedTotals" | Postgres => "denormalize_totals" | MySQL => "denorm_audit" end) ∧ e ∉ ct_trigs (drop b c).1.
Proof.
  set (n := match b with SQLite => "DenormalizedTotals" | Postgres => "denormalize_totals" | MySQL => "denorm_audit" end).
  exists (Catalog [("public", "post")] ["public"] [CEntry "public" "post" n (TForeign 7)] ∅), (CEntry "public" "post" n (TForeign 7)).
  split.
  { split; [by apply NoDup_singleton|]. intros -> e He _. apply elem_of_list_singleton in He as ->. vm_compute. reflexivity. }
  split; [left|]. split; [done|]. split; [done|].
  assert (H : ct_trigs (drop b (Catalog [("public", "post")] ["public"] [CEntry "public" "post" n (TForeign 7)] ∅)).1 = []) by (destruct b; vm_compute; reflexivity).
  rewrite H. apply not_elem_of_nil.
Qed.
Print Assumptions drop_only_ours_refuted.
(** On MySQL, install is not atomic: if the same random characters are drawn twice the
    triggers created before stay. *)
Theorem install_partial_mysql_refuted : ∃ S ts c digest rnd, wf_schema S ∧ build_triggerset MySQL S = Ok ts ∧ ct_trigs c = [] ∧
  (install MySQL digest rnd ts c).2 = false ∧ ct_trigs (install MySQL digest rnd ts c).1 ≠ [].
Proof.
  assert (Hwf : wf_schema MD) by (apply wf_schemab_spec; vm_compute; reflexivity).
  assert (H : match build_triggerset MySQL MD with
    | Ok ts => bool_decide ((install MySQL digest4 (λ _, "QQQQQ") ts md_cat).2 = false ∧ length (ct_trigs (install MySQL digest4 (λ _, "QQQQQ") ts md_cat).1) = 2%nat)
    | Err _ => false end = true) by (vm_compute; reflexivity).
  destruct (build_triggerset MySQL MD) as [ts|] eqn:E1; [|done]. apply bool_decide_eq_true in H as [H1 H2].
  exists MD, ts, md_cat, digest4, (λ _, "QQQQQ"). split; [done|]. split; [done|]. split; [done|]. split; [done|]. intros H. rewrite H in H2. done.
Qed.
Print Assumptions install_partial_mysql_refuted.

(** ** C77: all or nothing *)
(** On the default database, other than MySQL, a failed installation changes nothing, nor
    does a failed removal; on MySQL a removal never fails. *)
Theorem failed_install_rolled_back b digest rnd ts c : b ≠ MySQL → (install_on true b digest rnd ts c).2 = false → (install_on true b digest rnd ts c).1 = c.
Proof. intros Hb. unfold install_on, install. destruct b; [|..|done]; destruct (install_go _ _ _ _ _ _).2 eqn:H; [by rewrite H|done|by rewrite H|done]. Qed.
Print Assumptions failed_install_rolled_back.
Theorem failed_drop_rolled_back b c : (drop_on true b c).2 = false → (drop_on true b c).1 = c.
Proof. unfold drop_on, drop. by destruct (drop_go _ _ _). Qed.
Print Assumptions failed_drop_rolled_back.
(** Successful runs do the same on every database. *)
Theorem success_on_any_database b digest rnd ts c : ((install_on false b digest rnd ts c).2 = (install_on true b digest rnd ts c).2 ∧
    ((install_on true b digest rnd ts c).2 = true → install_on false b digest rnd ts c = install_on true b digest rnd ts c)) ∧
  ((drop_on false b c).2 = (drop_on true b c).2 ∧ ((drop_on true b c).2 = true → drop_on false b c = drop_on true b c)).
Proof.
  split.
  - unfold install_on, install. destruct b; [destruct (install_go _ _ _ _ _ _).2 eqn:H; by rewrite ?H..|done].
  - unfold drop_on, drop. generalize (filter (λ e, selected b (ce_name e) = true) (ct_trigs c)). intros l.
    assert (Hg : ∀ l c0, match drop_go b c0 l with Some c1 => drop_stop b c0 l = (c1, true) | None => (drop_stop b c0 l).2 = false end).
    { clear. induction l as [|e l IH]; intros c0; [done|]. cbn [drop_go drop_stop]. destruct (drop_one b c0 e); [apply IH|done]. }
    specialize (Hg l c). destruct (drop_go b c l); [by rewrite Hg|by rewrite Hg].
Qed.
Print Assumptions success_on_any_database.
(** No installation removes or changes a trigger that is already there. *)
Theorem install_only_adds dflt b digest rnd ts c : ∃ l, ct_trigs (install_on dflt b digest rnd ts c).1 = ct_trigs c ++ l ∧
  ct_tabs (install_on dflt b digest rnd ts c).1 = ct_tabs c ∧ ((install_on dflt b digest rnd ts c).2 = true → length l = length ts).
Proof.
  assert (Hg : ∀ ts i c, ∃ l, ct_trigs (install_go b digest rnd i ts c).1 = ct_trigs c ++ l ∧ ct_tabs (install_go b digest rnd i ts c).1 = ct_tabs c ∧
    ((install_go b digest rnd i ts c).2 = true → length l = length ts)).
  { clear. induction ts as [|p ts IH]; intros i c; [exists []; simpl; by rewrite app_nil_r|]. cbn [install_go].
    destruct (create b digest (rnd i) p.2 c) as [c'|] eqn:Hc; [|exists []; simpl; by rewrite app_nil_r].
    unfold create in Hc. destruct (trig_sql b p.2) as [it|]; [|done]. destruct (find_table c _) as [s|]; [|done]. case_decide; [done|]. injection Hc as <-.
    edestruct (IH (Datatypes.S i)) as (l & H1 & H2 & H3). eexists (_ :: l). rewrite H1, H2. cbn [ct_trigs ct_tabs]. split; [by rewrite <- (assoc_L app)|]. split; [done|].
    intros Hok. simpl. by rewrite H3. }
  unfold install_on, install. destruct (Hg ts 0%nat c) as (l & H1 & H2 & H3). destruct dflt; [|by exists l]. destruct b; [destruct (install_go _ _ _ _ _ _).2 eqn:E..|].
  all: first [by exists l; rewrite H1, H2, ?E in *; auto|exists []; simpl; by rewrite app_nil_r].
Qed.
Print Assumptions install_only_adds.
(** Refuted on other databases: the table post is there and the other tables are missing.
    The triggers created before the failure stay. *)
Definition part_cat : catalog := Catalog [("public", "post")] ["public"] [CEntry "public" "post" "other" (TForeign 7)] ∅.
Theorem install_other_database_refuted : ∀ b, ∃ S ts c digest rnd, wf_schema S ∧ build_triggerset b S = Ok ts ∧ cat_ok b c ∧
  (install_on false b digest rnd ts c).2 = false ∧ ct_trigs (install_on false b digest rnd ts c).1 ≠ ct_trigs c.
Proof.
  intros b.
  assert (H : match build_triggerset b RS with
    | Ok ts => bool_decide ((install_on false b digest4 (λ _, "QQQQQ") ts part_cat).2 = false ∧ length (ct_trigs (install_on false b digest4 (λ _, "QQQQQ") ts part_cat).1) = 4%nat)
    | Err _ => false end = true) by (destruct b; vm_compute; reflexivity).
  destruct (build_triggerset b RS) as [ts|] eqn:E1; [|done]. apply bool_decide_eq_true in H as [H1 H2].
  exists RS, ts, part_cat, digest4, (λ _, "QQQQQ"). split; [apply RS_wf|]. split; [done|]. split.
  { split; [by apply NoDup_singleton|]. intros -> e He. apply elem_of_list_singleton in He as ->. done. }
  split; [done|]. intros H. rewrite H in H2. done.
Qed.
Print Assumptions install_other_database_refuted.
(** And triggers dropped before the failure are gone. *)
Theorem drop_other_database_refuted : ∃ c, NoDup (ckey Postgres <$> ct_trigs c) ∧
  (drop_on false Postgres c).2 = false ∧ ct_trigs (drop_on false Postgres c).1 ≠ ct_trigs c.
Proof.
  exists (Catalog [("public", "forum"); ("archive", "forum")] ["public"]
    [CEntry "public" "forum" "denorm_after_row_update_on_forum" (TCalls "f"); CEntry "archive" "forum" "denorm_after_row_insert_on_forum" (TCalls "g")] ∅).
  split; [apply (bool_decide_unpack _); vm_compute; exact I|]. split; [vm_compute; reflexivity|].
  intros H. apply (f_equal length) in H. vm_compute in H. discriminate H.
Qed.
Print Assumptions drop_other_database_refuted.
(** On the default database the same installation leaves the catalogue as it was. *)
Example failed_install_ex : forallb (λ b, match build_triggerset b RS with
    | Ok ts => negb (install_on true b digest4 (λ _, "QQQQQ") ts part_cat).2 && bool_decide (length (ct_trigs (install_on true b digest4 (λ _, "QQQQQ") ts part_cat).1) = 1%nat)
    | Err _ => false end) [SQLite; Postgres] = true.
Proof. vm_compute. reflexivity. Qed.
