(** * Cases for the claims on upgrades: from [OldS], whose functions declare no dependencies, to [QS]. *)
From stdpp Require Import relations.
From Verif Require Import Base BaseLemmas Schema TrigSet Gen Exec Orm Flush Machine Spec SpecAgg SpecOrder SpecSave GenLemmas Conditions Names Render RenderProps Resolve Md5 Settle Hist Sessions Install Check ExForum ExBad ExAgg CheckOrder ExTree CheckSave ExSave ExModes DaemonData ExDaemonData Request ExRequest Refs Upgrade.
Open Scope list_scope.

(** The former declarations: the same tables, nothing is counted and no dependency is declared. *)
Definition OldS : schema := Schema
  [ mkmodel "Forum" "forum" 10 [ plain "title" "Forum"; fkf "parent" "Forum" "Forum"; plain "post_count" "Forum"; cbf "path" "Forum" cb_path [] [] ] [];
    mkmodel "Post" "post" 11 [ plain "text" "Post"; fkf "forum" "Forum" "Post"; plain "stamp" "Post"; cbf "forum_path" "Post" cb_forum_path [] []; plain "copy" "Post" ] [] ] false.
Definition no_rnd : nat → string := λ _, "".
Definition tset_of (b : backend) (S : schema) : tset := match build_triggerset b S with Ok ts => ts | Err _ => [] end.
Lemma tset_of_ok b S : okb (mk_env b S rand0 true 10) = true → build_triggerset b S = Ok (tset_of b S).
Proof. unfold mk_env, installed, tset_of. destruct (build_triggerset b S); [done|done]. Qed.
Definition empty_cat (l : list string) : catalog := Catalog ((λ t, ("public", t)) <$> l) ["public"] [CEntry "public" "post" "audit" (TForeign 1)] ∅.
(** The database as it was set up for [OldS], with an audit trigger of somebody else. *)
Definition old_cat (b : backend) : catalog := (install b digest4 no_rnd (tset_of b OldS) (empty_cat ["forum"; "post"])).1.
Lemma old_cat_ok b : cat_ok b (old_cat b).
Proof.
  assert (H1 : bool_decide (NoDup (ckey b <$> ct_trigs (old_cat b))) = true) by (destruct b; vm_compute; reflexivity).
  assert (H2 : forallb (λ e, bool_decide (find_table (old_cat b) (ce_tab e) = Some (ce_sch e))) (ct_trigs (old_cat b)) = true) by (destruct b; vm_compute; reflexivity).
  split; [exact (bool_decide_eq_true_1 _ H1)|]. intros _ e He _. rewrite forallb_forall in H2. specialize (H2 e (proj1 (elem_of_list_In _ _) He)). exact (bool_decide_eq_true_1 _ H2).
Qed.
Definition foreignb (x : tbody) : bool := match x with TForeign _ => true | _ => false end.
Lemma old_cat_foreign b : others_foreign b (old_cat b).
Proof.
  assert (H : forallb (λ e, selected b (ce_name e) || foreignb (ce_body e)) (ct_trigs (old_cat b)) = true) by (destruct b; vm_compute; reflexivity).
  intros e He Hs. rewrite forallb_forall in H. specialize (H e (proj1 (elem_of_list_In _ _) He)). rewrite Hs in H. destruct (ce_body e); [done|done|eauto].
Qed.
Lemma old_cat_many b : (4 ≤ length (cat_trigs (old_cat b)))%nat.
Proof. apply (bool_decide_eq_true_1 _). destruct b; vm_compute; reflexivity. Qed.
Lemma q_tset b : build_triggerset b (QS false) = Ok (tset_of b (QS false)).
Proof. apply tset_of_ok. destruct b; vm_compute; reflexivity. Qed.
Lemma q_tabs b p : p ∈ tset_of b (QS false) → fold b (t_tab p.2) = t_tab p.2 ∧ is_Some (find_table (old_cat b) (t_tab p.2)).
Proof.
  assert (H : forallb (λ p, bool_decide (fold b (t_tab p.2) = t_tab p.2 ∧ is_Some (find_table (old_cat b) (t_tab p.2)))) (tset_of b (QS false)) = true) by (destruct b; vm_compute; reflexivity).
  intros Hp. rewrite forallb_forall in H. exact (bool_decide_eq_true_1 _ (H p (proj1 (elem_of_list_In _ _) Hp))).
Qed.
Lemma q_names b rnd : NoDup (names_from b digest4 rnd 0 (tset_of b (QS false))).
Proof.
  apply (short_names_nodup b (QS false)); [apply q_tset|]. intros p Hp.
  assert (H : forallb (λ p : string * trigger, bool_decide ((String.length p.1 ≤ 50)%nat ∧ lower p.1 = p.1)) (tset_of b (QS false)) = true) by (destruct b; vm_compute; reflexivity).
  rewrite forallb_forall in H. destruct (bool_decide_eq_true_1 _ (H p (proj1 (elem_of_list_In _ _) Hp))). done.
Qed.

(** ** denorm_init is run without denorm_drop *)
Definition again (b : backend) : catalog * bool := install b digest4 no_rnd (tset_of b (QS false)) (old_cat b).
Lemma again_fails b : (again b).2 = false.
Proof. destruct b; vm_compute; reflexivity. Qed.
Definition AE (b : backend) : env := cat_env b (QS false) rand0 true 10 (again b).1.
(** Forum 1 is renamed and everything flushed; forum 2 keeps the old path. *)
Definition ag_1 (b : backend) : db := ok_db (run_op (AE b) (QS false) (rename 1 "z") (qd b false)).
Lemma ag_1_ok b : run_op (AE b) (QS false) (rename 1 "z") (qd b false) = Ok (ag_1 b).
Proof. apply ok_db_ok. destruct b; vm_compute; reflexivity. Qed.
Definition ag_2 (b : backend) : db := (flush (AE b) (QS false) id_ord 10 (ag_1 b)).1.
Lemma ag_2_ok b : flush (AE b) (QS false) id_ord 10 (ag_1 b) = (ag_2 b, Done).
Proof. apply flush_pair. destruct b; vm_compute; reflexivity. Qed.
Definition ag_row (b : backend) : row := default ∅ (getrow (ag_2 b) "forum" 2).
Lemma ag_row_ok b : getrow (ag_2 b) (m_table QForum) 2 = Some (ag_row b).
Proof.
  assert (H : match getrow (ag_2 b) "forum" 2 with Some _ => true | None => false end = true) by (destruct b; vm_compute; reflexivity).
  change (m_table QForum) with "forum". unfold ag_row. by destruct (getrow (ag_2 b) "forum" 2).
Qed.
Lemma ag_stale b : ¬ row_consistent QForum (ag_2 b) 2 (ag_row b) (cbf "path" "Forum" cb_path [t_parent] []).
Proof. apply staleb3_spec. destruct b; vm_compute; reflexivity. Qed.
Lemma ag_wrong b : ¬ consistent (QS false) (ag_2 b).
Proof. intros H. apply (ag_stale b). apply H; [by left|do 3 right; by left|exact (ag_row_ok b)]. Qed.

(** ** Posts are removed, notes are new *)
Definition NoteS : schema := Schema
  [ mkmodel "Forum" "forum" 10 [ plain "title" "Forum"; fkf "parent" "Forum" "Forum" ] [];
    mkmodel "Note" "note" 12 [ plain "x" "Note"; cbf "f" "Note" (cb_copy "x") [] [] ] [] ] false.
(** DROP TABLE removes the triggers of the table. *)
Definition drop_table (c : catalog) (t : string) : catalog :=
  Catalog (filter (λ p : string * string, p.2 ≠ t) (ct_tabs c)) (ct_path c) (filter (λ e, ce_tab e ≠ t) (ct_trigs c)) (ct_funs c).
Definition q_cat (b : backend) : catalog := (install b digest4 no_rnd (tset_of b (QS false)) (empty_cat ["forum"; "post"; "note"])).1.
Lemma q_cat_ok b : install b digest4 no_rnd (tset_of b (QS false)) (empty_cat ["forum"; "post"; "note"]) = (q_cat b, true).
Proof.
  unfold q_cat. assert (H : (install b digest4 no_rnd (tset_of b (QS false)) (empty_cat ["forum"; "post"; "note"])).2 = true) by (destruct b; vm_compute; reflexivity).
  destruct (install b digest4 no_rnd (tset_of b (QS false)) (empty_cat ["forum"; "post"; "note"])). simpl in *. by rewrite H.
Qed.
Definition note_cat (b : backend) : catalog := (install b digest4 no_rnd (tset_of b NoteS) (drop_table (q_cat b) "post")).1.
Lemma note_cat_ok b : install b digest4 no_rnd (tset_of b NoteS) (drop_table (q_cat b) "post") = (note_cat b, true).
Proof.
  unfold note_cat. assert (H : (install b digest4 no_rnd (tset_of b NoteS) (drop_table (q_cat b) "post")).2 = true) by (destruct b; vm_compute; reflexivity).
  destruct (install b digest4 no_rnd (tset_of b NoteS) (drop_table (q_cat b) "post")). simpl in *. by rewrite H.
Qed.
Definition dangling (c : catalog) : list (string * string) :=
  e ← ct_trigs c; match fires c e with
                  | Some it => filter (λ p : string * string, find_table c p.1 = None) (i_acts it ≫= act_refs (i_tab it))
                  | None => []
                  end.
Lemma dangling_spec c p : p ∈ dangling c → ∃ e it a, e ∈ ct_trigs c ∧ fires c e = Some it ∧ a ∈ i_acts it ∧ p ∈ act_refs (i_tab it) a ∧ find_table c p.1 = None.
Proof.
  unfold dangling. intros (e & Hp & He)%elem_of_list_bind. destruct (fires c e) as [it|] eqn:Hf; [|by apply elem_of_nil in Hp].
  apply elem_of_list_filter in Hp as [Hp1 Hp2]. apply elem_of_list_bind in Hp2 as (a & Ha & Hin). by exists e, it, a.
Qed.
Lemma note_dangling b : ("post", "id") ∈ dangling (note_cat b) ∧ ("forum", "id") ∉ dangling (note_cat b).
Proof. apply (bool_decide_eq_true_1 _). destruct b; vm_compute; reflexivity. Qed.

(** ** A CountField is new: the column was added with its default 0 *)
Definition zero_counts (d : db) : db := foldl (λ d k, put_row d "forum" k (<["post_count" := VInt 0]> (default ∅ (getrow d "forum" k)))) d [1; 2; 3]%Z.
Definition UE (b : backend) : env := env_of b (QS false) true.
Definition zc_1 (b : backend) : db := (rebuildall (UE b) (QS false) id_ord 10 None None (zero_counts (qd b false))).1.
Lemma zc_1_ok b : rebuildall (UE b) (QS false) id_ord 10 None None (zero_counts (qd b false)) = (zc_1 b, Done).
Proof. apply rebuild_pair. destruct b; vm_compute; reflexivity. Qed.
Lemma zc_wrong b : ¬ agg_exact QForum q_cf q_count QPost (zc_1 b).
Proof. apply (agg_wrong _ _ _ _ _ 2 0 2); [destruct b; vm_compute; reflexivity..|done]. Qed.
Lemma zc_noself b : no_self_relation (QS false) (zero_counts (qd b false)).
Proof. apply no_self_relationb_spec. destruct b; vm_compute; reflexivity. Qed.
Lemma zc_visible b m k r : m ∈ s_models (QS false) → getrow (zero_counts (qd b false)) (m_table m) k = Some r → m_visible m r = true.
Proof. intros Hm _. simpl in Hm. repeat (apply elem_of_cons in Hm as [->|Hm]; [done|]). by apply elem_of_nil in Hm. Qed.
Lemma all_zero d k r : forallb (λ p : Z * row, bool_decide (col p.2 "post_count" = VInt 0)) (map_to_list (tab d "forum")) = true →
  getrow d "forum" k = Some r → col r "post_count" = VInt 0.
Proof.
  intros H Hr. rewrite forallb_forall in H. assert (Hin : (k, r) ∈ map_to_list (tab d "forum")) by (by apply elem_of_map_to_list).
  exact (bool_decide_eq_true_1 _ (H (k, r) (proj1 (elem_of_list_In _ _) Hin))).
Qed.
Lemma zc_zero b k r : getrow (zero_counts (qd b false)) (m_table QForum) k = Some r → col r (f_col q_cf) = VInt 0.
Proof. change (f_col q_cf) with "post_count". change (m_table QForum) with "forum". apply all_zero. destruct b; vm_compute; reflexivity. Qed.
Lemma zc_consistent b : consistent (QS false) (zc_1 b).
Proof. exact (proj1 (rebuild_repairs_all b (QS false) rand0 true 10 (UE b) q_rank (QE_ok b false) QS_flushable _ _ _ _ (QS_nolinks false _) (zc_noself b) (zc_visible b) (zc_1_ok b))). Qed.
Lemma note_no_post c : ¬ has_column NoteS "post" c.
Proof.
  intros H. inversion H as [m Hm Ht|m f Hm Hf Ho Ht|m mm c' Hm Hmm Hc Ht]; subst; simpl in Hm;
  repeat (apply elem_of_cons in Hm as [->|Hm]; [try done; simpl in Hmm; by apply elem_of_nil in Hmm|]); by apply elem_of_nil in Hm.
Qed.
Lemma note_dangles b : ∃ e it a col, e ∈ ct_trigs (note_cat b) ∧ fires (note_cat b) e = Some it ∧ a ∈ i_acts it ∧ ("post", col) ∈ act_refs (i_tab it) a ∧
  find_table (note_cat b) "post" = None ∧ ∃ col', has_column NoteS (i_tab it) col'.
Proof.
  destruct (dangling_spec _ _ (proj1 (note_dangling b))) as (e & it & a & He & Hf & Ha & Hr & Hn). exists e, it, a, "id". do 5 (split; [done|]).
  assert (H : forallb (λ e, match fires (note_cat b) e with Some it => bool_decide (i_tab it ∈ ["forum"; "note"]) | None => true end) (ct_trigs (note_cat b)) = true) by (destruct b; vm_compute; reflexivity).
  rewrite forallb_forall in H. specialize (H e (proj1 (elem_of_list_In _ _) He)). rewrite Hf in H. apply (bool_decide_eq_true_1 _) in H. exists "id".
  apply elem_of_cons in H as [->|H]; [|apply elem_of_list_singleton in H as ->].
  - apply (hc_pk NoteS (mkmodel "Forum" "forum" 10 [ plain "title" "Forum"; fkf "parent" "Forum" "Forum" ] [])). by left.
  - apply (hc_pk NoteS (mkmodel "Note" "note" 12 [ plain "x" "Note"; cbf "f" "Note" (cb_copy "x") [] [] ] [])). right. by left.
Qed.

(** ** The content types are numbered anew *)
Definition renumber (g : Z → Z) (S : schema) : schema := Schema ((λ m, Model (m_name m) (m_app m) (m_table m) (m_pk m) (g (m_ct m)) (m_proxy m) (m_swapped m)
  (m_fields m) (m_m2m m) (m_always_skip m) (m_truthy m) (m_visible m)) <$> s_models S) (s_bulk_unsafe S).
(** Forums had 11 and posts 10 when the triggers were installed. *)
Definition swap_ct (z : Z) : Z := if decide (z = 10)%Z then 11%Z else if decide (z = 11)%Z then 10%Z else z.
Lemma swap_ct_inj x y : swap_ct x = swap_ct y → x = y.
Proof. unfold swap_ct. repeat case_decide; lia. Qed.
Definition ren_cat (b : backend) : catalog := (install b digest4 no_rnd (tset_of b (renumber swap_ct (QS false))) (empty_cat ["forum"; "post"])).1.
Lemma ren_cat_ok b : install b digest4 no_rnd (tset_of b (renumber swap_ct (QS false))) (empty_cat ["forum"; "post"]) = (ren_cat b, true).
Proof.
  assert (H : (install b digest4 no_rnd (tset_of b (renumber swap_ct (QS false))) (empty_cat ["forum"; "post"])).2 = true) by (destruct b; vm_compute; reflexivity).
  unfold ren_cat. destruct (install _ _ _ _ _). cbn [snd] in H. by rewrite H.
Qed.
Definition RE (b : backend) : env := cat_env b (QS false) rand0 true 10 (ren_cat b).
Definition re_1 (b : backend) : db := ok_db (run_op (RE b) (QS false) (rename 1 "z") (qd b false)).
Lemma re_1_ok b : run_op (RE b) (QS false) (rename 1 "z") (qd b false) = Ok (re_1 b).
Proof. apply ok_db_ok. destruct b; vm_compute; reflexivity. Qed.
Definition re_2 (b : backend) : db := (flush (RE b) (QS false) id_ord 10 (re_1 b)).1.
Lemma re_2_ok b : flush (RE b) (QS false) id_ord 10 (re_1 b) = (re_2 b, Done).
Proof. apply flush_pair. destruct b; vm_compute; reflexivity. Qed.
Definition re_row (b : backend) : row := default ∅ (getrow (re_2 b) "forum" 1).
Lemma re_row_ok b : getrow (re_2 b) (m_table QForum) 1 = Some (re_row b).
Proof.
  assert (H : match getrow (re_2 b) "forum" 1 with Some _ => true | None => false end = true) by (destruct b; vm_compute; reflexivity).
  change (m_table QForum) with "forum". unfold re_row. by destruct (getrow (re_2 b) "forum" 1).
Qed.
Lemma re_stale b : ¬ row_consistent QForum (re_2 b) 1 (re_row b) (cbf "path" "Forum" cb_path [t_parent] []).
Proof. apply staleb3_spec. destruct b; vm_compute; reflexivity. Qed.
Lemma re_wrong b : ¬ consistent (QS false) (re_2 b).
Proof. intros H. apply (re_stale b). apply H; [by left|do 3 right; by left|exact (re_row_ok b)]. Qed.
Lemma re_marks b : d_dirty (re_1 b) = [(11%Z, Some "1"); (11%Z, Some "2")].
Proof. destruct b; vm_compute; reflexivity. Qed.
