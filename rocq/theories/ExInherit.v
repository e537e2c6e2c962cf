(** * Examples for saving through subclasses and proxies. *)
From stdpp Require Import relations.
From Verif Require Import Base BaseLemmas Schema TrigSet Gen Exec Orm Flush Machine Spec SpecAgg SpecOrder SpecSave GenLemmas Conditions Settle Hist Sessions Agg AggEngine AggOps Check ExForum ExBad ExAgg CheckOrder ExTree CheckSave ExSave ExModes ExLimits Links Inherit.
Open Scope list_scope.

(** class Bar(Place): beer, and the number of its drinkers *)
Definition IPlace : model := mkmodel "Place" "place" 20 [plain "title" "Place"; cbf "label" "Place" (cb_copy "title") [] []] [].
Definition i_count : agg := Agg "Drinker" "bar_id" [] [] None [].
Definition i_cf : field := aggf "drinkers" "Bar" i_count.
Definition IBar : model := mkmodel "Bar" "bar" 21 [plain "beer" "Bar"; cbf "strong" "Bar" (cb_copy "beer") [] []; i_cf] [].
Definition IDrinker : model := mkmodel "Drinker" "drinker" 22 [fkf "bar" "Bar" "Drinker"] [].
Definition IS : schema := Schema [IPlace; IBar; IDrinker] false.
Definition bar : iclass := IClass [IPlace] IBar false.
Definition i_rank (t : string) : nat := if decide (t = "drinker") then 1 else 0.
Lemma IS_flushable : flushable IS i_rank true.
Proof.
  apply (flushableb_spec _ _ _ (λ m _, if decide (m_name m = "Place") then Reads ["title"] [] else Reads ["beer"] [])); [by vm_compute| |].
  - intros m r Hm. simpl in Hm. repeat (apply elem_of_cons in Hm as [->|Hm]; [done|]). by apply elem_of_nil in Hm.
  - intros m f fn ds sk Hm Hf Hk. simpl in Hm. repeat (apply elem_of_cons in Hm as [->|Hm]); [..|by apply elem_of_nil in Hm]; simpl in Hf;
      (repeat (apply elem_of_cons in Hf as [->|Hf]); [..|by apply elem_of_nil in Hf]); simpl in Hk; try discriminate Hk; injection Hk as <- <- <-; apply cb_copy_reads.
Qed.
Definition IE (b : backend) : env := env_of b IS true.
Lemma IE_ok b : mk_env b IS rand0 true 10 = Ok (IE b).
Proof. destruct b; vm_compute; reflexivity. Qed.
Lemma IS_count : agg_field IS IBar i_cf i_count IDrinker.
Proof. apply agg_fieldb_spec; [simpl; set_solver|simpl; set_solver|done|done|by vm_compute]. Qed.

Definition ok_save (x : res (db * Z * row)) : db * Z * row := match x with Ok y => y | Err _ => (d0, 0, ∅) end.
Lemma ok_save_ok x : okb x = true → x = Ok (ok_save x). Proof. by destruct x. Qed.
(** Bar.objects.create(title="a", beer=1), two drinkers, and a stale instance with another title and beer *)
Definition i_row (t : string) (n : Z) : row := rowof [("title", VText t); ("beer", VInt n); ("drinkers", VInt 7)].
Definition is_1 (b : backend) : db * Z * row := ok_save (save_class (IE b) bar true None (i_row "a" 1) d0).
Lemma is_1_ok b : save_class (IE b) bar true None (i_row "a" 1) d0 = Ok (is_1 b).
Proof. apply ok_save_ok. destruct b; vm_compute; reflexivity. Qed.
Definition i_drink : op := OInsert "drinker" [(1, rowof [("bar_id", VInt 1)]); (2, rowof [("bar_id", VInt 1)])].
Definition is_2 (b : backend) : db := ok_db (run_op (IE b) IS i_drink (is_1 b).1.1).
Lemma is_2_ok b : run_op (IE b) IS i_drink (is_1 b).1.1 = Ok (is_2 b).
Proof. apply ok_db_ok. destruct b; vm_compute; reflexivity. Qed.
Definition is_3 (b : backend) : db * Z * row := ok_save (save_class (IE b) bar false (Some 1) (i_row "z" 5) (is_2 b)).
Lemma is_3_ok b : save_class (IE b) bar false (Some 1) (i_row "z" 5) (is_2 b) = Ok (is_3 b).
Proof. apply ok_save_ok. destruct b; vm_compute; reflexivity. Qed.
Definition is_4 (b : backend) : db := (flush (IE b) IS id_ord 10 (is_3 b).1.1).1.
Lemma is_4_ok b : flush (IE b) IS id_ord 10 (is_3 b).1.1 = (is_4 b, Done).
Proof. apply flush_pair. destruct b; vm_compute; reflexivity. Qed.
Definition is_cells (d : db) : list (option val) := [cellv d "place" 1 "title"; cellv d "place" 1 "label"; cellv d "bar" 1 "beer"; cellv d "bar" 1 "strong"; cellv d "bar" 1 "drinkers"].
Lemma is_values b : is_cells (is_1 b).1.1 = Some <$> [VText "a"; VText "a"; VInt 1; VInt 1; VInt 0] ∧ is_cells (is_2 b) = Some <$> [VText "a"; VText "a"; VInt 1; VInt 1; VInt 2] ∧
  is_cells (is_3 b).1.1 = Some <$> [VText "z"; VText "z"; VInt 5; VInt 5; VInt 2] ∧ cellv (is_3 b).1.1 "place" 1 "beer" = Some VNull.
Proof. destruct b; vm_compute; repeat split; reflexivity. Qed.
Lemma is_steps b : rtc (class_step IS (IE b)) d0 (is_3 b).1.1.
Proof.
  eapply rtc_l; [exact (cs_save _ _ _ _ _ _ _ _ (is_1_ok b))|]. eapply rtc_l; [exact (cs_op _ _ _ _ _ (is_2_ok b))|]. eapply rtc_l; [exact (cs_save _ _ _ _ _ _ _ _ (is_3_ok b))|]. apply rtc_refl.
Qed.
Lemma is_noself b : no_self_relation IS (is_3 b).1.1.
Proof. apply no_self_relationb_spec. destruct b; vm_compute; reflexivity. Qed.
Lemma is_2_exact b : fk_valid IBar i_count IDrinker (is_2 b) ∧ agg_exact IBar i_cf i_count IDrinker (is_2 b).
Proof.
  assert (H0 : fk_valid IBar i_count IDrinker d0 ∧ agg_exact IBar i_cf i_count IDrinker d0) by (apply exact_spec; by apply exact_empty).
  pose proof (fl_wf _ _ _ IS_flushable) as W. pose proof (fl_names _ _ _ IS_flushable) as N.
  destruct (class_exact b IS rand0 10 (IE b) IBar i_cf i_count IDrinker bar true None (i_row "a" 1) d0 (is_1 b) W N (IE_ok b) IS_count) as [V X]; [intros m' Hm'; simpl in *; set_solver|apply is_1_ok|apply H0..|].
  destruct (mk_env_gen _ _ _ _ _ _ (IE_ok b)) as [l Hl]. apply (exact_spec IBar i_cf i_count IDrinker).
  eapply (run_op_exact b IS rand0 10 (IE b) l W (IE_ok b) Hl IBar i_cf i_count IDrinker (agg_field_link _ _ _ _ _ IS_count)); [| |exact (is_2_ok b)|by apply exact_spec]; [|by intros [=]].
  eapply field_settling; eauto using names_apart_ok, IE_ok, IS_count.
Qed.
(** Bar(title="a", beer=1).save() *)
Lemma is_raises b : save_class (IE b) bar false None (i_row "b" 2) (is_2 b) = Err EIndex.
Proof. destruct b; vm_compute; reflexivity. Qed.
Lemma is_keys b k : is_Some (getrow (is_2 b) "bar" k) → is_Some (getrow (is_2 b) "place" k).
Proof.
  assert (H : forallb (λ p : Z * row, bool_decide (is_Some (getrow (is_2 b) "place" p.1))) (map_to_list (tab (is_2 b) "bar")) = true) by (destruct b; vm_compute; reflexivity).
  intros [r Hr]. rewrite forallb_forall in H. assert (Hin : (k, r) ∈ map_to_list (tab (is_2 b) "bar")) by (apply elem_of_map_to_list; exact Hr).
  exact (bool_decide_eq_true_1 _ (H (k, r) (proj1 (elem_of_list_In _ _) Hin))).
Qed.

(** ** A function that calls a method the subclass overrides *)
(** class Place: kind = denormalized(lambda self: self.describe()); class Bar(Place) has its own describe() *)
Definition cb_kind : callback := λ _ _ r, Ok (PVal (VText (match r !! "beer" with Some _ => "bar" | None => "place" end))).
Definition k_f : field := cbf "kind" "Place" cb_kind [] [].
Definition KPlace : model := mkmodel "Place" "place" 20 [plain "title" "Place"; k_f] [].
Definition KBar : model := mkmodel "Bar" "bar" 21 [plain "beer" "Bar"] [].
Definition KS : schema := Schema [KPlace; KBar] false.
Definition kbar : iclass := IClass [KPlace] KBar false.
Definition KE (b : backend) : env := env_of b KS true.
Lemma KE_ok b : mk_env b KS rand0 true 10 = Ok (KE b).
Proof. destruct b; vm_compute; reflexivity. Qed.
Definition k_row : row := rowof [("title", VText "a"); ("beer", VInt 1)].
Definition k_1 (b : backend) : db * Z * row := ok_save (save_class (KE b) kbar false None k_row d0).
Lemma k_1_ok b : save_class (KE b) kbar false None k_row d0 = Ok (k_1 b).
Proof. apply ok_save_ok. destruct b; vm_compute; reflexivity. Qed.
Definition k_2 (b : backend) : db := (flush (KE b) KS id_ord 10 (k_1 b).1.1).1.
Lemma k_2_ok b : flush (KE b) KS id_ord 10 (k_1 b).1.1 = (k_2 b, Done).
Proof. apply flush_pair. destruct b; vm_compute; reflexivity. Qed.
Lemma k_values b : (k_1 b).1.2 = 1 ∧ cellv (k_1 b).1.1 "place" 1 "kind" = Some (VText "bar") ∧ cellv (k_2 b) "place" 1 "kind" = Some (VText "place") ∧
  cb_kind (k_2 b) (Some 1) (k_1 b).2 = Ok (PVal (VText "bar")).
Proof. destruct b; vm_compute; repeat split; reflexivity. Qed.

(** ** A denormalized ManyToManyField of the parent *)
(** def members(self): return [1] if self.size == 1 else [] *)
Definition fn_size : m2m_callback := λ _ _ r, Ok (match col r "size" with VInt 1 => [1] | _ => [] end).
Definition o_members : m2m := M2M "members" "Person" "team_members" "team_id" "person_id" (Some (fn_size, [])).
Definition OTeam : model := mkmodel "Team" "team" 20 [plain "size" "Team"] [o_members].
Definition OSub : model := mkmodel "SubTeam" "subteam" 21 [plain "extra" "SubTeam"] [].
Definition OPerson : model := mkmodel "Person" "person" 22 [plain "active" "Person"] [].
Definition OS (u : bool) : schema := Schema [OTeam; OSub; OPerson] u.
Definition OE (b : backend) (u : bool) : env := env_of b (OS u) true.
Lemma OE_ok b u : mk_env b (OS u) rand0 true 10 = Ok (OE b u).
Proof. destruct b, u; vm_compute; reflexivity. Qed.
Lemma OS_wf u : wf_schema (OS u).
Proof. apply wf_schemab_spec. destruct u; vm_compute; reflexivity. Qed.
Definition sub : iclass := IClass [OTeam] OSub false.
Definition team_proxy : iclass := IClass [] OTeam true.
Definition o_d (b : backend) (u : bool) : db := hist2 b (OS u) [OInsert "person" [(1, rowof [("active", VInt 1)])]; OInsert "team" [(1, rowof [("size", VInt 0)])]; OInsert "subteam" [(1, rowof [("extra", VInt 0)])]] [].
Definition o_row : row := rowof [("size", VInt 1); ("extra", VInt 3)].
Definition o_inst (proxy : bool) : row := if proxy then rowof [("size", VInt 1)] else o_row.
Definition o_class (proxy : bool) : iclass := if proxy then team_proxy else sub.
Definition o_1 (b : backend) (u proxy : bool) : db * Z * row := ok_save (save_class (OE b u) (o_class proxy) false (Some 1) (o_inst proxy) (o_d b u)).
Lemma o_1_ok b u proxy : save_class (OE b u) (o_class proxy) false (Some 1) (o_inst proxy) (o_d b u) = Ok (o_1 b u proxy).
Proof. apply ok_save_ok. destruct b, u, proxy; vm_compute; reflexivity. Qed.
Definition o_2 (b : backend) (u proxy : bool) : db := (flush (OE b u) (OS u) id_ord 10 (o_1 b u proxy).1.1).1.
Lemma o_2_ok b u proxy : flush (OE b u) (OS u) id_ord 10 (o_1 b u proxy).1.1 = (o_2 b u proxy, Done).
Proof. apply flush_pair. destruct b, u, proxy; vm_compute; reflexivity. Qed.
(** The links after the save and after flush: denormalized m2m fields have no triggers (get_alldenorms looks at
    _meta.fields, denorms.py:73), so the row is not marked either. *)
Lemma o_links b u proxy : linked (o_1 b u proxy).1.1 o_members 1 = [] ∧ linked (o_2 b u proxy) o_members 1 = [] ∧
  cellv (o_2 b u proxy) "team" 1 "size" = Some (VInt 1).
Proof. destruct b, u, proxy; vm_compute; repeat split; reflexivity. Qed.
Lemma linked_spec d mm k x : linked_to d mm k x ↔ x ∈ linked d mm k.
Proof.
  unfold linked. rewrite elem_of_list_fmap. split.
  - intros (i & lr & H). exists (i, x). split; [done|]. apply links_spec. eauto.
  - intros ([i y] & Hy & H). simpl in Hy. subst y. apply links_spec in H as (lr & H). exists i, lr. exact H.
Qed.
(** Saved through Team itself they are set. *)
Lemma o_own b u : ∃ x, save_class (OE b u) (IClass [] OTeam false) false (Some 1) (rowof [("size", VInt 1)]) (o_d b u) = Ok x ∧ linked x.1.1 o_members 1 = [VInt 1].
Proof.
  exists (ok_save (save_class (OE b u) (IClass [] OTeam false) false (Some 1) (rowof [("size", VInt 1)]) (o_d b u))).
  split; [apply ok_save_ok; destruct b, u; vm_compute; reflexivity|destruct b, u; vm_compute; reflexivity].
Qed.
