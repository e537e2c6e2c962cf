(** * Selection, middleware and stored values (C19, C28, C45, C49, C50). *)
From Verif Require Import Falsy.
From Verif Require Import Base BaseLemmas Schema TrigSet Gen Exec Orm Flush Spec Select Update Check ExForum ExRich ExBad.

(** ** C19 *)
Theorem rebuild_marks_exactly S mn fn d mk : mk ∈ rebuild_marks S mn fn d ↔
  ∃ m f k r, declares S m f ∧ names_model m mn ∧ names_field f fn ∧
    getrow d (m_table m) k = Some r ∧ m_visible m r = true ∧ mk = marker_of m k.
Proof. exact (rebuild_marks_spec S mn fn d mk). Qed.
Print Assumptions rebuild_marks_exactly.
Theorem rebuild_marks_once S mn fn d : NoDup (m_ct <$> s_models S) → NoDup (rebuild_marks S mn fn d).
Proof. exact (rebuild_marks_nodup S mn fn d). Qed.
Print Assumptions rebuild_marks_once.
(** rebuildall is flush after adding these markers. *)
Theorem rebuild_is_mark_and_flush E S ord n mn fn d :
  rebuildall E S ord n mn fn d = flush E S ord n (set_dirty d (d_dirty d ++ rebuild_marks S mn fn d)).
Proof. exact eq_refl. Qed.
Print Assumptions rebuild_is_mark_and_flush.
Definition c19_db : db := put_row (put_row (put_row d0 "forum" 1 ∅) "post" 7 ∅) "post" 8 ∅.
Example rebuild_marks_ex : NoDup (m_ct <$> s_models RS) ∧
  rebuild_marks RS (Some "Post") None c19_db = [(11, Some "8"); (11, Some "7")] ∧
  rebuild_marks RS (Some "app.Forum") (Some "post_count") c19_db = [(10, Some "1")] ∧
  rebuild_marks RS (Some "app.Forum") (Some "rating") c19_db = [] ∧
  length (rebuild_marks RS (Some "app") None c19_db) = 3%nat ∧ length (rebuild_marks RS None None c19_db) = 3%nat ∧
  rebuild_marks RS (Some "forum") None c19_db = [].
Proof. split; [apply RS_wf|]. vm_compute. repeat split; reflexivity. Qed.

(** ** C50 *)
Theorem denorms_exactly S m f : (m, f) ∈ alldenorms S ↔ declares S m f.
Proof. exact (alldenorms_spec S m f). Qed.
Print Assumptions denorms_exactly.
(** Adding a proxy or swapped-out model that owns no field of another model changes nothing. *)
Theorem proxy_swapped_add_nothing l1 p l2 u : (∀ m f, m ∈ l1 ++ l2 → f ∈ m_fields m → f_owner f ≠ m_name p) →
  m_proxy p = true ∨ (m_swapped p = true ∧ ∀ m, m ∈ l1 → m_name m ≠ m_name p) ∧ (∀ f, f ∈ m_fields p → f_owner f = m_name p) →
  alldenorms (Schema (l1 ++ p :: l2) u) = alldenorms (Schema (l1 ++ l2) u).
Proof. exact (alldenorms_skip l1 p l2 u). Qed.
Print Assumptions proxy_swapped_add_nothing.
Definition with_flags (n : string) (proxy swapped : bool) (fs : list field) : model :=
  Model n "app" n "id" 90 proxy swapped fs [] [] (λ _, true) (λ _, true).
Definition c50_proxy : model := with_flags "ForumProxy" true false [f_count].
Definition c50_swapped : model := with_flags "OldUser" false true [cbf "y" "OldUser" (cb_copy "x") [] []].
Example proxy_swapped_ex :
  (∀ m f, m ∈ s_models RS → f ∈ m_fields m → f_owner f ≠ m_name c50_proxy ∧ f_owner f ≠ m_name c50_swapped) ∧
  (∀ f, f ∈ m_fields c50_swapped → f_owner f = m_name c50_swapped) ∧
  (λ p : model * field, (m_name p.1, f_name p.2)) <$> alldenorms (Schema (c50_proxy :: c50_swapped :: s_models RS) false) =
  (λ p : model * field, (m_name p.1, f_name p.2)) <$> alldenorms RS ∧ length (alldenorms RS) = 8%nat.
Proof.
  split.
  { assert (H : forallb (λ m, forallb (λ f, bool_decide (f_owner f ≠ "ForumProxy" ∧ f_owner f ≠ "OldUser")) (m_fields m)) (s_models RS) = true) by (vm_compute; reflexivity).
    intros m f Hm Hf. rewrite forallb_forall in H. specialize (H m (proj1 (elem_of_list_In _ _) Hm)).
    rewrite forallb_forall in H. specialize (H f (proj1 (elem_of_list_In _ _) Hf)). by apply bool_decide_eq_true in H. }
  split; [by intros f ->%elem_of_list_singleton|]. vm_compute. split; reflexivity.
Qed.

(** ** C49 (refuted) *)
(** [if dirty_instance.content_object:] is false for a falsy instance (a model with
    __len__ or __bool__): its marker is deleted without recomputing it. *)
Definition odd_model (truthy visible : row → bool) : model :=
  Model "A" "app" "a" "id" 20 false false [plain "x" "A"; cbf "y" "A" (cb_copy "x") [] []] [] [] truthy visible.
Definition c49_row : row := rowof [("x", VInt 1); ("y", VInt 0)].
Definition FAL : schema := Schema [odd_model (λ r, negb (bool_decide (col r "x" = VInt 2))) (λ _, true)] false.
Definition fal_d (b : backend) : db := hist2 b FAL [OInsert "a" [(1, c49_row)]] [OUpdate "a" [1] (λ r, <["x" := VInt 2]> r)].
Theorem falsy_rows_refreshed_refuted b : ∃ S d d' m k, mk_env b S rand0 true 10 = Ok (env_of b S true) ∧ wf_schema S ∧
  marker_of m k ∈ d_dirty d ∧ flush (env_of b S true) S id_ord 5 d = (d', Done) ∧ d_dirty d' = [] ∧ ¬ consistent S d'.
Proof.
  exists FAL, (fal_d b), (flush (env_of b FAL true) FAL id_ord 5 (fal_d b)).1, (odd_model (λ _, true) (λ _, true)), 1.
  split; [destruct b; vm_compute; reflexivity|]. split; [apply wf_schemab_spec; by vm_compute|].
  split; [apply (bool_decide_unpack _); destruct b; vm_compute; exact I|].
  split; [apply flush_pair; destruct b; vm_compute; reflexivity|]. split; [destruct b; vm_compute; reflexivity|].
  apply (staleb_spec _ _ (odd_model (λ r, negb (bool_decide (col r "x" = VInt 2))) (λ _, true)) 1 1); [by left|]. destruct b; vm_compute; reflexivity.
Qed.
Print Assumptions falsy_rows_refreshed_refuted.
(** In general: a row whose ordinary columns make its instance falsy is not refreshed by
    any flush, whatever is marked and however it ends; all columns a save would write keep
    their values. *)
Theorem falsy_row_never_refreshed b S rand imm depth E m k r ord n d d' o :
  wf_schema S → mk_env b S rand imm depth = Ok E → m ∈ s_models S → getrow d (m_table m) k = Some r →
  (∀ r', (∀ c, plain_col m c → col r' c = col r c) → m_truthy m r' = false) →
  flush E S ord n d = (d', o) → ∃ r', getrow d' (m_table m) k = Some r' ∧ ∀ c, column_of m c → col r' c = col r c.
Proof. exact (falsy_flush b S rand imm depth E m k r ord n d d' o). Qed.
Print Assumptions falsy_row_never_refreshed.
Definition fal_m : model := odd_model (λ r, negb (bool_decide (col r "x" = VInt 2))) (λ _, true).
Example falsy_row_ex b : fal_m ∈ s_models FAL ∧ column_of fal_m "y" ∧ (∃ r, getrow (fal_d b) "a" 1 = Some r ∧ col r "x" = VInt 2 ∧ col r "y" = VInt 1 ∧
    ∀ r', (∀ c, plain_col fal_m c → col r' c = col r c) → m_truthy fal_m r' = false) ∧
  d_dirty (fal_d b) ≠ [] ∧ cellv (flush (env_of b FAL true) FAL id_ord 5 (fal_d b)).1 "a" 1 "y" = Some (VInt 1).
Proof.
  split; [by left|]. split; [exists (cbf "y" "A" (cb_copy "x") [] []); split; [right; by left|by split]|]. split.
  - assert (H : (λ r, (col r "x", col r "y")) <$> getrow (fal_d b) "a" 1 = Some (VInt 2, VInt 1)) by (destruct b; vm_compute; reflexivity).
    destruct (getrow (fal_d b) "a" 1) as [r|]; [|done]. injection H as Hx Hy. exists r. split_and!; [done..|]. intros r' Hr'.
    assert (Hx' : col r' "x" = VInt 2) by (rewrite Hr'; [done|exists (plain "x" "A"); split; [by left|by split]]). unfold fal_m, odd_model. simpl. rewrite Hx'. done.
  - split; [destruct b; vm_compute; discriminate|destruct b; vm_compute; reflexivity].
Qed.
(** rebuildall iterates over [model.objects], which may hide rows. *)
Definition HID : schema := Schema [odd_model (λ _, true) (λ r, negb (bool_decide (col r "x" = VInt 2)))] false.
Definition hid_d : db := put_row d0 "a" 1 (<["x" := VInt 2]> c49_row).
Theorem hidden_rows_rebuilt_refuted b : ∃ S d d', mk_env b S rand0 true 10 = Ok (env_of b S true) ∧ wf_schema S ∧
  ¬ consistent S d ∧ rebuildall (env_of b S true) S id_ord 5 None None d = (d', Done) ∧ ¬ consistent S d'.
Proof.
  exists HID, hid_d, (rebuildall (env_of b HID true) HID id_ord 5 None None hid_d).1.
  split; [destruct b; vm_compute; reflexivity|]. split; [apply wf_schemab_spec; by vm_compute|].
  split; [apply (staleb_spec _ _ (odd_model (λ _, true) (λ r, negb (bool_decide (col r "x" = VInt 2)))) 1 1); [by left|vm_compute; reflexivity]|].
  split; [apply rebuild_pair; destruct b; vm_compute; reflexivity|].
  apply (staleb_spec _ _ (odd_model (λ _, true) (λ r, negb (bool_decide (col r "x" = VInt 2)))) 1 1); [by left|]. destruct b; vm_compute; reflexivity.
Qed.
Print Assumptions hidden_rows_rebuilt_refuted.

(** ** C28 *)
(** The errors raised by a database are DatabaseErrors, all others are not. *)
Definition database_error (e : exn) : Prop := e ∈ [EDepth; ETableInUse; ENotNull; ECheck; EIntegrity; ESyntax; EDuplicate; ENotSupported; ENoRows].
Lemma database_error_spec e : is_database_error e = true ↔ database_error e.
Proof. unfold database_error. split; [intros H; destruct e; try done; set_solver|intros H; repeat (apply elem_of_cons in H as [->|H]; [done|]); by apply elem_of_nil in H]. Qed.
Lemma middleware_all {R} E S ord n d (resp : R) d' o : flush E S ord n d = (d', o) →
  match o with
  | Done => process_response E S ord n d resp = Some (d', inl resp)
  | Raised e => (database_error e → process_response E S ord n d resp = Some (d', inl resp)) ∧
                (¬ database_error e → process_response E S ord n d resp = Some (d', inr e))
  | Running => True
  end.
Proof.
  intros H. unfold process_response. rewrite H. destruct o as [|e|]; [done| |done]. rewrite <- database_error_spec.
  destruct (is_database_error e); naive_solver.
Qed.
Theorem middleware_returns_response {R} E S ord n d (resp : R) d' o : flush E S ord n d = (d', o) →
  match o with
  | Done => process_response E S ord n d resp = Some (d', inl resp)
  | Raised e => (database_error e → process_response E S ord n d resp = Some (d', inl resp)) ∧
                (¬ database_error e → process_response E S ord n d resp = Some (d', inr e))
  | Running => True
  end.
Proof. exact (middleware_all E S ord n d resp d' o). Qed.
Print Assumptions middleware_returns_response.
(** A callback that raises, after another row has already been refreshed. *)
Definition cb_raise : callback := λ _ _ r, if decide (col r "x" = VInt 2) then Err (EUser 7) else Ok (PVal (col r "x")).
Definition MW : schema := Schema [mkmodel "A" "a" 20 [plain "x" "A"; cbf "y" "A" cb_raise [] []] []] false.
Definition mw_d (b : backend) : db := hist2 b MW [] [OInsert "a" [(1, c49_row); (2, <["x" := VInt 2]> c49_row)]].
Example middleware_ex b : (flush (env_of b MW true) MW id_ord 5 (mw_d b)).2 = Raised (EUser 7) ∧
  match process_response (env_of b MW true) MW id_ord 5 (mw_d b) "response" with
  | Some (d', x) => cellv d' "a" 1 "y" = Some (VInt 1) ∧ d_dirty d' ≠ [] ∧ x = inr (EUser 7)
  | None => False
  end.
Proof. destruct b; vm_compute; (split; [reflexivity|]); (split; [reflexivity|]); (split; [discriminate|reflexivity]). Qed.

(** ** C45 *)
Theorem callback_value_stored E m add pk d r f fn ds sk q : f_kind f = KCallback fn ds sk →
  presave_field E m add pk (d, r) f = Ok q ↔ ∃ pv v, fn d pk r = Ok pv ∧ stores f pv v ∧ q = (d, <[f_col f := v]> r).
Proof. exact (presave_callback E m add pk d r f fn ds sk q). Qed.
Print Assumptions callback_value_stored.
Definition c45_f (pv : pyval) : field := Field "f" "f_id" "f_id" (Some "B") "A" (KCallback (λ _ _ _, Ok pv) [] []).
Example callback_value_ex : let E := env_of SQLite RS true in let sv pv := match presave_field E OoA false (Some 1) (d0, ∅) (c45_f pv) with Ok q => Some (col q.2 "f_id") | Err _ => None end in
  sv (PInst "B" 5) = Some (VInt 5) ∧ sv (PVal (VInt 5)) = Some (VInt 5) ∧ sv (PVal VNull) = Some VNull ∧ sv (PInst "C" 5) = None.
Proof. vm_compute. repeat split; reflexivity. Qed.
(** Denorm.update compares the raw attribute with the result. *)
Theorem update_writes_iff_differs rf f old w : denorm_update rf f old (PVal w) = None ↔ old = w.
Proof. exact (update_value rf f old w). Qed.
Print Assumptions update_writes_iff_differs.
Theorem update_m2m_writes_iff_differs old new : denorm_update_m2m old new = None ↔ ∀ k, k ∈ old ↔ k ∈ new.
Proof. exact (update_m2m old new). Qed.
Print Assumptions update_m2m_writes_iff_differs.
Example update_m2m_ex : denorm_update_m2m [1; 2; 2] [2; 1] = None ∧ denorm_update_m2m [1; 2] [2] = Some [2].
Proof. vm_compute. split; reflexivity. Qed.
(** False for an instance: it is written although the key is already stored. *)
Theorem update_instance_refuted : ∃ rf f old pv v, stores f pv old ∧ denorm_update rf f old pv = Some v.
Proof. exact (ex_intro _ true (ex_intro _ (c45_f (PVal VNull)) (ex_intro _ (VInt 5) (ex_intro _ (PInst "B" 5) (ex_intro _ (AVal (VInt 5)) (conj (conj eq_refl eq_refl) eq_refl)))))). Qed.
Print Assumptions update_instance_refuted.
(** With Django below 1.10 (which has [related_field]) what it sets is what a save would
    store; what it sets for links is exactly the result. *)
Theorem update_sets_stored f old pv v : denorm_update true f old pv = Some (AVal v) ↔ stores f pv v ∧ (pv = PVal v → old ≠ v).
Proof.
  unfold denorm_update, stores. destruct pv as [w|m k].
  - case_decide as H; split; try naive_solver; intros [H1 H2]; subst; naive_solver.
  - simpl. case_bool_decide as H; split; naive_solver.
Qed.
Print Assumptions update_sets_stored.
Theorem update_m2m_sets old new l : denorm_update_m2m old new = Some l → l = new.
Proof. unfold denorm_update_m2m. case_decide; naive_solver. Qed.
Print Assumptions update_m2m_sets.
Example update_sets_ex : denorm_update true (c45_f (PVal VNull)) (VInt 4) (PInst "B" 5) = Some (AVal (VInt 5)) ∧
  denorm_update true (c45_f (PVal VNull)) (VInt 4) (PVal (VInt 5)) = Some (AVal (VInt 5)).
Proof. split; reflexivity. Qed.
(** Later versions: the attribute that should hold the key holds the instance. *)
Theorem update_key_refuted : ∃ f old m k, stores f (PInst m k) (VInt k) ∧ denorm_update false f old (PInst m k) = Some (AInst m k).
Proof. exact (ex_intro _ (c45_f (PVal VNull)) (ex_intro _ (VInt 4) (ex_intro _ "B" (ex_intro _ 5%Z (conj (conj eq_refl eq_refl) eq_refl))))). Qed.
Print Assumptions update_key_refuted.
