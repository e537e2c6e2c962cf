(** * The test application meets the conditions of the theorems.

    [TA b] is the application of TestApp.v without what is outside the theorems: the swapped-out
    model, CallCounter (whose value depends on itself) and its proxy, and the callback of the
    denormalized ManyToManyField Forum.authors (the field itself stays). *)
From Verif Require Import Base BaseLemmas Schema TrigSet Gen Exec Orm Flush Machine Spec SpecAgg GenLemmas Settle Hist AggOps AggProps Check ExForum ExBad ExAgg TestApp.
Open Scope list_scope.

Definition mForum' : model := Model (m_name mForum) (m_app mForum) (m_table mForum) (m_pk mForum) (m_ct mForum) false false
  (m_fields mForum) [M2M "authors" "Member" tau "forum_id" "member_id" None] [] (λ _, true) (λ _, true).
Definition ta_models (b : backend) : list model :=
  [ mCt; mFailA; mFailB; mCachedA; mCachedB; mReal; mTag; mForum'; mPost; mExtend; mAtt false; mMember; mSkipPost;
    mNoSkip; mSkip; mAttrSkip; mTeam; mComp ] ++
  match b with SQLite => [] | _ => [mFSum; mFSItem; mFCount; mFCItem] end.
Definition TA (b : backend) : schema := Schema (ta_models b) false.
(** Tables whose triggers update others. *)
Definition ta_rank (t : string) : nat := if decide (t ∈ [tpost; tbm; "test_app_cachedmodelb"; fsi; fci]) then 1%nat else 0%nat.

(** ** What the methods of models.py read *)
Definition fwd (m c : string) : dep := Dep m (RelForward c) [].
Definition ta_rds (m : model) (f : field) : reads :=
  let c := f_col f in
  if decide (c = "tags_string") then Reads [] [(dep_tag, ["name"; "object_id"])] else
  if decide (c = "author_names") then Reads [] [(dep_post_of "forum_id", ["author_name"])] else
  if decide (c = "path") then Reads ["title"; "parent_forum_id"] [(fwd "Forum" "parent_forum_id", ["path"])] else
  if decide (c = "forum_title") then Reads ["forum_id"] [(fwd "Forum" "forum_id", ["title"])] else
  if decide (c = "author_name" ∧ m_name m = "Post") then Reads ["author_id"] [(fwd "Member" "author_id", ["name"])] else
  if decide (c = "response_count") then Reads [] [(dep_post_of "response_to_id", ["response_count"])] else
  if decide (c = "forum_id") then Reads ["post_id"] [(fwd "Post" "post_id", ["forum_id"])] else
  if decide (c = "full_name") then Reads ["first_name"; "name"] [] else
  if decide (c = "bookmark_titles") then Reads [] [(dep_bm, ["title"])] else
  if decide (c = "post_text") then Reads ["post_id"] [(dep_skippost, ["text"])] else
  if decide (c = "user_string") then Reads [] [(Dep "Competitor" (RelBackward "team_id") [], ["name"])] else
  if decide (c = "SomeWeirdName") then Reads ["a_id"] [(fwd "FailingTriggersModelA" "a_id", ["SomeWeirdName"])] else
  if decide (c = "ham" ∨ c = "eggs") then Reads ["text"] [] else Reads [] [].

(** Sorting by key does not depend on the order. *)
Lemma insort_comm {A} (x y : Z * A) l : x.1 ≠ y.1 → insort key_le x (insort key_le y l) = insort key_le y (insort key_le x l).
Proof.
  intros Hn. induction l as [|z l IH]; simpl; unfold key_le in *.
  - destruct (Z.leb_spec x.1 y.1), (Z.leb_spec y.1 x.1); try done; lia.
  - destruct (Z.leb_spec y.1 z.1), (Z.leb_spec x.1 z.1); simpl;
      repeat (match goal with |- context [Z.leb ?a ?b] => destruct (Z.leb_spec a b) end; simpl); try done; try lia. by rewrite IH.
Qed.
Lemma sorted_perm {A} (l l' : list (Z * A)) : l ≡ₚ l' → NoDup l.*1 → sorted key_le l = sorted key_le l'.
Proof.
  induction 1 as [|x l l' _ IH|x y l|l l2 l3 H1 IH1 H2 IH2]; intros N; simpl; [done|..].
  - inversion N. by rewrite IH.
  - inversion_clear N as [|? ? N1 N2]. apply insort_comm. intros E. apply N1. simpl. rewrite E. left.
  - rewrite IH1 by done. apply IH2. by rewrite <- H1.
Qed.
Lemma insort_fmap {A B} (g : A → B) (x : Z * A) s :
  (λ p : Z * A, (p.1, g p.2)) <$> insort key_le x s = insort key_le (x.1, g x.2) ((λ p : Z * A, (p.1, g p.2)) <$> s).
Proof. induction s as [|y s IH]; [done|]. simpl. unfold key_le at 1 3. simpl. destruct (Z.leb x.1 y.1); [done|]. rewrite fmap_cons. f_equal. exact IH. Qed.
Lemma sorted_fmap {A B} (g : A → B) (l : list (Z * A)) : (λ p : Z * A, (p.1, g p.2)) <$> sorted key_le l = sorted key_le ((λ p : Z * A, (p.1, g p.2)) <$> l).
Proof. induction l as [|x l IH]; [done|]. rewrite fmap_cons. unfold sorted in *. cbn [foldr]. by rewrite insort_fmap, IH. Qed.
Lemma keys_filter (P : Z * row → Prop) `{∀ p, Decision (P p)} (T : table) : NoDup (filter P (map_to_list T)).*1.
Proof.
  apply NoDup_fmap_fst; [|apply NoDup_filter, NoDup_map_to_list]. intros k r1 r2 H1 H2.
  apply elem_of_list_filter in H1 as [_ H1], H2 as [_ H2]. apply elem_of_map_to_list in H1, H2. congruence.
Qed.
(** The list of the rows with some property, as far as [g] sees them. *)
Lemma rows_where_view {A} (P P' : row → Prop) `{∀ r, Decision (P r)} `{∀ r, Decision (P' r)} (g g' : row → A) d d' t :
  omap (λ r, if decide (P r) then Some (g r) else None) (tab d t) = omap (λ r, if decide (P' r) then Some (g' r) else None) (tab d' t) →
  (λ p : Z * row, (p.1, g p.2)) <$> rows_where d t P = (λ p : Z * row, (p.1, g' p.2)) <$> rows_where d' t P'.
Proof.
  intros Hv. assert (V : ∀ (Q : row → Prop) `{∀ r, Decision (Q r)} (h : row → A) x,
    (λ p : Z * row, (p.1, h p.2)) <$> rows_where x t Q = sorted key_le (map_to_list (omap (λ r, if decide (Q r) then Some (h r) else None) (tab x t)))).
  { intros Q ? h x. unfold rows_where. rewrite sorted_fmap. apply sorted_perm.
    - apply NoDup_Permutation.
      + apply (NoDup_fmap_1 fst). rewrite <- list_fmap_compose. apply keys_filter.
      + apply NoDup_map_to_list.
      + intros [k a]. rewrite elem_of_map_to_list, lookup_omap, elem_of_list_fmap. split.
        * intros ([k' r] & [= -> ->] & Hin). apply elem_of_list_filter in Hin as [Hq Hin]. apply elem_of_map_to_list in Hin. rewrite Hin. simpl. by rewrite decide_True.
        * destruct (tab x t !! k) as [r|] eqn:Hr; [|done]. simpl. case_decide; [|done]. intros [= <-]. exists (k, r). split; [done|].
          apply elem_of_list_filter. split; [done|]. by apply elem_of_map_to_list.
    - rewrite <- list_fmap_compose. apply keys_filter. }
  by rewrite (V P), (V P'), Hv.
Qed.
Lemma names_view d d' t c k col1 : (omap (λ r' : row, if decide (col r' c = VInt k) then Some (cols_of [col1] r') else None) (tab d t) : gmap Z (list val)) =
  omap (λ r' : row, if decide (col r' c = VInt k) then Some (cols_of [col1] r') else None) (tab d' t) →
  ∀ {A} (h : val → A), (λ p : Z * row, h (col p.2 col1)) <$> related d t c k = (λ p : Z * row, h (col p.2 col1)) <$> related d' t c k.
Proof.
  intros Hv A h. apply (rows_where_view (λ r, col r c = VInt k) (λ r, col r c = VInt k)) in Hv.
  apply (f_equal (fmap (λ q : Z * list val, h (hd VNull q.2)))) in Hv. rewrite <- !list_fmap_compose in Hv. exact Hv.
Qed.
Lemma omap_via {A B C} (g : A → B) (F : A → option C) (h : B → option C) (l : list A) : (∀ x, F x = h (g x)) → omap F l = omap h (g <$> l).
Proof. intros H. induction l as [|x l IH]; [done|]. csimpl. rewrite H, IH. done. Qed.

Lemma tags_view S m d d' k r r' : find_model S "Tag" = Some mTag → dep_view S m d k r dep_tag ["name"; "object_id"] = dep_view S m d' k r' dep_tag ["name"; "object_id"] →
  cb_tags (m_ct m) d (Some k) r = cb_tags (m_ct m) d' (Some k) r'.
Proof.
  intros Ht Hv. unfold dep_view in Hv. simpl in Hv. rewrite Ht in Hv. injection Hv as Hv. unfold cb_tags. do 4 f_equal.
  set (P := λ r : row, col r "content_type_id" = VInt (m_ct m) ∧ col r "object_id" = VInt k).
  assert (W : ∀ x : db, omap (λ r : row, if decide (P r) then Some (col r "name") else None) (tab x ttag) =
    omap (λ l : list val, match l with [n; o] => if decide (o = VInt k) then Some n else None | _ => None end)
      (omap (λ r' : row, if decide (col r' "content_type_id" = VInt (m_ct m) ∧ to_text (col r' "object_id") = Some (pretty k))
             then Some (cols_of ["name"; "object_id"] r') else None) (tab x ttag) : gmap Z (list val))).
  { intros x. apply map_eq. intros i. rewrite !lookup_omap. destruct (tab x ttag !! i) as [rr|]; [|done]. simpl. unfold P.
    destruct (decide (col rr "content_type_id" = VInt (m_ct m) ∧ col rr "object_id" = VInt k)) as [[H1 H2]|Hn].
    - rewrite decide_True by (by rewrite H2). simpl. by rewrite decide_True.
    - case_decide as Hc; [|done]. simpl. rewrite decide_False; [done|]. intros Ho. apply Hn. by destruct Hc. }
  assert (V : (λ p : Z * row, (p.1, col p.2 "name")) <$> rows_where d ttag P = (λ p : Z * row, (p.1, col p.2 "name")) <$> rows_where d' ttag P).
  { apply (rows_where_view P P (λ r, col r "name") (λ r, col r "name")). rewrite !W. by f_equal. }
  apply (f_equal (fmap (λ q : Z * val, text q.2))) in V. rewrite <- !list_fmap_compose in V. f_equal. exact V.
Qed.
Lemma fwd_view (d d' : db) t c v : (match v with VInt j => cols_of [c] <$> getrow d t j | _ => None end : option (list val)) =
  match v with VInt j => cols_of [c] <$> getrow d' t j | _ => None end →
  ∀ {B} (G : option val → B) (e : B), match follow d t v with Ok o => G ((λ r : row, col r c) <$> o) | Err _ => e end =
    match follow d' t v with Ok o => G ((λ r : row, col r c) <$> o) | Err _ => e end.
Proof.
  intros Hv B G e. destruct v as [|j|]; try done. unfold follow. destruct (getrow d t j), (getrow d' t j); try done.
  simpl in *. injection Hv as Hv. by rewrite Hv.
Qed.
Lemma follow_get (d : db) t (v : val) : follow d t v = match v with VInt k => match getrow d t k with Some r => Ok (Some r) | None => Err (EUser 1) end | _ => Ok None end.
Proof. done. Qed.
Ltac via v := specialize (v _ _ (elem_of_list_here _ _)); unfold dep_view in v; simpl in v.
Ltac fwd_case Ho Hv c := via Hv; rewrite (Ho c) in * by (simpl; set_solver); unfold follow, attr, rbind; injection Hv as Hv;
  destruct (col _ c) as [|j|]; try done; cbn [fmap option_fmap option_map] in *;
  match goal with |- context [getrow ?d ?t j] => match goal with |- context [getrow ?d' t j] => tryif constr_eq d d' then fail else
    destruct (getrow d t j), (getrow d' t j); try done; simpl in *; injection Hv as Hv end end.
Lemma TA_reads b : reads_all (TA b) ta_rds.
Proof.
  intros m f fn ds sk Hm Hf Hk.
  assert (Htag : find_model (TA b) "Tag" = Some mTag) by (by destruct b).
  unfold TA, ta_models in Hm. cbn [s_models] in Hm. apply elem_of_app in Hm as [Hm|Hm].
  2: { exfalso. destruct b; [by apply elem_of_nil in Hm|..];
       (repeat (apply elem_of_cons in Hm as [->|Hm]); [..|by apply elem_of_nil in Hm]; simpl in Hf;
        (repeat (apply elem_of_cons in Hf as [->|Hf]); [..|by apply elem_of_nil in Hf]); discriminate Hk). }
  repeat (apply elem_of_cons in Hm as [->|Hm]); [..|by apply elem_of_nil in Hm]; simpl in Hf;
  (repeat (apply elem_of_cons in Hf as [->|Hf]); [..|by apply elem_of_nil in Hf]); simpl in Hk; try discriminate Hk; injection Hk as <- <- <-;
  intros d d' k r r' Ho Hv.
  - unfold cb_weird. fwd_case Ho Hv "a_id". by rewrite Hv.
  - unfold cb_and. by rewrite (Ho "text") by (simpl; set_solver).
  - unfold cb_and. by rewrite (Ho "text") by (simpl; set_solver).
  - apply (tags_view (TA b) mForum' d d' k r r' Htag). exact (Hv _ _ (elem_of_list_here _ _)).
  - via Hv. injection Hv as Hv. unfold cb_author_names. do 4 f_equal. exact (names_view _ _ _ _ _ _ Hv text).
  - unfold cb_fpath. rewrite (Ho "title") by (simpl; set_solver). fwd_case Ho Hv "parent_forum_id". by rewrite Hv.
  - apply (tags_view (TA b) mPost d d' k r r' Htag). exact (Hv _ _ (elem_of_list_here _ _)).
  - unfold cb_ftitle. fwd_case Ho Hv "forum_id". by rewrite Hv.
  - unfold cb_aname. fwd_case Ho Hv "author_id". by rewrite Hv.
  - via Hv. injection Hv as Hv. unfold cb_rcount. pose proof (names_view _ _ _ _ _ _ Hv num) as V. do 2 f_equal. rewrite V.
    apply (f_equal length) in V. rewrite !fmap_length in V. by rewrite V.
  - done.
  - unfold cb_aforum. fwd_case Ho Hv "post_id". by rewrite Hv.
  - unfold cb_full. by rewrite (Ho "first_name"), (Ho "name") by (simpl; set_solver).
  - via Hv. injection Hv as Hv. unfold cb_titles. do 3 f_equal. f_equal.
    apply (rows_where_view (λ l, col l "member_id" = VInt k) (λ l, col l "member_id" = VInt k)
      (λ l, (col l "post_id", match col l "post_id" with VInt j => cols_of ["title"] <$> getrow d tpost j | _ => None end))
      (λ l, (col l "post_id", match col l "post_id" with VInt j => cols_of ["title"] <$> getrow d' tpost j | _ => None end))) in Hv.
    set (h := λ q : Z * (val * option (list val)), match q.2.2 with Some [v] => Some (text v) | _ => None end).
    set (g := λ (x : db) (p : Z * row), (p.1, (col p.2 "post_id", match col p.2 "post_id" with VInt j => cols_of ["title"] <$> getrow x tpost j | _ => None end))).
    change (g d <$> related d tbm "member_id" k = g d' <$> related d' tbm "member_id" k) in Hv.
    assert (H : ∀ (x : db) (p : Z * row), match col p.2 "post_id" with VInt j => (λ q : row, text (col q "title")) <$> getrow x tpost j | _ => None end = h (g x p)).
    { intros x [i l]. unfold h, g. simpl. destruct (col l "post_id") as [|j|]; [done| |done]. by destruct (getrow x tpost j). }
    etrans; [exact (omap_via (g d) _ h _ (H d))|]. rewrite Hv. symmetry. exact (omap_via (g d') _ h _ (H d')).
  - unfold cb_ptext. fwd_case Ho Hv "post_id". by rewrite Hv.
  - unfold cb_ptext. fwd_case Ho Hv "post_id". by rewrite Hv.
  - unfold cb_ptext. fwd_case Ho Hv "post_id". by rewrite Hv.
  - via Hv. injection Hv as Hv. unfold cb_users. do 5 f_equal. exact (names_view _ _ _ _ _ _ Hv text).
Qed.

Lemma TA_flushable b : flushable (TA b) ta_rank true.
Proof.
  apply (flushableb_spec _ _ _ ta_rds); [destruct b; vm_compute; reflexivity| |apply TA_reads].
  intros m r Hm. unfold TA, ta_models in Hm. cbn [s_models] in Hm. apply elem_of_app in Hm as [Hm|Hm]; [|destruct b];
  (repeat (apply elem_of_cons in Hm as [->|Hm]; [done|])); by apply elem_of_nil in Hm.
Qed.
Lemma env_of_ok b S imm : match mk_env b S rand0 imm 10 with Ok _ => true | Err _ => false end = true → mk_env b S rand0 imm 10 = Ok (env_of b S imm).
Proof. unfold env_of. by destruct (mk_env b S rand0 imm 10). Qed.
Lemma TA_E_ok b : mk_env b (TA b) rand0 true 10 = Ok (env_of b (TA b) true).
Proof. apply env_of_ok. destruct b; vm_compute; reflexivity. Qed.

(** ** What the fields of models.py promise, said without the callbacks *)
Definition rows_with (d : db) (t c : string) (k : Z) : gmap Z row := filter (λ p : Z * row, col p.2 c = VInt k) (tab d t).
Record ta_promises (d : db) : Prop := TaPromises {
  (** Post.forum_title, Post.author_name *)
  ta_forum_title : ∀ k p j, getrow d tpost k = Some p → col p "forum_id" = VInt j → ∃ f, getrow d tforum j = Some f ∧ col p "forum_title" = col f "title";
  ta_author_name : ∀ k p j, getrow d tpost k = Some p → col p "author_id" = VInt j → ∃ a, getrow d tmember j = Some a ∧ col p "author_name" = col a "name";
  ta_no_author : ∀ k p, getrow d tpost k = Some p → col p "author_id" = VNull → col p "author_name" = VText "";
  (** Post.response_count: the responses and what they count *)
  ta_response_count : ∀ k p, getrow d tpost k = Some p → col p "response_count" =
    VInt (map_fold (λ _ q n, 1 + num (col q "response_count") + n) 0 (rows_with d tpost "response_to_id" k));
  (** Forum.path *)
  ta_path_top : ∀ k f, getrow d tforum k = Some f → col f "parent_forum_id" = VNull → col f "path" = VText ("/" +:+ text (col f "title") +:+ "/");
  ta_path : ∀ k f j, getrow d tforum k = Some f → col f "parent_forum_id" = VInt j →
    ∃ g, getrow d tforum j = Some g ∧ col f "path" = VText (text (col g "path") +:+ text (col f "title") +:+ "/");
  (** Attachment.forum *)
  ta_att_forum : ∀ k a j, getrow d tatt k = Some a → col a "post_id" = VInt j → ∃ p, getrow d tpost j = Some p ∧
    col a "forum_id" = match col p "forum_id" with VInt i => VInt i | _ => VNull end;
  (** Member.full_name *)
  ta_full_name : ∀ k m, getrow d tmember k = Some m → col m "full_name" = VText (text (col m "first_name") +:+ " " +:+ text (col m "name"));
  (** post_text of the three kinds of comment *)
  ta_post_text : ∀ m k c, m ∈ [mNoSkip; mSkip; mAttrSkip] → getrow d (m_table m) k = Some c →
    ∃ j p, col c "post_id" = VInt j ∧ getrow d "test_app_skippost" j = Some p ∧ col c "post_text" = col p "text" }.

Lemma insort_Perm {A} (x : Z * A) l : insort key_le x l ≡ₚ x :: l.
Proof. induction l as [|y l IH]; simpl; [done|]. destruct (key_le x y); [done|]. rewrite IH. apply Permutation_swap. Qed.
Lemma sorted_Perm {A} (l : list (Z * A)) : sorted key_le l ≡ₚ l.
Proof. induction l as [|x l IH]; [done|]. unfold sorted in *. cbn [foldr]. rewrite insort_Perm. by rewrite IH. Qed.
Lemma fold_perm {A} (h : A → Z) (l l' : list A) : l ≡ₚ l' → foldr (λ x n, 1 + h x + n) 0 l = foldr (λ x n, 1 + h x + n) 0 l'.
Proof. induction 1; simpl; lia. Qed.
Lemma sum_related (d : db) t c k : Z.of_nat (length (related d t c k)) + foldr Z.add 0 ((λ p : Z * row, num (col p.2 "response_count")) <$> related d t c k) =
  map_fold (λ _ q n, 1 + num (col q "response_count") + n) 0 (rows_with d t c k).
Proof.
  set (h := λ p : Z * row, num (col p.2 "response_count")).
  assert (F : ∀ l : list (Z * row), Z.of_nat (length l) + foldr Z.add 0 (h <$> l) = foldr (λ x n, 1 + h x + n) 0 l).
  { intros l. induction l as [|x l IH]; [done|]. rewrite fmap_cons. cbn [foldr length]. lia. }
  rewrite F. rewrite (fold_perm h _ (map_to_list (rows_with d t c k))).
  - unfold map_fold. unfold compose. clear F. induction (map_to_list (rows_with d t c k)) as [|[i r] l IH]; [done|]. cbn [foldr]. rewrite IH. done.
  - unfold related, rows_where. rewrite sorted_Perm. apply NoDup_Permutation.
    + apply NoDup_filter, NoDup_map_to_list.
    + apply NoDup_map_to_list.
    + intros [i r]. unfold rows_with. rewrite elem_of_list_filter, !elem_of_map_to_list, map_filter_lookup_Some. simpl. tauto.
Qed.
Lemma ta_meets b d : consistent (TA b) d → ta_promises d.
Proof.
  intros C.
  assert (Cb : ∀ m k r f fn ds sk, m ∈ take 18 (ta_models b) → f ∈ m_fields m → getrow d (m_table m) k = Some r → f_kind f = KCallback fn ds sk →
    ∃ pv, fn d (Some k) r = Ok pv ∧ stores f pv (col r (f_col f))).
  { intros m k r f fn ds sk Hm Hf Hr Hk. assert (Hm' : m ∈ s_models (TA b)) by (unfold TA, ta_models; cbn [s_models]; apply elem_of_app; by left).
    specialize (C m k r f Hm' Hf Hr). unfold row_consistent in C. by rewrite Hk in C. }
  split.
  - intros k p j Hp Hj. destruct (Cb mPost k p (cbf "forum_title" "Post" cb_ftitle [Dep "Forum" (RelForward "forum_id") []] []) cb_ftitle [Dep "Forum" (RelForward "forum_id") []] []) as (pv & H & W); [inl|inl|done|done|].
    unfold cb_ftitle, follow in H. rewrite Hj in H. destruct (getrow d tforum j) as [f|]; [|done]. injection H as <-. exists f. split; [done|]. exact W.
  - intros k p j Hp Hj. destruct (Cb mPost k p (cbf "author_name" "Post" cb_aname [Dep "Member" (RelForward "author_id") []] []) cb_aname [Dep "Member" (RelForward "author_id") []] []) as (pv & H & W); [inl|inl|done|done|].
    unfold cb_aname, follow in H. rewrite Hj in H. destruct (getrow d tmember j) as [f|]; [|done]. injection H as <-. exists f. split; [done|]. exact W.
  - intros k p Hp Hj. destruct (Cb mPost k p (cbf "author_name" "Post" cb_aname [Dep "Member" (RelForward "author_id") []] []) cb_aname [Dep "Member" (RelForward "author_id") []] []) as (pv & H & W); [inl|inl|done|done|].
    unfold cb_aname, follow in H. rewrite Hj in H. injection H as <-. exact W.
  - intros k p Hp. destruct (Cb mPost k p (cbf "response_count" "Post" cb_rcount [dep_post_of "response_to_id"] []) cb_rcount [dep_post_of "response_to_id"] []) as (pv & H & W); [inl|inl|done|done|].
    unfold cb_rcount in H. injection H as <-. simpl in W. rewrite sum_related in W. exact W.
  - intros k f Hf Hj. destruct (Cb mForum' k f (cbf "path" "Forum" cb_fpath [Dep "Forum" (RelForward "parent_forum_id") []] []) cb_fpath [Dep "Forum" (RelForward "parent_forum_id") []] []) as (pv & H & W); [inl|inl|done|done|].
    unfold cb_fpath, follow in H. rewrite Hj in H. injection H as <-. exact W.
  - intros k f j Hf Hj. destruct (Cb mForum' k f (cbf "path" "Forum" cb_fpath [Dep "Forum" (RelForward "parent_forum_id") []] []) cb_fpath [Dep "Forum" (RelForward "parent_forum_id") []] []) as (pv & H & W); [inl|inl|done|done|].
    unfold cb_fpath, follow in H. rewrite Hj in H. destruct (getrow d tforum j) as [g|]; [|done]. injection H as <-. exists g. split; [done|]. exact W.
  - intros k a j Ha Hj. destruct (Cb (mAtt false) k a (Field "forum" "forum_id" "forum_id" (Some "Forum") "Attachment" (KCallback (cb_aforum false) [Dep "Post" (RelForward "post_id") []] [])) (cb_aforum false) [Dep "Post" (RelForward "post_id") []] []) as (pv & H & W); [inl|inl|done|done|].
    unfold cb_aforum, follow in H. rewrite Hj in H. destruct (getrow d tpost j) as [p|]; [|done]. exists p. split; [done|]. cbn [rbind] in H.
    destruct (col p "forum_id"); injection H as <-; exact W.
  - intros k m Hm. destruct (Cb mMember k m (cbf "full_name" "Member" cb_full [] []) cb_full [] []) as (pv & H & W); [inl|inl|done|done|].
    unfold cb_full in H. injection H as <-. exact W.
  - intros m k c Hm Hc.
    assert (∃ f sk, m ∈ take 18 (ta_models b) ∧ f ∈ m_fields m ∧ f_kind f = KCallback cb_ptext [dep_skippost] sk ∧ f_col f = "post_text") as (f & sk & H1 & H2 & H3 & H4).
    { repeat (apply elem_of_cons in Hm as [->|Hm]); [..|by apply elem_of_nil in Hm].
      - exists (cbf "post_text" "SkipCommentWithoutSkip" cb_ptext [dep_skippost] []), []. split; [inl|]. split; [inl|]. done.
      - exists (cbf "post_text" "SkipCommentWithSkip" cb_ptext [dep_skippost] ["updated_on"]), ["updated_on"]. split; [inl|]. split; [inl|]. done.
      - exists (cbf "post_text" "SkipCommentWithAttributeSkip" cb_ptext [dep_skippost] []), []. split; [inl|]. split; [inl|]. done. }
    destruct (Cb m k c f cb_ptext [dep_skippost] sk H1 H2 Hc H3) as (pv & H & W). rewrite H4 in W. unfold cb_ptext, follow in H.
    destruct (col c "post_id") as [|j|] eqn:Hj; try done. destruct (getrow d "test_app_skippost" j) as [p|] eqn:Hp; [|done]. injection H as <-. exists j, p. done.
Qed.

(** No forum lies in itself and no post responds to itself. *)
Lemma TA_no_self b d : (∀ k f, getrow d tforum k = Some f → col f "parent_forum_id" ≠ VInt k) →
  (∀ k p, getrow d tpost k = Some p → col p "response_to_id" ≠ VInt k) → no_self_relation (TA b) d.
Proof.
  intros HF HP m f fn ds sk dp k r Hm Hf Hk Hd Hr [H1 H2].
  unfold TA, ta_models in Hm. cbn [s_models] in Hm. apply elem_of_app in Hm as [Hm|Hm].
  2: { destruct b; [by apply elem_of_nil in Hm|..];
       (repeat (apply elem_of_cons in Hm as [->|Hm]); [..|by apply elem_of_nil in Hm]; simpl in Hf;
        (repeat (apply elem_of_cons in Hf as [->|Hf]); [..|by apply elem_of_nil in Hf]); discriminate Hk). }
  repeat (apply elem_of_cons in Hm as [->|Hm]); [..|by apply elem_of_nil in Hm]; simpl in Hf;
  (repeat (apply elem_of_cons in Hf as [->|Hf]); [..|by apply elem_of_nil in Hf]); simpl in Hk; try discriminate Hk; injection Hk as <- <- <-;
  (repeat (apply elem_of_cons in Hd as [->|Hd])); try (by apply elem_of_nil in Hd); try discriminate H1; simpl in H2; eauto.
  - by eapply HF.
  - by eapply HP.
Qed.

(** ** The claims *)
Lemma TA_flush b ops d ord n d' : let E := env_of b (TA b) true in let D := foldl (step E (TA b)) d ops in
  d_tabs d = ∅ →
  (∀ k f, getrow D tforum k = Some f → col f "parent_forum_id" ≠ VInt k) → (∀ k p, getrow D tpost k = Some p → col p "response_to_id" ≠ VInt k) →
  flush E (TA b) ord n D = (d', Done) → ta_promises d' ∧ consistent (TA b) d' ∧ d_dirty d' = [].
Proof.
  intros E D Hd HF HP Hfl. destruct (finv_empty (TA b) d Hd) as (L & C & _).
  destruct (ops_flush b (TA b) rand0 true 10 E ta_rank (TA_E_ok b) (TA_flushable b) ops d ord n d' L C (TA_no_self b D HF HP) Hfl) as [H1 H2].
  split; [exact (ta_meets b d' H1)|done].
Qed.
Definition ta_a : agg := Agg "Post" "forum_id" [] [] None [].
Definition ta_count : field := aggf "post_count" "Forum" ta_a.
Definition ta_sa : agg := Agg "FilterSumItem" "parent_id" [Cond1 "age" LGte (VInt 18)] [] (Some "active_item_count") [].
Definition ta_sum : field := aggf "active_item_sum" "FilterSumModel" ta_sa.
Definition ta_ca : agg := Agg "FilterCountItem" "parent_id" [Cond1 "active" LExact (VInt 1)] [Cond1 "text" LExact (VText "")] None [].
Definition ta_fcount : field := aggf "active_item_count" "FilterCountModel" ta_ca.
Lemma TA_agg b : agg_field (TA b) mForum' ta_count ta_a mPost.
Proof. apply agg_fieldb_spec; [|inl|done|by destruct b|destruct b; vm_compute; reflexivity]. unfold TA, ta_models. cbn [s_models]. apply elem_of_app. left. inl. Qed.
Lemma TA_agg_s b : b ≠ SQLite → agg_field (TA b) mFSum ta_sum ta_sa mFSItem.
Proof. intros Hb. apply agg_fieldb_spec; [|inl|done|by destruct b|destruct b; [done|..]; vm_compute; reflexivity]. unfold TA, ta_models. cbn [s_models]. apply elem_of_app. right. destruct b; [done|inl..]. Qed.
Lemma TA_agg_c b : b ≠ SQLite → agg_field (TA b) mFCount ta_fcount ta_ca mFCItem.
Proof. intros Hb. apply agg_fieldb_spec; [|inl|done|by destruct b|destruct b; [done|..]; vm_compute; reflexivity]. unfold TA, ta_models. cbn [s_models]. apply elem_of_app. right. destruct b; [done|inl..]. Qed.
Lemma TA_wf b : wf_schema (TA b).
Proof. apply wf_schemab_spec. destruct b; vm_compute; reflexivity. Qed.
Lemma TA_names b : names_apart (TA b).
Proof. apply names_apartb_spec. destruct b; vm_compute; reflexivity. Qed.
Lemma TA_exact b m f a rel hs d : agg_field (TA b) m f a rel → d_tabs d = ∅ → Forall (clean_hop m f) hs →
  agg_exact m f a rel (foldl (hstep (env_of b (TA b) true) (TA b)) d hs).
Proof.
  intros Ha Hd Hcl. apply (hist_agg b (TA b) rand0 10 (env_of b (TA b) true) (TA_wf b) (TA_names b) m f a rel hs d (TA_E_ok b) Ha Hcl).
  apply exact_spec. by apply exact_empty.
Qed.
(** age >= 18; active and the text not empty *)
Definition adult (r : row) : bool := match col r "age" with VInt a => 18 <=? a | _ => false end.
Definition counted (r : row) : bool := bool_decide (col r "active" = VInt 1) && negb (bool_decide (col r "text" = VText "")).
Lemma TA_count b hs d k f : let E := env_of b (TA b) true in let D := foldl (hstep E (TA b)) d hs in
  d_tabs d = ∅ → Forall (clean_hop mForum' ta_count) hs →
  getrow D tforum k = Some f → col f "post_count" = VInt (Z.of_nat (size (rows_with D tpost "forum_id" k))).
Proof.
  intros E D Hd Hcl Hf. pose proof (TA_exact b _ _ _ _ hs d (TA_agg b) Hd Hcl k f Hf) as H. change (col f "post_count" = VInt (agg_value D mPost ta_a k)) in H. rewrite H.
  unfold agg_value. cbn [ag_sum ta_a]. do 3 f_equal. apply map_filter_ext. intros i x _. simpl. unfold selected. simpl. split; [tauto|].
  intros Hx. split; [done|]. split; [apply Forall_nil_2|by left].
Qed.
Lemma TA_filtered b hs d k : b ≠ SQLite → let E := env_of b (TA b) true in let D := foldl (hstep E (TA b)) d hs in d_tabs d = ∅ →
  (∀ f, Forall (clean_hop mFSum ta_sum) hs → getrow D (m_table mFSum) k = Some f →
    col f "active_item_sum" = VInt (map_fold (λ _ r s, summand (col r "active_item_count") + s) 0 (filter (λ p : Z * row, adult p.2) (rows_with D fsi "parent_id" k)))) ∧
  (∀ f, Forall (clean_hop mFCount ta_fcount) hs → getrow D (m_table mFCount) k = Some f →
    col f "active_item_count" = VInt (Z.of_nat (size (filter (λ p : Z * row, counted p.2) (rows_with D fci "parent_id" k))))).
Proof.
  intros Hb E D Hd. split; intros f Hcl Hf.
  - pose proof (TA_exact b _ _ _ _ hs d (TA_agg_s b Hb) Hd Hcl k f Hf) as H. change (col f "active_item_sum" = VInt (agg_value D mFSItem ta_sa k)) in H. rewrite H.
    unfold agg_value. cbn [ag_sum ta_sa]. do 2 f_equal. unfold rows_with. rewrite map_filter_filter. apply map_filter_ext. intros i x _. simpl.
    unfold selected, adult. simpl. rewrite Forall_singleton. unfold lookup_true. simpl. split.
    + intros (H1 & H2 & _). split; [|done]. destruct (col x "age"); try done. by apply Is_true_true, Z.leb_le.
    + intros (H1 & H2). split; [done|]. split; [|by left]. destruct (col x "age"); try done. by apply Is_true_true, Z.leb_le in H1.
  - pose proof (TA_exact b _ _ _ _ hs d (TA_agg_c b Hb) Hd Hcl k f Hf) as H. change (col f "active_item_count" = VInt (agg_value D mFCItem ta_ca k)) in H. rewrite H.
    unfold agg_value. cbn [ag_sum ta_ca]. do 3 f_equal. unfold rows_with. rewrite map_filter_filter. apply map_filter_ext. intros i x _. simpl.
    unfold selected, counted. simpl. rewrite !Forall_singleton. unfold lookup_true. simpl. rewrite andb_True, negb_True, !bool_decide_spec. split.
    + intros (H1 & H2 & [H3|H3]); [discriminate H3|]. done.
    + intros ((H1 & H2) & H3). split; [done|]. split; [done|]. by right.
Qed.
