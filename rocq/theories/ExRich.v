(** * A concrete schema with every kind of dependency that meets all conditions.
    Cut down from /repo/test_denorm_project/test_app/models.py: forums, posts,
    members with bookmarks, tags attached by a generic relation.
    It shows that the hypotheses of the theorems can be met. *)
From Verif Require Import Base BaseLemmas Schema TrigSet Gen Exec Orm Flush Spec GenLemmas ExForum.

Definition sum_vals (g : gmap Z (list val)) : Z :=
  map_fold (λ _ vs acc, match vs with [VInt s] => s + acc | _ => acc end) 0 g.
Definition sum_links (g : gmap Z (val * option (list val))) : Z :=
  map_fold (λ _ x acc, match x.2 with Some [VInt s] => s + acc | _ => acc end) 0 g.

(** def total(self): sum of the ratings of the posts *)
Definition cb_total : callback := λ d pk r,
  match pk with
  | None => Ok (PVal (VInt 0))
  | Some k => Ok (PVal (VInt (sum_vals (omap (λ r' : row, if decide (col r' "forum_id" = VInt k)
       then Some (cols_of ["rating"] r') else None) (tab d "post")))))
  end.
(** def forum_title(self): title of the forum *)
Definition cb_forum_title : callback := λ d pk r,
  match col r "forum_id" with
  | VInt j => match getrow d "forum" j with Some f => Ok (PVal (col f "title")) | None => Err (EUser 1) end
  | _ => Ok (PVal VNull)
  end.
(** def tag_weight(self): sum of the weights of the tags attached to the post *)
Definition cb_tag_weight : callback := λ d pk r,
  match pk with
  | None => Ok (PVal (VInt 0))
  | Some k => Ok (PVal (VInt (sum_vals (omap (λ r' : row,
       if decide (col r' "ctype_id" = VInt 11 ∧ to_text (col r' "object_id") = Some (pretty k))
       then Some (cols_of ["weight"] r') else None) (tab d "tag")))))
  end.
(** def rating(self): self.score + self.tag_weight *)
Definition cb_rating : callback := λ d pk r,
  match col r "score", col r "tag_weight" with
  | VInt a, VInt b => Ok (PVal (VInt (a + b)))
  | _, _ => Ok (PVal (VInt 0))
  end.
(** def bookmark_score(self): sum of the scores of the bookmarked posts *)
Definition cb_bookmarks : callback := λ d pk r,
  match pk with
  | None => Ok (PVal (VInt 0))
  | Some k => Ok (PVal (VInt (sum_links (omap (λ l : row, if decide (col l "member_id" = VInt k)
       then Some (col l "post_id", match col l "post_id" with VInt j => cols_of ["score"] <$> getrow d "post" j | _ => None end)
       else None) (tab d "member_bookmarks")))))
  end.

Definition dep_posts : dep := Dep "Post" (RelBackward "forum_id") [].
Definition dep_forum : dep := Dep "Forum" (RelForward "forum_id") [].
Definition dep_tags : dep := Dep "Tag" (RelGenForward "ctype_id" "object_id") [].
Definition dep_marks : dep := Dep "Post" (RelM2M "member_bookmarks" "member_id" "post_id") [].

Definition f_title : field := plain "title" "Forum".
Definition f_count : field := aggf "post_count" "Forum" (Agg "Post" "forum_id" [] [] None []).
Definition f_sum : field := aggf "score_sum" "Forum" (Agg "Post" "forum_id" [] [] (Some "score") []).
Definition f_total : field := cbf "total" "Forum" cb_total [dep_posts] [].
Definition f_ck : field := ckf "ck" "Forum" [dep_posts].
Definition f_forum : field := fkf "forum" "Forum" "Post".
Definition f_views : field := plain "views" "Post".
Definition f_score : field := plain "score" "Post".
Definition f_ft : field := cbf "forum_title" "Post" cb_forum_title [dep_forum] ["views"].
Definition f_tw : field := cbf "tag_weight" "Post" cb_tag_weight [dep_tags] [].
Definition f_rating : field := cbf "rating" "Post" cb_rating [] [].
Definition f_mname : field := plain "name" "Member".
Definition f_bm : field := cbf "bookmark_score" "Member" cb_bookmarks [dep_marks] [].
Definition f_ctype : field := plain "ctype_id" "Tag".
Definition f_oid : field := plain "object_id" "Tag".
Definition f_weight : field := plain "weight" "Tag".

Definition RForum : model := mkmodel "Forum" "forum" 10 [f_title; f_count; f_sum; f_total; f_ck] [].
Definition RPost : model := mkmodel "Post" "post" 11 [f_forum; f_views; f_score; f_ft; f_tw; f_rating] [].
Definition RMember : model := mkmodel "Member" "member" 12 [f_mname; f_bm]
  [M2M "bookmarks" "Post" "member_bookmarks" "member_id" "post_id" None].
Definition RTag : model := mkmodel "Tag" "tag" 13 [f_ctype; f_oid; f_weight] [].
Definition RS : schema := Schema [RForum; RPost; RMember; RTag] false.

Definition RE (b : backend) : env :=
  match mk_env b RS rand0 true 10 with Ok E => E | Err _ => Env b (λ _, "id") [] rand0 [] true 10 end.
Lemma RE_ok b : mk_env b RS rand0 true 10 = Ok (RE b).
Proof. destruct b; vm_compute; reflexivity. Qed.

Definition rrank (t : string) : nat := if decide (t = "forum") then 0 else 1.

Ltac in_cases H := repeat (apply elem_of_cons in H as [->|H]); [..|by apply elem_of_nil in H].
Ltac kind H := simpl in H; first [discriminate H | injection H as <- <- <- | injection H as <- | idtac].

Lemma RS_model m : m ∈ s_models RS → m = RForum ∨ m = RPost ∨ m = RMember ∨ m = RTag.
Proof. intros H. simpl in H. in_cases H; eauto. Qed.
Ltac models Hm := destruct (RS_model _ Hm) as [->|[->|[->| ->]]]; clear Hm.
Ltac fields Hf := simpl in Hf; in_cases Hf.

Lemma RS_deps m f dp : m ∈ s_models RS → f ∈ m_fields m → dp ∈ field_deps f →
  (m = RForum ∧ (f = f_total ∨ f = f_ck) ∧ dp = dep_posts) ∨ (m = RPost ∧ f = f_ft ∧ dp = dep_forum) ∨
  (m = RPost ∧ f = f_tw ∧ dp = dep_tags) ∨ (m = RMember ∧ f = f_bm ∧ dp = dep_marks).
Proof.
  intros Hm Hf Hd. models Hm; fields Hf; simpl in Hd; try (by apply elem_of_nil in Hd); apply elem_of_list_singleton in Hd; naive_solver.
Qed.
Lemma RS_aggs m f a : m ∈ s_models RS → f ∈ m_fields m → f_kind f = KAgg a →
  m = RForum ∧ ((f = f_count ∧ a = Agg "Post" "forum_id" [] [] None []) ∨ (f = f_sum ∧ a = Agg "Post" "forum_id" [] [] (Some "score") [])).
Proof. intros Hm Hf Hk. models Hm; fields Hf; simpl in Hk; naive_solver. Qed.
Lemma RS_cbs m f fn ds sk : m ∈ s_models RS → f ∈ m_fields m → f_kind f = KCallback fn ds sk →
  (m = RForum ∧ f = f_total ∧ fn = cb_total ∧ ds = [dep_posts] ∧ sk = []) ∨
  (m = RPost ∧ f = f_ft ∧ fn = cb_forum_title ∧ ds = [dep_forum] ∧ sk = ["views"]) ∨
  (m = RPost ∧ f = f_tw ∧ fn = cb_tag_weight ∧ ds = [dep_tags] ∧ sk = []) ∨
  (m = RPost ∧ f = f_rating ∧ fn = cb_rating ∧ ds = [] ∧ sk = []) ∨
  (m = RMember ∧ f = f_bm ∧ fn = cb_bookmarks ∧ ds = [dep_marks] ∧ sk = []).
Proof. intros Hm Hf Hk. models Hm; fields Hf; simpl in Hk; try discriminate Hk; injection Hk as <- <- <-; naive_solver. Qed.

Ltac col_of f := exists f; split_and!; [simpl; set_solver|done|done].

Lemma RS_wf : wf_schema RS.
Proof.
  split.
  - intros m Hm. models Hm; (split; [done|done|..]);
      try (intros f Hf; fields Hf; first [done|by left|by right]);
      try (apply (bool_decide_unpack _); by vm_compute);
      intros mm m' Hmm Hm'; simpl in Hmm; in_cases Hmm; models Hm'; done.
  - apply (bool_decide_unpack _); by vm_compute.
  - apply (bool_decide_unpack _); by vm_compute.
  - apply (bool_decide_unpack _); by vm_compute.
  - intros m f dp Hm Hf Hd o Ho. destruct (RS_deps _ _ _ Hm Hf Hd) as [(-> & _ & ->)|[(-> & _ & ->)|[(-> & _ & ->)|(-> & _ & ->)]]];
      injection Ho as <-; simpl.
    + col_of f_forum.
    + col_of f_forum.
    + split; [col_of f_ctype|col_of f_oid].
    + split; [|done]. intros m' Hm'. models Hm'; done.
  - intros m f a rel Hm Hf Hk Ho. destruct (RS_aggs _ _ _ Hm Hf Hk) as (-> & [[-> ->]|[-> ->]]); injection Ho as <-; col_of f_forum.
Qed.

Lemma RS_skip m sk : m ∈ s_models RS → skip_on RS m sk → sk = [] ∨ sk = ["views"].
Proof.
  intros Hm0 H. destruct H as [f fn ds sk Hf Hk|m' f dp Hm Hf Hd Hg Ho|m' f a Hm Hf Hk Ho].
  - destruct (RS_cbs _ _ _ _ _ Hm0 Hf Hk) as [(_&_&_&_&->)|[(_&_&_&_&->)|[(_&_&_&_&->)|[(_&_&_&_&->)|(_&_&_&_&->)]]]]; naive_solver.
  - left. by destruct (RS_deps _ _ _ Hm Hf Hd) as [(-> & _ & ->)|[(-> & _ & ->)|[(-> & _ & ->)|(-> & _ & ->)]]].
  - left. by destruct (RS_aggs _ _ _ Hm Hf Hk) as (-> & [[-> ->]|[-> ->]]).
Qed.
Lemma RS_tracked m g : m ∈ s_models RS → g ∈ m_fields m → f_col g ≠ "views" → tracked RS m (f_col g).
Proof.
  intros Hm Hg Hn. split; [by exists g|]. intros sk Hsk.
  assert (Ha : m_always_skip m = []) by (by models Hm).
  destruct (RS_skip _ _ Hm Hsk) as [-> | ->]; simpl; rewrite ?Ha; set_solver.
Qed.
Ltac trk g := apply (RS_tracked _ g); [simpl; set_solver|simpl; set_solver|done].
Ltac one_dep H := apply elem_of_list_singleton in H; injection H as -> ->.

Lemma RS_settled : all_settled RS rrank.
Proof.
  intros m f fn ds sk Hm Hf Hk.
  destruct (RS_cbs _ _ _ _ _ Hm Hf Hk) as [(->&->&->&->&->)|[(->&->&->&->&->)|[(->&->&->&->&->)|[(->&->&->&->&->)|(->&->&->&->&->)]]]].
  - exists (Reads [] [(dep_posts, ["rating"])]). split; [split|split].
    + intros d d' k r r' _ Hv. specialize (Hv _ _ (elem_of_list_here _ _)). unfold dep_view in Hv. simpl in Hv.
      injection Hv as Hv. unfold cb_total. do 3 f_equal. first [exact (f_equal sum_vals Hv)|exact (f_equal sum_links Hv)].
    + split; simpl.
      * by intros c ?%elem_of_nil.
      * intros dp cs H. one_dep H. set_solver.
      * intros dp cs o c H Ho Hc. one_dep H. injection Ho as <-. apply elem_of_list_singleton in Hc as ->. trk f_rating.
      * intros dp cs o H Ho. one_dep H. injection Ho as <-. simpl. trk f_forum.
    + trk f_total.
    + intros g Hg Hc. simpl in Hc. by apply elem_of_nil in Hc.
    + intros dp cs o c H Ho Hlt Hc. simpl in H. one_dep H. injection Ho as <-. vm_compute in Hlt. lia.
  - exists (Reads ["forum_id"] [(dep_forum, ["title"])]). split; [split|split].
    + intros d d' k r r' Ho Hv. specialize (Hv _ _ (elem_of_list_here _ _)). unfold dep_view in Hv. simpl in Hv.
      specialize (Ho _ (elem_of_list_here _ _)). injection Hv as Hv. unfold cb_forum_title. rewrite Ho in *.
      destruct (col r' "forum_id") as [|j|]; [done| |done].
      destruct (getrow d "forum" j) as [x|], (getrow d' "forum" j) as [y|]; try done. simpl in Hv. injection Hv as Hv. by rewrite Hv.
    + split; simpl.
      * intros c Hc. apply elem_of_list_singleton in Hc as ->. trk f_forum.
      * intros dp cs H. one_dep H. set_solver.
      * intros dp cs o c H Ho Hc. one_dep H. injection Ho as <-. apply elem_of_list_singleton in Hc as ->. trk f_title.
      * intros dp cs o H Ho. one_dep H. injection Ho as <-. simpl. set_solver.
    + trk f_ft.
    + intros g Hg Hc. simpl in Hc. apply elem_of_list_singleton in Hc. fields Hg; try done; simpl in Hc; discriminate Hc.
    + intros dp cs o c H Ho Hlt Hc. simpl in H. one_dep H. injection Ho as <-. apply elem_of_list_singleton in Hc as ->. col_of f_title.
  - exists (Reads [] [(dep_tags, ["weight"])]). split; [split|split].
    + intros d d' k r r' _ Hv. specialize (Hv _ _ (elem_of_list_here _ _)). unfold dep_view in Hv. simpl in Hv.
      injection Hv as Hv. unfold cb_tag_weight. do 3 f_equal. first [exact (f_equal sum_vals Hv)|exact (f_equal sum_links Hv)].
    + split; simpl.
      * by intros c ?%elem_of_nil.
      * intros dp cs H. one_dep H. set_solver.
      * intros dp cs o c H Ho Hc. one_dep H. injection Ho as <-. apply elem_of_list_singleton in Hc as ->. trk f_weight.
      * intros dp cs o H Ho. one_dep H. injection Ho as <-. simpl. split; [trk f_ctype|trk f_oid].
    + trk f_tw.
    + intros g Hg Hc. simpl in Hc. by apply elem_of_nil in Hc.
    + intros dp cs o c H Ho Hlt Hc. simpl in H. one_dep H. injection Ho as <-. vm_compute in Hlt. lia.
  - exists (Reads ["score"; "tag_weight"] []). split; [split|split].
    + intros d d' k r r' Ho _. unfold cb_rating. rewrite (Ho "score"), (Ho "tag_weight") by (simpl; set_solver). done.
    + split; simpl.
      * intros c Hc. apply elem_of_cons in Hc as [->|Hc]; [trk f_score|]. apply elem_of_list_singleton in Hc as ->. trk f_tw.
      * by intros dp cs ?%elem_of_nil.
      * by intros dp cs o c ?%elem_of_nil.
      * by intros dp cs o ?%elem_of_nil.
    + trk f_rating.
    + intros g Hg Hc. simpl in Hc. fields Hg; try done; simpl in Hc |- *; try (exfalso; set_solver).
      exists [f_forum; f_views; f_score; f_ft], [], []. done.
    + by intros dp cs o c ?%elem_of_nil.
  - exists (Reads [] [(dep_marks, ["score"])]). split; [split|split].
    + intros d d' k r r' _ Hv. specialize (Hv _ _ (elem_of_list_here _ _)). unfold dep_view in Hv. simpl in Hv.
      injection Hv as Hv. unfold cb_bookmarks. do 3 f_equal. first [exact (f_equal sum_vals Hv)|exact (f_equal sum_links Hv)].
    + split; simpl.
      * by intros c ?%elem_of_nil.
      * intros dp cs H. one_dep H. set_solver.
      * intros dp cs o c H Ho Hc. one_dep H. injection Ho as <-. apply elem_of_list_singleton in Hc as ->. trk f_score.
      * intros dp cs o H Ho. one_dep H. done.
    + trk f_bm.
    + intros g Hg Hc. simpl in Hc. by apply elem_of_nil in Hc.
    + intros dp cs o c H Ho Hlt Hc. simpl in H. one_dep H. injection Ho as <-. vm_compute in Hlt. lia.
Qed.

Lemma RS_flushable : flushable RS rrank true.
Proof.
  split.
  - exact RS_wf.
  - intros m f dp m' f' dp' t c rc c' rc' Hm Hf Hd Hr Hm' Hf' Hd' Hr'.
    destruct (RS_deps _ _ _ Hm Hf Hd) as [(_ & _ & ->)|[(_ & _ & ->)|[(_ & _ & ->)|(_ & _ & ->)]]]; try discriminate Hr.
    destruct (RS_deps _ _ _ Hm' Hf' Hd') as [(_ & _ & ->)|[(_ & _ & ->)|[(_ & _ & ->)|(_ & _ & ->)]]]; try discriminate Hr'.
    simpl in Hr, Hr'. left. naive_solver.
  - assert (Hg : ∀ t cf ct, gen_on RS t cf ct → t = "tag" ∧ cf = "ctype_id" ∧ ct = 11).
    { intros t cf ct H. destruct H as [m f dp o cf oc Hm Hf Hd Ho Hr|m f dp o cf oc Hm Hf Hd Ho Hr];
        destruct (RS_deps _ _ _ Hm Hf Hd) as [(-> & _ & ->)|[(-> & _ & ->)|[(-> & _ & ->)|(-> & _ & ->)]]]; try discriminate Hr;
        injection Hr as <- <-; injection Ho as <-; done. }
    split.
    + intros t cf ct t' H Ht ->. apply Hg in H as (-> & -> & ->).
      assert (Hin : "tag" +:+ "_" +:+ pretty 11 ∈ ["forum"; "post"; "member"; "tag"; "member_bookmarks"]).
      { inversion Ht as [m Hm Heq|m f dp t c rc Hm Hf Hd Hr Heq].
        - models Hm; simpl; rewrite elem_of_list_In; simpl; tauto.
        - destruct (RS_deps _ _ _ Hm Hf Hd) as [(-> & _ & ->)|[(-> & _ & ->)|[(-> & _ & ->)|(-> & _ & ->)]]]; try discriminate Hr.
        }
      apply (bool_decide_pack _) in Hin. vm_compute in Hin. done.
    + intros t cf cf' ct H H'. apply Hg in H as (_ & -> & _). by apply Hg in H' as (_ & -> & _).
  - done.
  - right. split; [done|]. intros m f dp t c rc o Hm Hf Hd Hr Ho.
    destruct (RS_deps _ _ _ Hm Hf Hd) as [(_ & _ & ->)|[(_ & _ & ->)|[(_ & _ & ->)|(_ & _ & ->)]]]; try discriminate Hr.
    injection Hr as <- <- <-. injection Ho as <-. eexists RMember, _. split; [simpl; set_solver|]. split; [simpl; by left|]. split; [done|].
    left. done.
  - intros m t Hm Hu. destruct Hu as [f a rel Hf Hk Ho|f ds dp o Hf Hk Hd Ho|f ds dp o t c rc Hf Hk Hd Ho Hr|f ds dp o ctc oidc Hf Hk Hd Ho Hr].
    + destruct (RS_aggs _ _ _ Hm Hf Hk) as (-> & [[-> ->]|[-> ->]]); injection Ho as <-; vm_compute; lia.
    + assert (Hd' : dp ∈ field_deps f) by (unfold field_deps; by rewrite Hk).
      destruct (RS_deps _ _ _ Hm Hf Hd') as [(-> & [->| ->] & ->)|[(-> & -> & ->)|[(-> & -> & ->)|(-> & -> & ->)]]]; try discriminate Hk.
      injection Ho as <-. vm_compute. lia.
    + assert (Hd' : dp ∈ field_deps f) by (unfold field_deps; by rewrite Hk).
      destruct (RS_deps _ _ _ Hm Hf Hd') as [(-> & [->| ->] & ->)|[(-> & -> & ->)|[(-> & -> & ->)|(-> & -> & ->)]]]; try discriminate Hk. discriminate Hr.
    + assert (Hd' : dp ∈ field_deps f) by (unfold field_deps; by rewrite Hk).
      destruct (RS_deps _ _ _ Hm Hf Hd') as [(-> & [->| ->] & ->)|[(-> & -> & ->)|[(-> & -> & ->)|(-> & -> & ->)]]]; try discriminate Hk. discriminate Hr.
  - intros m f fn ds sk dp Hm Hf Hk Hd Ho.
    destruct (RS_cbs _ _ _ _ _ Hm Hf Hk) as [(->&->&->&->&->)|[(->&->&->&->&->)|[(->&->&->&->&->)|[(->&->&->&->&->)|(->&->&->&->&->)]]]];
      try (by apply elem_of_nil in Hd); apply elem_of_list_singleton in Hd as ->; discriminate Ho.
  - intros m mm Hm Hmm. models Hm; simpl in Hmm; in_cases Hmm; done.
  - intros m r Hm. by models Hm.
  - exact RS_settled.
Qed.
Lemma RS_no_self : no_self_dep RS.
Proof.
  intros m f fn ds sk dp Hm Hf Hk Hd.
  destruct (RS_cbs _ _ _ _ _ Hm Hf Hk) as [(->&->&->&->&->)|[(->&->&->&->&->)|[(->&->&->&->&->)|[(->&->&->&->&->)|(->&->&->&->&->)]]]];
    try (by apply elem_of_nil in Hd); apply elem_of_list_singleton in Hd as ->; done.
Qed.

(** A history touching every kind of dependency. *)
Definition rops : list op :=
  [ OSave "Forum" None (rowof [("title", VText "a")]);
    OSave "Forum" None (rowof [("title", VText "b")]);
    OSave "Post" None (rowof [("forum_id", VInt 1); ("views", VInt 0); ("score", VInt 5)]);
    OInsert "post" [(7, rowof [("forum_id", VInt 1); ("views", VInt 0); ("score", VInt 7)]);
                    (8, rowof [("forum_id", VInt 2); ("views", VInt 0); ("score", VInt 9)])];
    OSave "Tag" None (rowof [("ctype_id", VInt 11); ("object_id", VText "7"); ("weight", VInt 100)]);
    OSave "Member" None (rowof [("name", VText "m")]);
    OInsert "member_bookmarks" [(1, rowof [("member_id", VInt 1); ("post_id", VInt 7)]);
                                (2, rowof [("member_id", VInt 1); ("post_id", VInt 8)])];
    OUpdate "forum" [1] (λ r, <["title" := VText "c"]> r);
    OUpdate "post" [8] (λ r, <["forum_id" := VInt 1]> r);
    ODelete "post" [1] ].
Definition rd1 (b : backend) : db := foldl (step (RE b) RS) d0 rops.
