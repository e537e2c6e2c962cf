(** * The test application of the project and its test suite.

    /repo/test_denorm_project/test_app/models.py, complete, and every test of tests.py that is about
    data, as functions of the model.  P_TestApp.v runs them.  The tests fix what the authors expect
    of the code; running them here compares the model with these expectations.

    Left out: GenericForeignKey descriptors (tags are created with their two columns), and what
    User objects do in setUp.  A related object that Django has cached on an instance is read
    from the database instead. *)
From Verif Require Import Base Schema TrigSet Gen Exec Orm Flush ExForum ExBad.
Open Scope list_scope.

(** ** Python *)
Fixpoint join (sep : string) (l : list string) : string :=
  match l with [] => "" | [s] => s | s :: l' => s +:+ sep +:+ join sep l' end.
Definition sle (a b : string) : bool := match String.compare a b with Gt => false | _ => true end.
Fixpoint insort {A} (le : A → A → bool) (x : A) (l : list A) : list A :=
  match l with [] => [x] | y :: l' => if le x y then x :: l else y :: insort le x l' end.
Definition sorted {A} (le : A → A → bool) (l : list A) : list A := foldr (insort le) [] l.
Definition text (v : val) : string := match v with VText s => s | VInt z => pretty z | VNull => "" end.
Definition num (v : val) : Z := match v with VInt z => z | _ => 0 end.
(** A related manager's all(): the rows by key. *)
Definition key_le {A} (p q : Z * A) : bool := Z.leb p.1 q.1.
Definition rows_where (d : db) (t : string) (P : row → Prop) `{∀ r, Decision (P r)} : list (Z * row) :=
  sorted key_le (filter (λ p : Z * row, P p.2) (map_to_list (tab d t))).
Definition related (d : db) (t c : string) (k : Z) : list (Z * row) := rows_where d t (λ r, col r c = VInt k).
(** self.fk: None, or the related object. *)
Definition follow (d : db) (t : string) (v : val) : res (option row) :=
  match v with
  | VInt k => match getrow d t k with Some r => Ok (Some r) | None => Err (EUser 1) end  (* DoesNotExist *)
  | _ => Ok None
  end.
(** An attribute of an object; None has none. *)
Definition attr (o : option row) (c : string) : res val := match o with Some r => Ok (col r c) | None => Err EAttribute end.

(** ** models.py *)
Definition tF (n o : string) : field := plain n o.
Definition tm (n : string) (t : string) (ct : Z) (fs : list field) (mms : list m2m) : model :=
  Model n "test_app" t "id" ct false false fs mms [] (λ _, true) (λ _, true).
Definition tforum := "test_app_forum".  Definition tpost := "test_app_post".  Definition tmember := "test_app_member".
Definition ttag := "test_app_tag".  Definition tatt := "test_app_attachment".
Definition tbm := "test_app_member_bookmarks".  Definition tau := "test_app_forum_authors".

(** models.py:18-31 *)
Definition cb_weird : callback := λ d _ r, let* a := follow d "test_app_failingtriggersmodela" (col r "a_id") in let* v := attr a "SomeWeirdName" in Ok (PVal v).
Definition mFailA : model := tm "FailingTriggersModelA" "test_app_failingtriggersmodela" 1 [tF "order" "FailingTriggersModelA"; tF "SomeWeirdName" "FailingTriggersModelA"] [].
Definition mFailB : model := tm "FailingTriggersModelB" "test_app_failingtriggersmodelb" 2
  [fkf "a" "FailingTriggersModelA" "FailingTriggersModelB";
   cbf "SomeWeirdName" "FailingTriggersModelB" cb_weird [Dep "FailingTriggersModelA" (RelForward "a_id") []] []] [].
(** models.py:34-46; the wrapper around the key is in Cached.v. *)
Definition mCachedA : model := tm "CachedModelA" "test_app_cachedmodela" 3
  [fkf "b" "CachedModelB" "CachedModelA"; ckf "cached_data" "CachedModelA" [Dep "CachedModelB" (RelForward "b_id") []]] [].
Definition mCachedB : model := tm "CachedModelB" "test_app_cachedmodelb" 4 [tF "data" "CachedModelB"] [].
(** models.py:49-77.  DenormModel is swapped out. *)
Definition cb_and (w : string) : callback := λ _ _ r, Ok (PVal (VText (w +:+ " and " +:+ text (col r "text")))).
Definition mDenorm : model := Model "DenormModel" "test_app" "test_app_denormmodel" "id" 5 false true
  [tF "text" "DenormModel"; cbf "ham" "DenormModel" (cb_and "Ham") [] []; cbf "spam" "DenormModel" (cb_and "Spam") [] []] [] [] (λ _, true) (λ _, true).
Definition mReal : model := tm "RealDenormModel" "test_app_realdenormmodel" 6
  [tF "text" "RealDenormModel"; cbf "ham" "RealDenormModel" (cb_and "Ham") [] []; cbf "eggs" "RealDenormModel" (cb_and "Eggs") [] []] [].
(** models.py:80-85 *)
Definition mTag : model := tm "Tag" ttag 7 [tF "name" "Tag"; fkf "content_type" "ContentType" "Tag"; tF "object_id" "Tag"] [].
Definition mCt : model := Model "ContentType" "contenttypes" "django_content_type" "id" 8 false false [tF "model" "ContentType"] [] [] (λ _, true) (λ _, true).
(** models.py:88-97: ', '.join(sorted([t.name for t in self.tags.all()])) *)
Definition cb_tags (ct : Z) : callback := λ d pk _, Ok (PVal (VText match pk with
  | None => ""
  | Some k => join ", " (sorted sle ((λ p : Z * row, text (col p.2 "name")) <$>
      rows_where d ttag (λ r, col r "content_type_id" = VInt ct ∧ col r "object_id" = VInt k)))
  end)).
Definition dep_tag : dep := Dep "Tag" (RelGenForward "content_type_id" "object_id") [].
(** models.py:100-131 *)
Definition cb_author_names : callback := λ d pk _, Ok (PVal (VText match pk with
  | None => ""
  | Some k => join ", " ((λ p : Z * row, text (col p.2 "author_name")) <$> related d tpost "forum_id" k)
  end)).
Definition cb_authors : m2m_callback := λ d pk _, Ok match pk with
  | None => []
  | Some k => omap (λ p : Z * row, match col p.2 "author_id" with VInt a => Some a | _ => None end) (related d tpost "forum_id" k)
  end.
Definition cb_fpath : callback := λ d _ r,
  let* p := follow d tforum (col r "parent_forum_id") in
  Ok (PVal (VText match p with
    | Some f => text (col f "path") +:+ text (col r "title") +:+ "/"
    | None => "/" +:+ text (col r "title") +:+ "/"
    end)).
Definition dep_post_of (c : string) : dep := Dep "Post" (RelBackward c) [].
Definition mForum : model := tm "Forum" tforum 10
  [ cbf "tags_string" "Forum" (cb_tags 10) [dep_tag] [];
    tF "title" "Forum"; aggf "post_count" "Forum" (Agg "Post" "forum_id" [] [] None []);
    ckf "cachekey" "Forum" [dep_post_of "forum_id"];
    cbf "author_names" "Forum" cb_author_names [dep_post_of "forum_id"] [];
    fkf "parent_forum" "Forum" "Forum";
    cbf "path" "Forum" cb_fpath [Dep "Forum" (RelForward "parent_forum_id") []] [] ]
  [M2M "authors" "Member" tau "forum_id" "member_id" (Some (cb_authors, [dep_post_of "forum_id"]))].
(** models.py:134-163 *)
Definition cb_ftitle : callback := λ d _ r, let* f := follow d tforum (col r "forum_id") in let* v := attr f "title" in Ok (PVal v).
Definition cb_aname : callback := λ d _ r, let* a := follow d tmember (col r "author_id") in
  Ok (PVal match a with Some m => col m "name" | None => VText "" end).
Definition cb_rcount : callback := λ d pk _, Ok (PVal (VInt match pk with
  | None => 0
  | Some k => let l := related d tpost "response_to_id" k in
      Z.of_nat (length l) + foldr Z.add 0 ((λ p : Z * row, num (col p.2 "response_count")) <$> l)
  end)).
Definition mPost : model := tm "Post" tpost 11
  [ cbf "tags_string" "Post" (cb_tags 11) [dep_tag] [];
    fkf "forum" "Forum" "Post"; fkf "author" "Member" "Post"; fkf "response_to" "Post" "Post"; tF "title" "Post";
    cbf "forum_title" "Post" cb_ftitle [Dep "Forum" (RelForward "forum_id") []] [];
    cbf "author_name" "Post" cb_aname [Dep "Member" (RelForward "author_id") []] [];
    cbf "response_count" "Post" cb_rcount [dep_post_of "response_to_id"] [] ] [].
(** models.py:166-173: the name [post] is not defined, so calling it raises NameError. *)
Definition mExtend : model := tm "PostExtend" "test_app_postextend" 12
  [fkf "post" "Post" "PostExtend"; cbf "author_name" "PostExtend" (λ _ _ _, Err (EUser 2)) [Dep "Post" (RelForward "post_id") []] []] [].
(** models.py:176-194.  [obj]: Attachment.forum_as_object. *)
Definition cb_aforum (obj : bool) : callback := λ d _ r,
  let* p := follow d tpost (col r "post_id") in
  match p with
  | Some p => match col p "forum_id" with VInt k => Ok (if obj then PInst "Forum" k else PVal (VInt k)) | _ => Ok (PVal VNull) end
  | None => Ok (PVal VNull)
  end.
Definition mAtt (obj : bool) : model := tm "Attachment" tatt 13
  [ fkf "post" "Post" "Attachment"; ckf "cachekey" "Attachment" [Dep "Post" (RelForward "post_id") []];
    Field "forum" "forum_id" "forum_id" (Some "Forum") "Attachment" (KCallback (cb_aforum obj) [Dep "Post" (RelForward "post_id") []] []) ] [].
(** models.py:197-214 *)
Definition cb_full : callback := λ _ _ r, Ok (PVal (VText (text (col r "first_name") +:+ " " +:+ text (col r "name")))).
Definition nl : string := String (Ascii.ascii_of_nat 10) "".
Definition cb_titles : callback := λ d pk _, match pk with
  | None => Ok (PVal VNull)
  | Some k => Ok (PVal (VText (join nl (omap (λ p : Z * row,
      match col p.2 "post_id" with VInt j => (λ q, text (col q "title")) <$> getrow d tpost j | _ => None end) (related d tbm "member_id" k)))))
  end.
Definition dep_bm : dep := Dep "Post" (RelM2M tbm "member_id" "post_id") [].
Definition mMember : model := tm "Member" tmember 14
  [ tF "first_name" "Member"; tF "name" "Member"; ckf "cachekey" "Member" [dep_bm];
    cbf "full_name" "Member" cb_full [] []; cbf "bookmark_titles" "Member" cb_titles [dep_bm] [] ]
  [M2M "bookmarks" "Post" tbm "member_id" "post_id" None].
(** models.py:217-232.  The proxy has the fields, the table and the content type of CallCounter. *)
Definition mSkipPost : model := tm "SkipPost" "test_app_skippost" 15 [tF "text" "SkipPost"] [].
Definition cb_called : callback := λ _ _ r, Ok (PVal (match col r "called_count" with VInt z => if decide (z = 0) then VInt 1 else VInt (z + 1) | _ => VInt 1 end)).
Definition mCounter : model := tm "CallCounter" "test_app_callcounter" 16 [cbf "called_count" "CallCounter" cb_called [] []] [].
Definition mProxy : model := Model "CallCounterProxy" "test_app" "test_app_callcounter" "id" 16 true false
  [cbf "called_count" "CallCounter" cb_called [] []] [] [] (λ _, true) (λ _, true).
(** models.py:235-268 *)
Definition cb_ptext : callback := λ d _ r, let* p := follow d "test_app_skippost" (col r "post_id") in let* v := attr p "text" in Ok (PVal v).
Definition dep_skippost : dep := Dep "SkipPost" (RelForward "post_id") [].
Definition skip_comment (n t : string) (ct : Z) (sk always : list string) : model := Model n "test_app" t "id" ct false false
  [ fkf "post" "SkipPost" n; tF "text" n; tF "created_on" n; Field "updated_on" "updated_on" "updated_on" None n KAutoNow;
    cbf "post_text" n cb_ptext [dep_skippost] sk ] [] always (λ _, true) (λ _, true).
Definition mNoSkip : model := skip_comment "SkipCommentWithoutSkip" "test_app_skipcommentwithoutskip" 17 [] [].
Definition mSkip : model := skip_comment "SkipCommentWithSkip" "test_app_skipcommentwithskip" 18 ["updated_on"] [].
Definition mAttrSkip : model := skip_comment "SkipCommentWithAttributeSkip" "test_app_skipcommentwithattributeskip" 19 [] ["updated_on"].
(** models.py:271-281 *)
Definition cb_users : callback := λ d pk _, Ok (PVal (VText match pk with
  | None => ""
  | Some k => join ", " (sorted sle ((λ p : Z * row, text (col p.2 "name")) <$> related d "test_app_competitor" "team_id" k))
  end)).
Definition mTeam : model := tm "Team" "test_app_team" 20 [cbf "user_string" "Team" cb_users [Dep "Competitor" (RelBackward "team_id") []] []] [].
Definition mComp : model := tm "Competitor" "test_app_competitor" 21 [tF "name" "Competitor"; fkf "team" "Team" "Competitor"] [].
(** models.py:285-305: only if the database is not SQLite. *)
Definition mFSum : model := tm "FilterSumModel" "test_app_filtersummodel" 22
  [aggf "active_item_sum" "FilterSumModel" (Agg "FilterSumItem" "parent_id" [Cond1 "age" LGte (VInt 18)] [] (Some "active_item_count") [])] [].
Definition mFSItem : model := tm "FilterSumItem" "test_app_filtersumitem" 23
  [fkf "parent" "FilterSumModel" "FilterSumItem"; tF "age" "FilterSumItem"; tF "active_item_count" "FilterSumItem"] [].
Definition mFCount : model := tm "FilterCountModel" "test_app_filtercountmodel" 24
  [aggf "active_item_count" "FilterCountModel" (Agg "FilterCountItem" "parent_id" [Cond1 "active" LExact (VInt 1)] [Cond1 "text" LExact (VText "")] None [])] [].
Definition mFCItem : model := tm "FilterCountItem" "test_app_filtercountitem" 25
  [fkf "parent" "FilterCountModel" "FilterCountItem"; tF "active" "FilterCountItem"; tF "text" "FilterCountItem"] [].

(** In the order of declaration.  tests.py:16-17: the models with failing triggers are left out
    except in test_triggers. *)
Definition test_models (b : backend) (failing obj : bool) : list model :=
  [mCt] ++ (if failing then [mFailA; mFailB] else []) ++
  [ mCachedA; mCachedB; mDenorm; mReal; mTag; mForum; mPost; mExtend; mAtt obj; mMember; mSkipPost; mCounter; mProxy;
    mNoSkip; mSkip; mAttrSkip; mTeam; mComp ] ++
  match b with SQLite => [] | _ => [mFSum; mFSItem; mFCount; mFCItem] end.
Definition test_app (b : backend) (failing obj : bool) : schema := Schema (test_models b failing obj) false.

(** ** The means of tests.py *)
(** A session: the backend, the database with its triggers, the order in which flush() gets the markers. *)
Record session := Session { se_b : backend; E_of : env; se_ord : db → list marker → list marker }.
Definition S_of (s : session) (obj : bool) : schema := test_app (se_b s) false obj.
(** An instance: its key and its attributes. *)
Definition inst : Type := Z * row.
Definition Model_save (s : session) (m : model) (i : option Z * row) (d : db) : res (db * inst) :=
  let* x := save (E_of s) m i.1 i.2 d in Ok (x.1.1, (x.1.2, x.2)).
Definition create (s : session) (m : model) (r : list (string * val)) (d : db) : res (db * inst) := Model_save s m (None, rowof r) d.
Definition save_ (s : session) (m : model) (i : inst) (d : db) : res (db * inst) := Model_save s m (Some i.1, i.2) d.
Definition set_ (i : inst) (c : string) (v : val) : inst := (i.1, <[c := v]> i.2).
(** objects.get(id=...) *)
Definition get (d : db) (m : model) (k : Z) : res inst := match getrow d (m_table m) k with Some r => Ok (k, r) | None => Err (EUser 1) end.
Definition op_ (s : session) (o : op) (d : db) : res db := run_op (E_of s) (S_of s false) o d.
Definition fuel : nat := 30.
Definition done_ (x : db * outcome) : res db := match x.2 with Done => Ok x.1 | Raised e => Err e | Running => Err EDepth end.
Definition flush_ (s : session) (d : db) : res db := done_ (flush (E_of s) (S_of s false) (se_ord s) fuel d).
Definition rebuild_ (s : session) (mn fn : option string) (d : db) : res db := done_ (rebuildall (E_of s) (S_of s false) (se_ord s) fuel mn fn d).
(** assertTrue *)
Definition ensure (b : bool) : res unit := if b then Ok tt else Err (EUser 99).
(** assertEqual(Model.objects.get(id=k).c, v) *)
Definition assert_db (d : db) (m : model) (k : Z) (c : string) (v : val) : res unit := let* i := get d m k in ensure (bool_decide (col i.2 c = v)).
Definition ne (a b : val) : bool := negb (bool_decide (a = b)).
Definition eq_ (a b : val) : bool := bool_decide (a = b).

(** What create() is given, with the defaults of Django (the empty text). *)
Definition forum (t : string) (p : val) := [("title", VText t); ("parent_forum_id", p)].
Definition post (f a r : val) (t : string) := [("forum_id", f); ("author_id", a); ("response_to_id", r); ("title", VText t)].
Definition member (fn n : string) := [("first_name", VText fn); ("name", VText n)].
Definition key (i : inst) : val := VInt i.1.
Definition tag (n : string) (ct : Z) (i : inst) := [("name", VText n); ("content_type_id", VInt ct); ("object_id", key i)].
(** The content types exist. *)
Definition db0 : db := Db {["django_content_type" := list_to_map ((λ n : nat, (Z.of_nat n, rowof [])) <$> seq 1 30)]} [] 0 0.
Notation "'do' d , i <- x ; y" := (rbind x (λ p, let d := p.1 in let i := p.2 in y)) (at level 200, d name, i name, x at level 99, y at level 200).
Notation "'do' d <- x ; y" := (rbind x (λ d, y)) (at level 200, d name, x at level 99, y at level 200).
Notation "x ;; y" := (rbind x (λ _, y)) (at level 100, y at level 200, right associativity).
Definition pass : res unit := Ok tt.

(** ** tests.py *)
(** 40-63: the cache key changes, so the data is computed again. *)
Definition test_cached (s : session) : res unit :=
  do d, b <- create s mCachedB [("data", VText "Hello")] db0;
  do d, a <- create s mCachedA [("b_id", key b)] d;
  do a <- get d mCachedA a.1;
  let b := set_ b "data" (VText "World") in
  do a1 <- get d mCachedA a.1;
  ensure (eq_ (col a1.2 "cached_data") (col a.2 "cached_data")) ;;
  do d, b <- save_ s mCachedB b d;
  do a1 <- get d mCachedA a.1;
  ensure (ne (col a1.2 "cached_data") (col a.2 "cached_data")).
(** 66-74 *)
Definition test_abstract (s : session) : res unit :=
  do d, d1 <- create s mReal [("text", VText "onion")] db0;
  ensure (eq_ (col d1.2 "ham") (VText "Ham and onion")) ;; ensure (eq_ (col d1.2 "eggs") (VText "Eggs and onion")).
(** 104-117 *)
Definition test_skip_of (m : model) (s : session) : res unit :=
  do d, p <- create s mSkipPost [("text", VText "Here be ponies.")] db0;
  do d, c <- create s m [("post_id", key p); ("text", VText "Oh really?"); ("created_on", VInt 0)] d;
  do d <- flush_ s d;
  assert_db d m c.1 "post_text" (VText "Here be ponies.").
Definition test_with_skip : session → res unit := test_skip_of mSkip.
Definition test_meta_skip : session → res unit := test_skip_of mAttrSkip.
(** 143-188 *)
Definition test_depends_related (s : session) : res unit :=
  do d, f1 <- create s mForum (forum "forumone" VNull) db0;
  ensure (eq_ (col f1.2 "post_count") (VInt 0)) ;; assert_db d mForum f1.1 "post_count" (VInt 0) ;;
  do d, p1 <- create s mPost (post (key f1) VNull VNull "") d;
  assert_db d mForum f1.1 "post_count" (VInt 1) ;;
  do d <- flush_ s d;
  ensure (eq_ (col p1.2 "forum_title") (VText "forumone")) ;; assert_db d mPost p1.1 "forum_title" (VText "forumone") ;;
  do d, f1 <- save_ s mForum (set_ f1 "title" (VText "forumtwo")) d;
  do d <- flush_ s d;
  assert_db d mPost p1.1 "forum_title" (VText "forumtwo") ;;
  do d, p2 <- create s mPost (post (key f1) VNull VNull "") d;
  assert_db d mForum f1.1 "post_count" (VInt 2) ;;
  do d, p3 <- create s mPost (post (key f1) VNull VNull "") d;
  assert_db d mForum f1.1 "post_count" (VInt 3) ;;
  do d <- op_ s (ODelete tpost [p1.1]) d;
  assert_db d mForum f1.1 "post_count" (VInt 2) ;;
  do d <- op_ s (ODelete tpost [p2.1; p3.1]) d;
  assert_db d mForum f1.1 "post_count" (VInt 0).
(** 190-208 *)
Definition test_dependency_chains (s : session) : res unit :=
  do d, f1 <- create s mForum (forum "forumone" VNull) db0;
  do d, m1 <- create s mMember (member "" "memberone") d;
  do d, p <- create s mPost (post (key f1) (key m1) VNull "") d;
  do d <- flush_ s d;
  assert_db d mForum f1.1 "author_names" (VText "memberone") ;;
  do d, m1 <- save_ s mMember (set_ m1 "name" (VText "membertwo")) d;
  do d <- flush_ s d;
  assert_db d mForum f1.1 "author_names" (VText "membertwo").
(** 210-230 *)
Definition test_trees (s : session) : res unit :=
  do d, f1 <- create s mForum (forum "forumone" VNull) db0;
  do d, f2 <- create s mForum (forum "forumtwo" (key f1)) d;
  do d, f3 <- create s mForum (forum "forumthree" (key f2)) d;
  do d <- flush_ s d;
  ensure (eq_ (col f1.2 "path") (VText "/forumone/")) ;; ensure (eq_ (col f2.2 "path") (VText "/forumone/forumtwo/")) ;;
  ensure (eq_ (col f3.2 "path") (VText "/forumone/forumtwo/forumthree/")) ;;
  do d, f1 <- save_ s mForum (set_ f1 "title" (VText "someothertitle")) d;
  do d <- flush_ s d;
  assert_db d mForum f1.1 "path" (VText "/someothertitle/") ;; assert_db d mForum f2.1 "path" (VText "/someothertitle/forumtwo/") ;;
  assert_db d mForum f3.1 "path" (VText "/someothertitle/forumtwo/forumthree/").
(** 232-237 *)
Definition test_reverse_fk_null (s : session) : res unit :=
  do d, f1 <- create s mForum (forum "forumone" VNull) db0;
  do d, m1 <- create s mMember (member "" "memberone") d;
  do d, p <- create s mPost (post (key f1) (key m1) VNull "") d;
  do d, a <- create s (mAtt false) [("post_id", VNull)] d;
  do d <- flush_ s d; pass.
(** 239-265 *)
Definition test_bulk_update (s : session) : res unit :=
  do d, f1 <- create s mForum (forum "forumone" VNull) db0;
  do d, f2 <- create s mForum (forum "forumtwo" VNull) d;
  do d, p1 <- create s mPost (post (key f1) VNull VNull "") d;
  do d, p2 <- create s mPost (post (key f2) VNull VNull "") d;
  do d <- flush_ s d;
  assert_db d mPost p1.1 "forum_title" (VText "forumone") ;; assert_db d mPost p2.1 "forum_title" (VText "forumtwo") ;;
  assert_db d mForum f1.1 "post_count" (VInt 1) ;; assert_db d mForum f2.1 "post_count" (VInt 1) ;;
  do d <- op_ s (OUpdate tpost [p1.1; p2.1] (λ r, <["forum_id" := key f1]> r)) d;
  do d <- flush_ s d;
  assert_db d mPost p1.1 "forum_title" (VText "forumone") ;; assert_db d mPost p2.1 "forum_title" (VText "forumone") ;;
  assert_db d mForum f1.1 "post_count" (VInt 2) ;; assert_db d mForum f2.1 "post_count" (VInt 0) ;;
  do d <- op_ s (OUpdate tforum [f1.1; f2.1] (λ r, <["title" := VText "oneforall"]> r)) d;
  do d <- flush_ s d;
  assert_db d mPost p1.1 "forum_title" (VText "oneforall") ;; assert_db d mPost p2.1 "forum_title" (VText "oneforall").
(** 267-275 *)
Definition test_no_dependency (s : session) : res unit :=
  do d, m1 <- create s mMember (member "first" "last") db0;
  do d <- flush_ s d;
  assert_db d mMember m1.1 "full_name" (VText "first last") ;;
  do d <- op_ s (OUpdate tmember [m1.1] (λ r, <["first_name" := VText "second"]> r)) d;
  do d <- flush_ s d;
  assert_db d mMember m1.1 "full_name" (VText "second last").
(** 277-289 *)
Definition test_self_backward_relation (s : session) : res unit :=
  do d, f1 <- create s mForum (forum "forumone" VNull) db0;
  do d, p1 <- create s mPost (post (key f1) VNull VNull "") d;
  do d, p2 <- create s mPost (post (key f1) VNull (key p1) "") d;
  do d, p3 <- create s mPost (post (key f1) VNull (key p1) "") d;
  do d, p4 <- create s mPost (post (key f1) VNull (key p2) "") d;
  do d <- flush_ s d;
  assert_db d mPost p1.1 "response_count" (VInt 3) ;; assert_db d mPost p2.1 "response_count" (VInt 1) ;;
  assert_db d mPost p3.1 "response_count" (VInt 0) ;; assert_db d mPost p4.1 "response_count" (VInt 0).
(** 291-317.  [in]: a substring; the titles are compared as a whole here. *)
Definition test_m2m_relation (s : session) : res unit :=
  do d, f1 <- create s mForum (forum "forumone" VNull) db0;
  do d, p1 <- create s mPost (post (key f1) VNull VNull "post1") d;
  do d, m1 <- create s mMember (member "first1" "last1") d;
  do d <- flush_ s d;
  do d <- op_ s (OInsert tbm [(1, rowof [("member_id", key m1); ("post_id", key p1)])]) d;
  do d <- flush_ s d;
  assert_db d mMember m1.1 "bookmark_titles" (VText "post1") ;;
  do d, p1 <- save_ s mPost (set_ p1 "title" (VText "othertitle")) d;
  do d <- flush_ s d;
  assert_db d mMember m1.1 "bookmark_titles" (VText "othertitle") ;;
  do d, p2 <- create s mPost (post (key f1) VNull VNull "thirdtitle") d;
  do d <- op_ s (OInsert tbm [(2, rowof [("member_id", key m1); ("post_id", key p2)])]) d;
  do d <- flush_ s d;
  assert_db d mMember m1.1 "bookmark_titles" (VText ("othertitle" +:+ nl +:+ "thirdtitle")) ;;
  do d <- op_ s (ODelete tbm [1]) d;
  do d <- flush_ s d;
  assert_db d mMember m1.1 "bookmark_titles" (VText "thirdtitle").
(** 339-362 *)
Definition test_countfield (s : session) : res unit :=
  do d, f1 <- create s mForum (forum "forumone" VNull) db0;
  do d, f2 <- create s mForum (forum "forumone" VNull) d;
  assert_db d mForum f1.1 "post_count" (VInt 0) ;; assert_db d mForum f2.1 "post_count" (VInt 0) ;;
  do d, p1 <- create s mPost (post (key f1) VNull VNull "") d;
  assert_db d mForum f1.1 "post_count" (VInt 1) ;; assert_db d mForum f2.1 "post_count" (VInt 0) ;;
  do d, p2 <- create s mPost (post (key f2) VNull VNull "") d;
  do d, p3 <- create s mPost (post (key f2) VNull VNull "") d;
  assert_db d mForum f1.1 "post_count" (VInt 1) ;; assert_db d mForum f2.1 "post_count" (VInt 2) ;;
  do d, p2 <- save_ s mPost (set_ p2 "forum_id" (key f1)) d;
  assert_db d mForum f1.1 "post_count" (VInt 2) ;; assert_db d mForum f2.1 "post_count" (VInt 1) ;;
  do d <- op_ s (OUpdate tpost [p3.1] (λ r, <["forum_id" := key f1]> r)) d;
  assert_db d mForum f1.1 "post_count" (VInt 3) ;; assert_db d mForum f2.1 "post_count" (VInt 0).
(** 364-379 *)
Definition test_countfield_does_not_write_stale_value (s : session) : res unit :=
  do d, f1 <- create s mForum (forum "forumone" VNull) db0;
  assert_db d mForum f1.1 "post_count" (VInt 0) ;;
  do d, p <- create s mPost (post (key f1) VNull VNull "") d;
  assert_db d mForum f1.1 "post_count" (VInt 1) ;;
  do f1 <- get d mForum f1.1;
  do d, p <- create s mPost (post (key f1) VNull VNull "") d;
  assert_db d mForum f1.1 "post_count" (VInt 2) ;;
  let f1 := set_ f1 "title" (VText "new") in
  ensure (eq_ (col f1.2 "post_count") (VInt 1)) ;;
  do d, f1 <- save_ s mForum f1 d;
  ensure (eq_ (col f1.2 "post_count") (VInt 2)) ;;
  assert_db d mForum f1.1 "post_count" (VInt 2) ;; assert_db d mForum f1.1 "title" (VText "new").
(** 381-403 *)
Definition test_foreignkey (s : session) : res unit :=
  do d, f1 <- create s mForum (forum "forumone" VNull) db0;
  do d, f2 <- create s mForum (forum "forumtwo" VNull) d;
  do d, m1 <- create s mMember (member "first1" "last1") d;
  do d, p1 <- create s mPost (post (key f1) (key m1) VNull "") d;
  do d, a1 <- create s (mAtt false) [("post_id", key p1)] d;
  assert_db d (mAtt false) a1.1 "forum_id" (key f1) ;;
  do d, a2 <- create s (mAtt false) [("post_id", VNull)] d;
  assert_db d (mAtt false) a2.1 "forum_id" VNull ;;
  do d, p1 <- save_ s mPost (set_ p1 "forum_id" (key f2)) d;
  do d <- flush_ s d;
  assert_db d (mAtt false) a1.1 "forum_id" (key f2) ;;
  do d, a3 <- create s (mAtt true) [("post_id", key p1)] d;
  assert_db d (mAtt false) a3.1 "forum_id" (key f2).
(** 405-425 *)
Definition is_author (d : db) (f m : inst) : bool := existsb (λ p : Z * row, eq_ (col p.2 "member_id") (key m)) (related d tau "forum_id" f.1).
Definition test_m2m (s : session) : res unit :=
  do d, f1 <- create s mForum (forum "forumone" VNull) db0;
  do d, m1 <- create s mMember (member "" "memberone") d;
  do d, p1 <- create s mPost (post (key f1) (key m1) VNull "") d;
  do d <- flush_ s d;
  ensure (is_author d f1 m1) ;;
  do d, m2 <- create s mMember (member "" "membertwo") d;
  do d, p2 <- create s mPost (post (key f1) (key m2) VNull "") d;
  do d <- flush_ s d;
  ensure (is_author d f1 m1) ;; ensure (is_author d f1 m2) ;;
  do d <- op_ s (ODelete tpost [p2.1]) d;
  do d <- flush_ s d;
  ensure (negb (is_author d f1 m2)).
(** 427-439 *)
Definition test_denorm_rebuild (s : session) : res unit :=
  do d, f1 <- create s mForum (forum "forumone" VNull) db0;
  do d, m1 <- create s mMember (member "" "memberone") d;
  do d, p1 <- create s mPost (post (key f1) (key m1) VNull "") d;
  do d <- rebuild_ s None None d;
  assert_db d mForum f1.1 "post_count" (VInt 1) ;; ensure (is_author d f1 m1).
(** 441-455 *)
Definition test_denorm_rebuild_called_once (s : session) : res unit :=
  do d, c <- create s mCounter [("called_count", VNull)] db0;
  do d <- flush_ s d;
  assert_db d mCounter c.1 "called_count" (VInt 2) ;;
  do d <- rebuild_ s None None d;
  assert_db d mCounter c.1 "called_count" (VInt 3) ;;
  do d <- rebuild_ s None None d;
  assert_db d mCounter c.1 "called_count" (VInt 4).
(** 457-473 *)
Definition test_denorm_update (s : session) : res unit :=
  do d, f1 <- create s mForum (forum "forumone" VNull) db0;
  do d, m1 <- create s mMember (member "" "memberone") d;
  do d, p1 <- create s mPost (post (key f1) (key m1) VNull "") d;
  do d, a1 <- create s (mAtt false) [("post_id", key p1)] d;
  do d <- rebuild_ s None None d;
  do d, f2 <- create s mForum (forum "forumtwo" VNull) d;
  do d, p1 <- save_ s mPost (set_ p1 "forum_id" (key f2)) d;
  do d <- rebuild_ s (Some "Attachment") (Some "forum") d; pass.
(** 475-514 *)
Definition test_denorm_subclass (s : session) : res unit :=
  do d, f1 <- create s mForum (forum "forumone" VNull) db0;
  do d, m1 <- create s mMember (member "" "memberone") d;
  do d, p1 <- create s mPost (post (key f1) (key m1) VNull "") d;
  ensure (eq_ (col f1.2 "tags_string") (VText "")) ;; ensure (eq_ (col p1.2 "tags_string") (VText "")) ;;
  do d, t1 <- create s mTag (tag "tagone" 10 f1) d;
  do d, t2 <- create s mTag (tag "tagtwo" 10 f1) d;
  do d <- flush_ s d;
  assert_db d mForum f1.1 "tags_string" (VText "tagone, tagtwo") ;; assert_db d mPost p1.1 "tags_string" (VText "") ;;
  do d, t3 <- create s mTag (tag "tagthree" 11 p1) d;
  do d, t4 <- create s mTag (tag "tagfour" 11 p1) d;
  do d <- flush_ s d;
  assert_db d mForum f1.1 "tags_string" (VText "tagone, tagtwo") ;; assert_db d mPost p1.1 "tags_string" (VText "tagfour, tagthree") ;;
  do d, t4 <- save_ s mTag (set_ (set_ t4 "content_type_id" (VInt 10)) "object_id" (key f1)) d;
  do d <- flush_ s d;
  assert_db d mForum f1.1 "tags_string" (VText "tagfour, tagone, tagtwo") ;; assert_db d mPost p1.1 "tags_string" (VText "tagthree").
(** 516-534 *)
Definition test_denorm_delete (s : session) : res unit :=
  do d, t <- create s mTeam [] db0;
  ensure (eq_ (col t.2 "user_string") (VText "")) ;;
  do d, c1 <- create s mComp [("name", VText "tagone"); ("team_id", key t)] d;
  do d, c2 <- create s mComp [("name", VText "tagtwo"); ("team_id", key t)] d;
  do d <- flush_ s d;
  assert_db d mTeam t.1 "user_string" (VText "tagone, tagtwo") ;;
  do d <- op_ s (ODelete "test_app_competitor" [c2.1]) d;
  do d <- flush_ s d;
  assert_db d mTeam t.1 "user_string" (VText "tagone").
(** 536-560 *)
Definition ck (i : inst) : val := col i.2 "cachekey".
Definition test_cache_key_field_backward (s : session) : res unit :=
  do d, f1 <- create s mForum (forum "forumone" VNull) db0;
  do d, f2 <- create s mForum (forum "forumtwo" VNull) d;
  do d, p1 <- create s mPost (post (key f1) VNull VNull "") d;
  do g1 <- get d mForum f1.1; do g2 <- get d mForum f2.1;
  ensure (ne (ck f1) (ck g1)) ;; ensure (eq_ (ck f2) (ck g2)) ;;
  do p1 <- get d mPost p1.1;
  do d, p1 <- save_ s mPost (set_ p1 "forum_id" (key f2)) d;
  do h1 <- get d mForum f1.1; do h2 <- get d mForum f2.1;
  ensure (ne (ck g1) (ck h1)) ;; ensure (ne (ck g2) (ck h2)).
(** 562-586 *)
Definition test_cache_key_field_forward (s : session) : res unit :=
  do d, f1 <- create s mForum (forum "forumone" VNull) db0;
  do d, p1 <- create s mPost (post (key f1) VNull VNull "initial_title") d;
  do d, a1 <- create s (mAtt false) [("post_id", key p1)] d;
  do d, a2 <- create s (mAtt false) [("post_id", key p1)] d;
  do b1 <- get d (mAtt false) a1.1; do b2 <- get d (mAtt false) a2.1;
  ensure (ne (ck b1) (ck b2)) ;;
  do d, p1 <- save_ s mPost (set_ p1 "title" (VText "new_title")) d;
  do c1 <- get d (mAtt false) a1.1; do c2 <- get d (mAtt false) a2.1;
  ensure (ne (ck b1) (ck c1)) ;; ensure (ne (ck b2) (ck c2)) ;; ensure (ne (ck c1) (ck c2)).
(** 588-610 *)
Definition test_cache_key_field_m2m (s : session) : res unit :=
  do d, f1 <- create s mForum (forum "forumone" VNull) db0;
  do d, m1 <- create s mMember (member "" "memberone") d;
  do d, p1 <- create s mPost (post (key f1) VNull VNull "initial_title") d;
  do n0 <- get d mMember m1.1;
  do d <- op_ s (OInsert tbm [(1, rowof [("member_id", key m1); ("post_id", key p1)])]) d;
  do n1 <- get d mMember m1.1;
  ensure (ne (ck n0) (ck n1)) ;;
  do p1 <- get d mPost p1.1;
  do d, p1 <- save_ s mPost (set_ p1 "title" (VText "new_title")) d;
  do n2 <- get d mMember m1.1;
  ensure (ne (ck n1) (ck n2)).
(** 613-655 (not on SQLite) *)
Definition fc_item (m : inst) (a : Z) (t : string) := [("parent_id", key m); ("active", VInt a); ("text", VText t)].
Definition fci := "test_app_filtercountitem".
Definition test_filter_count (s : session) : res unit :=
  do d, m <- create s mFCount [] db0;
  let count := λ (d : db) (n : Z), assert_db d mFCount m.1 "active_item_count" (VInt n) in
  ensure (eq_ (col m.2 "active_item_count") (VInt 0)) ;;
  do d, i1 <- create s mFCItem (fc_item m 1 "text") d;
  do d, i2 <- create s mFCItem (fc_item m 1 "") d;
  count d 1 ;;
  do d, i3 <- create s mFCItem (fc_item m 0 "") d;
  count d 1 ;;
  do d, i4 <- create s mFCItem (fc_item m 1 "true") d;
  count d 2 ;;
  do d <- op_ s (ODelete fci [i3.1]) d;
  count d 2 ;;
  do d <- op_ s (ODelete fci [i4.1]) d;
  count d 1 ;;
  do i <- get d mFCItem i1.1;
  do d, i <- save_ s mFCItem (set_ i "active" (VInt 0)) d;
  count d 0 ;;
  do d, i <- save_ s mFCItem (set_ (set_ i "active" (VInt 1)) "text" (VText "")) d;
  count d 0 ;;
  do i <- get d mFCItem i1.1;
  do d, i <- save_ s mFCItem (set_ i "text" (VText "123")) d;
  count d 1.
(** 657-690 (not on SQLite) *)
Definition test_filter_count_m2m (s : session) : res unit :=
  do d, m <- create s mFCount [] db0;
  let count := λ (d : db) (n : Z), assert_db d mFCount m.1 "active_item_count" (VInt n) in
  do d, i1 <- create s mFCItem (fc_item m 1 "true") d;
  count d 1 ;;
  do d, i2 <- create s mFCItem (fc_item m 0 "true") d;
  count d 1 ;;
  do d, i3 <- create s mFCItem (fc_item m 1 "true") d;
  count d 2 ;;
  do d <- op_ s (ODelete fci [i2.1]) d;
  count d 2 ;;
  do d <- op_ s (ODelete fci [i1.1]) d;
  count d 1 ;;
  do i <- get d mFCItem i3.1;
  do d, i <- save_ s mFCItem (set_ i "active" (VInt 0)) d;
  count d 0 ;;
  do i <- get d mFCItem i3.1;
  do d, i <- save_ s mFCItem (set_ i "active" (VInt 1)) d;
  count d 1.
(** 692-725 (not on SQLite) *)
Definition fs_item (m : inst) (a n : Z) := [("parent_id", key m); ("age", VInt a); ("active_item_count", VInt n)].
Definition fsi := "test_app_filtersumitem".
Definition test_filter_sum (s : session) : res unit :=
  do d, m <- create s mFSum [] db0;
  let total := λ (d : db) (n : Z), assert_db d mFSum m.1 "active_item_sum" (VInt n) in
  ensure (eq_ (col m.2 "active_item_sum") (VInt 0)) ;;
  do d, i1 <- create s mFSItem (fs_item m 18 8) d;
  total d 8 ;;
  do d, i2 <- create s mFSItem (fs_item m 16 10) d;
  total d 8 ;;
  do d, i3 <- create s mFSItem (fs_item m 19 9) d;
  total d 17 ;;
  do d <- op_ s (ODelete fsi [i2.1]) d;
  total d 17 ;;
  do d <- op_ s (ODelete fsi [i3.1]) d;
  total d 8 ;;
  do i <- get d mFSItem i1.1;
  do d, i <- save_ s mFSItem (set_ i "age" (VInt 15)) d;
  total d 0 ;;
  do i <- get d mFSItem i1.1;
  do d, i <- save_ s mFSItem (set_ i "age" (VInt 18)) d;
  total d 8.

Definition all_tests (b : backend) : list (session → res unit) :=
  [ test_cached; test_abstract; test_with_skip; test_meta_skip; test_depends_related; test_dependency_chains; test_trees;
    test_reverse_fk_null; test_bulk_update; test_no_dependency; test_self_backward_relation; test_m2m_relation; test_countfield;
    test_countfield_does_not_write_stale_value; test_foreignkey; test_m2m; test_denorm_rebuild; test_denorm_rebuild_called_once;
    test_denorm_update; test_denorm_subclass; test_denorm_delete; test_cache_key_field_backward; test_cache_key_field_forward;
    test_cache_key_field_m2m ] ++
  match b with SQLite => [] | _ => [test_filter_count; test_filter_count_m2m; test_filter_sum] end.
(** On a database in which install_triggers() has installed the triggers. *)
Definition run_tests (b : backend) (imm : bool) (ord : db → list marker → list marker) : res (list (res unit)) :=
  let* E := mk_env b (test_app b false false) rand0 imm 20 in
  Ok ((λ t : session → res unit, t (Session b E ord)) <$> all_tests b).
