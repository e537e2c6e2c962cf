(** * A concrete schema used in examples: forums, posts, members, tags.
    It is a cut-down version of /repo/test_denorm_project/test_app/models.py:
    Forum.post_count (CountField), Post.forum_title (forward dependency),
    Forum.author_names (backward dependency), Member.bookmark_titles (m2m). *)
From Verif Require Import Base Schema TrigSet Gen Exec Orm Flush.

Definition plain (n : string) (owner : string) : field := Field n n n None owner KPlain.
Definition fkf (n : string) (to owner : string) : field := Field n (n +:+ "_id") (n +:+ "_id") (Some to) owner KPlain.
Definition cbf (n : string) (owner : string) (fn : callback) (ds : list dep) (skip : list string) : field :=
  Field n n n None owner (KCallback fn ds skip).
Definition aggf (n owner : string) (a : agg) : field := Field n n n None owner (KAgg a).
Definition ckf (n owner : string) (ds : list dep) : field := Field n n n None owner (KCacheKey ds).
Definition mkmodel (n t : string) (ct : Z) (fs : list field) (mms : list m2m) : model :=
  Model n "app" t "id" ct false false fs mms [] (λ _, true) (λ _, true).

Definition rowof (l : list (string * val)) : row := list_to_map l.

(** def forum_title(self): return self.forum.title *)
Definition forum_title : callback := λ d _ r,
  match col r "forum_id" with
  | VInt k => match getrow d "forum" k with Some f => Ok (PVal (col f "title")) | None => Err (EUser 1) end
  | _ => Ok (PVal VNull)
  end.
(** the sum of the scores of the posts, computed in Python *)
Definition score_total : callback := λ d pk r,
  match pk with
  | None => Ok (PVal (VInt 0))
  | Some k => Ok (PVal (VInt (map_fold (λ _ p acc,
      match col p "forum_id", col p "score" with
      | VInt k', VInt s => if decide (k' = k) then s + acc else acc
      | _, _ => acc end) 0 (tab d "post"))))
  end.

Definition Forum : model := mkmodel "Forum" "forum" 10
  [ plain "title" "Forum";
    aggf "post_count" "Forum" (Agg "Post" "forum_id" [] [] None []);
    aggf "score_sum" "Forum" (Agg "Post" "forum_id" [] [] (Some "score") []);
    cbf "total" "Forum" score_total [Dep "Post" (RelBackward "forum_id") []] [];
    ckf "ck" "Forum" [Dep "Post" (RelBackward "forum_id") []] ] [].
Definition Post : model := mkmodel "Post" "post" 11
  [ fkf "forum" "Forum" "Post"; plain "score" "Post";
    cbf "forum_title" "Post" forum_title [Dep "Forum" (RelForward "forum_id") []] [] ] [].
Definition FS : schema := Schema [Forum; Post] false.

Definition rand0 (n : nat) : Z := 1000 + Z.of_nat n.
Definition FE (b : backend) : env :=
  match mk_env b FS rand0 true 10 with Ok E => E | Err _ => Env b (λ _, "id") [] rand0 [] true 10 end.
Definition d0 : db := Db ∅ [] 0 0.
Definition id_ord (_ : db) (l : list marker) : list marker := l.

Definition ops1 : list op :=
  [ OSave "Forum" (Some 1) (rowof [("title", VText "a"); ("ck", VInt 0)]) ].
Definition ops2 : list op :=
  [ OInsert "forum" [(1, rowof [("title", VText "a"); ("ck", VInt 0); ("post_count", VInt 0); ("score_sum", VInt 0)])];
    OSave "Post" None (rowof [("forum_id", VInt 1); ("score", VInt 5)]);
    OSave "Post" None (rowof [("forum_id", VInt 1); ("score", VInt 7)]);
    OUpdate "forum" [1] (λ r, <["title" := VText "b"]> r) ].

Definition show (d : db) := ((λ p : string * table, (p.1, (λ q : Z * row, (q.1, map_to_list q.2)) <$> map_to_list p.2)) <$> map_to_list (d_tabs d), d_dirty d).
