(** * More schemas and histories on which promises of the code fail. *)
From Verif Require Import Base BaseLemmas Schema TrigSet Gen Exec Orm Flush Spec GenLemmas Check ExForum ExBad.

#[global] Instance db_eq_dec : EqDecision db.
Proof. solve_decision. Defined.

(** ** A dependency cycle without a solution: A.f = 1 - B.g, B.g = A.f *)
Definition one_minus (v : val) : val := match v with VInt z => VInt (1 - z) | _ => VInt 0 end.
Definition cb_f : callback := λ d _ r,
  match col r "b_id" with
  | VInt j => match getrow d "b" j with Some x => Ok (PVal (one_minus (col x "g"))) | None => Ok (PVal VNull) end
  | _ => Ok (PVal VNull)
  end.
Definition cb_g : callback := λ d pk _,
  Ok (PVal (match list_find (λ p : Z * row, Some (col p.2 "b_id") = VInt <$> pk) (map_to_list (tab d "a")) with
            | Some (_, (_, x)) => col x "f" | None => VNull end)).
Definition cy_a : model := mkmodel "A" "a" 20 [fkf "b" "B" "A"; cbf "f" "A" cb_f [Dep "B" (RelForward "b_id") []] []] [].
Definition cy_b : model := mkmodel "B" "b" 21 [cbf "g" "B" cb_g [Dep "A" (RelBackward "b_id") []] []] [].
Definition CY : schema := Schema [cy_a; cy_b] false.
Definition cy_ops : list op := [OInsert "b" [(1, rowof [("g", VInt 0)])]; OInsert "a" [(1, rowof [("b_id", VInt 1); ("f", VInt 0)])]].
Definition cy_pass (b : backend) (d : db) : db := (flush_pass (env_of b CY true) CY (snapshot (env_of b CY true) id_ord d) d).1.
Definition cy_d (b : backend) : db := foldl (step (env_of b CY true) CY) d0 cy_ops.

(** If passing through the loop from [d] comes back to [d], flush does not stop. *)
Lemma flush_cycle E S ord p (ds : list db) : (∀ x, x ∈ ds → d_dirty x ≠ [] ∧ flush_pass E S (snapshot E ord x) x = (p x, Done) ∧ p x ∈ ds) →
  ∀ n x, x ∈ ds → (flush E S ord n x).2 = Running.
Proof.
  intros H n. induction n as [|n IH]; intros x Hx; [done|]. destruct (H x Hx) as (H1 & H2 & H3). simpl. rewrite decide_False by done. rewrite H2. by apply IH.
Qed.

(** ** A denormalized ManyToManyField whose dependency changes *)
(** def members(self): return Person.objects.filter(team=self, active=1); team is a ForeignKey *)
Definition fn_members : m2m_callback := λ d pk _,
  Ok ((filter (λ p : Z * row, Some (col p.2 "team_id") = VInt <$> pk ∧ col p.2 "active" = VInt 1) (map_to_list (tab d "person"))).*1).
Definition mm_members : m2m := M2M "members" "Person" "team_members" "team_id" "person_id"
  (Some (fn_members, [Dep "Person" (RelBackward "team_id") []])).
Definition mm_team : model := mkmodel "Team" "team" 20 [plain "name" "Team"] [mm_members].
Definition mm_person : model := mkmodel "Person" "person" 21 [fkf "team" "Team" "Person"; plain "active" "Person"] [].
Definition MM : schema := Schema [mm_team; mm_person] false.
Definition mm_ops : list op :=
  [ OSave "Team" None (rowof [("name", VText "t")]);
    OInsert "person" [(1, rowof [("team_id", VInt 1); ("active", VInt 1)]); (2, rowof [("team_id", VInt 1); ("active", VInt 0)])];
    OSave "Team" (Some 1) (rowof [("name", VText "t")]);
    OUpdate "person" [2] (λ r, <["active" := VInt 1]> r) ].
Definition linked (d : db) (mm : m2m) (k : Z) : list val := (links d mm k).*2.

(** ** A ForeignKey with to_field: the column holds the slug, not the key *)
Definition cb_slug : callback := λ d _ r,
  Ok (PVal (match map_to_list (filter (λ p : Z * row, col p.2 "slug" = col r "tag_id") (tab d "tag")) with
            | (_, x) :: _ => col x "title" | [] => VNull end)).
Definition tf_tag : model := mkmodel "Tag" "tag" 20 [plain "slug" "Tag"; plain "title" "Tag"] [].
(** The constraint of the key is left out, the model only knows keys to primary keys. *)
Definition tf_doc : model := mkmodel "Doc" "doc" 21
  [Field "tag" "tag_id" "tag_id" None "Doc" KPlain; cbf "t" "Doc" cb_slug [Dep "Tag" (RelForward "tag_id") []] []] [].
Definition TF : schema := Schema [tf_tag; tf_doc] false.
Definition tf_ops : list op := [OInsert "tag" [(1, rowof [("slug", VInt 10); ("title", VText "a")])]; OSave "Doc" None (rowof [("tag_id", VInt 10)])].
Definition tf_upd : list op := [OUpdate "tag" [1] (λ r, <["title" := VText "b"]> r)].
Definition tf_d (b : backend) : db := hist2 b TF tf_ops tf_upd.

(** ** Depending on the object a GenericRelation comes from *)
Definition cb_target : callback := λ d _ r,
  Ok (PVal (match col r "ct_id", col r "oid" with
            | VInt 20, VInt k => match getrow d "forum" k with Some x => col x "title" | None => VNull end
            | _, _ => VNull end)).
Definition gb_forum : model := mkmodel "Forum" "forum" 20 [plain "title" "Forum"] [].
Definition gb_tag : model := mkmodel "Tag" "tag" 21
  [plain "ct_id" "Tag"; plain "oid" "Tag"; cbf "t" "Tag" cb_target [Dep "Forum" (RelGenBackward "ct_id" "oid") []] []] [].
Definition GB : schema := Schema [gb_forum; gb_tag] false.
Definition gb_ops : list op := [OInsert "forum" [(1, rowof [("title", VText "a")])]; OSave "Tag" None (rowof [("ct_id", VInt 20); ("oid", VInt 1)])].
Definition gb_upd : list op := [OUpdate "forum" [1] (λ r, <["title" := VText "b"]> r)].
Definition gb_d (b : backend) : db := hist2 b GB gb_ops gb_upd.

(** ** A callback reading a CountField over a self relation *)
Definition sc_node : model := mkmodel "Node" "node" 20
  [fkf "parent" "Node" "Node"; aggf "kids" "Node" (Agg "Node" "parent_id" [] [] None []); cbf "y" "Node" (cb_copy "kids") [] []] [].
Definition SC : schema := Schema [sc_node] false.
Definition sc_row (p : val) : row := rowof [("parent_id", p); ("kids", VInt 0); ("y", VInt 0)].
Definition sc_ops : list op := [OInsert "node" [(1, sc_row VNull); (2, sc_row VNull); (3, sc_row VNull)]].
Definition sc_upd : list op := [OUpdate "node" [3] (λ r, <["parent_id" := VInt 1]> r)].
Definition sc_d (b : backend) : db := hist2 b SC sc_ops sc_upd.

(** ** Multi-table inheritance: the title lives in the parent's table *)
Definition cb_inh : callback := λ d pk _,
  Ok (PVal (match pk ≫= getrow d "place" with Some x => col x "title" | None => VNull end)).
Definition mi_place : model := mkmodel "Place" "place" 20 [plain "title" "Place"] [].
Definition mi_bar : model := mkmodel "Bar" "bar" 21 [plain "title" "Place"; plain "beer" "Bar"; cbf "y" "Bar" cb_inh [] []] [].
Definition MI : schema := Schema [mi_place; mi_bar] false.
Definition mi_ops : list op := [OInsert "place" [(1, rowof [("title", VText "a")])]; OInsert "bar" [(1, rowof [("beer", VInt 1)])]].
Definition mi_upd : list op := [OUpdate "place" [1] (λ r, <["title" := VText "b"]> r)].
Definition mi_d (b : backend) : db := hist2 b MI mi_ops mi_upd.
