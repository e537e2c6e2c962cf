(** * Schemas with skip lists (README "skip", denorm_always_skip). *)
From Verif Require Import Base BaseLemmas Schema TrigSet Gen Exec Orm Flush Spec GenLemmas Check ExForum ExBad.

Definition mkskip (n t : string) (ct : Z) (fs : list field) (always : list string) : model :=
  Model n "app" t "id" ct false false fs [] always (λ _, true) (λ _, true).

(** ** Everything watching table "item" leaves the column "views" out *)
Definition sk_parent : model := mkskip "Parent" "parent" 30
  [ aggf "items" "Parent" (Agg "Item" "parent_id" [] [] None []); ckf "ck" "Parent" [Dep "Item" (RelBackward "parent_id") ["views"]] ] [].
Definition sk_item : model := mkskip "Item" "item" 31
  [ fkf "parent" "Parent" "Item"; plain "x" "Item"; plain "views" "Item"; cbf "y" "Item" (cb_copy "x") [] [] ] ["views"].
Definition SK : schema := Schema [sk_parent; sk_item] false.
Definition sk_ops : list op :=
  [ OSave "Parent" None ∅; OSave "Item" None (rowof [("parent_id", VInt 1); ("x", VInt 5); ("views", VInt 0)]);
    OSave "Item" None (rowof [("parent_id", VInt 1); ("x", VInt 6); ("views", VInt 0)]) ].
Definition sk_d (b : backend) : db := hist2 b SK sk_ops [].
Definition sk_g (r : row) : row := <["views" := VInt 9]> r.
Lemma SK_wf : wf_schema SK. Proof. apply wf_schemab_spec. by vm_compute. Qed.

(** ** denorm_always_skip together with a skip list of the field *)
Definition as_a : model := mkskip "A" "a" 20
  [ plain "x" "A"; plain "views" "A"; plain "note" "A"; cbf "y" "A" (cb_copy "x") [] ["note"] ] ["views"].
Definition AS : schema := Schema [as_a] false.
Definition as_ops : list op := [ OSave "A" None (rowof [("x", VInt 1); ("views", VInt 0); ("note", VNull)]) ].
Definition as_d (b : backend) : db := hist2 b AS as_ops [].

(** ** Two fields of one model, the first with a skip list *)
Definition mg_y : field := cbf "y" "A" (cb_copy "x") [] ["z"].
Definition mg_w : field := cbf "w" "A" (cb_copy "z") [] [].
Definition mg_a : model := mkskip "A" "a" 20 [ plain "x" "A"; plain "z" "A"; mg_y; mg_w ] [].
Definition MG : schema := Schema [mg_a] false.
(** The same declarations in the other order. *)
Definition mg_b : model := mkskip "A" "a" 20 [ plain "x" "A"; plain "z" "A"; mg_w; mg_y ] [].
Definition MG' : schema := Schema [mg_b] false.
Definition mg_ops : list op := [ OSave "A" None (rowof [("x", VInt 1); ("z", VInt 2)]) ].
Definition upd_z : op := OUpdate "a" [1] (λ r, <["z" := VInt 3]> r).
(** ** MySQL: a skip list naming every column including the key *)
Definition all_a : model := mkskip "A" "a" 20 [ plain "x" "A"; cbf "y" "A" (cb_copy "x") [] ["id"; "x"; "y"] ] [].
Definition ALL : schema := Schema [all_a] false.
Definition all_ops : list op := [ OSave "A" None (rowof [("x", VInt 1)]) ].
