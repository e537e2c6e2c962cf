(** * Examples for save(update_fields=…) and loaddata, on the schema [QS] of ExSave.v. *)
From Verif Require Import Base BaseLemmas Schema TrigSet Gen Exec Orm Flush Spec SpecAgg SpecOrder SpecSave GenLemmas Check ExForum ExBad ExAgg CheckOrder ExTree CheckSave ExSave SaveModes.

Lemma QS_flushable : flushable (QS false) q_rank true.
Proof. destruct (QS_savable false). by split. Qed.

Definition ok_db (x : res db) : db := match x with Ok d => d | Err _ => d0 end.
Definition okb {A} (x : res A) : bool := match x with Ok _ => true | Err _ => false end.
Lemma ok_db_ok x : okb x = true → x = Ok (ok_db x). Proof. by destruct x. Qed.
Definition ok_pair (x : res (db * row)) : db * row := match x with Ok p => p | Err _ => (d0, ∅) end.
Lemma ok_pair_ok x : okb x = true → x = Ok (ok_pair x). Proof. by destruct x. Qed.

(** Forum 2 with a new title, saved with update_fields=["title"]. *)
Definition q_fields (b : backend) (u : bool) (names : list string) : db * row :=
  ok_pair (save_fields (env_of b (QS u) true) QForum 2 names (<["title" := VText "w"]> (q_row b u)) (qd b u)).
Lemma q_fields_ok b u : save_fields (env_of b (QS u) true) QForum 2 ["title"] (<["title" := VText "w"]> (q_row b u)) (qd b u) = Ok (q_fields b u ["title"]).
Proof. apply ok_pair_ok. destruct b, u; vm_compute; reflexivity. Qed.
Lemma q_fields2_ok b u : save_fields (env_of b (QS u) true) QForum 2 ["title"; "post_count"; "path"] (<["title" := VText "w"]> (q_row b u)) (qd b u) =
  Ok (q_fields b u ["title"; "post_count"; "path"]).
Proof. apply ok_pair_ok. destruct b, u; vm_compute; reflexivity. Qed.

(** Foreign keys are checked after loading only. *)
Definition QL (b : backend) : env := env_of b (QS false) false.
Lemma QL_ok b : mk_env b (QS false) rand0 false 10 = Ok (QL b).
Proof. destruct b; vm_compute; reflexivity. Qed.
Definition q_count : agg := Agg "Post" "forum_id" [] [] None ["stamp"].
Definition q_cf : field := aggf "post_count" "Forum" q_count.
Lemma QS_count u : agg_field (QS u) QForum q_cf q_count QPost.
Proof. apply agg_fieldb_spec; [simpl; set_solver|simpl; set_solver|done|done|destruct u; by vm_compute]. Qed.
Definition q_loaded (b : backend) (rev : bool) : db :=
  ok_db (loaddata (QL b) (QS false) (if rev then reverse (dump (QS false) (qd b false)) else dump (QS false) (qd b false)) d0).
Lemma q_loaded_ok b (rev : bool) :
  loaddata (QL b) (QS false) (if rev then reverse (dump (QS false) (qd b false)) else dump (QS false) (qd b false)) d0 = Ok (q_loaded b rev).
Proof. apply ok_db_ok. destruct b, rev; vm_compute; reflexivity. Qed.
Definition agg_exactb (m : model) (f : field) (a : agg) (rel : model) (d : db) : bool :=
  forallb (λ p : Z * row, bool_decide (col p.2 (f_col f) = VInt (agg_value d rel a p.1))) (map_to_list (tab d (m_table m))).
Lemma agg_exactb_spec m f a rel d : agg_exactb m f a rel d = true ↔ agg_exact m f a rel d.
Proof.
  unfold agg_exactb. rewrite forallb_forall. split.
  - intros H k r Hr. specialize (H (k, r)). apply bool_decide_eq_true in H; [done|]. by apply elem_of_list_In, elem_of_map_to_list.
  - intros H [k r] Hin%elem_of_list_In%elem_of_map_to_list. apply bool_decide_eq_true. by apply H.
Qed.
(** The environment before denorm_init: no triggers. *)
Definition QN (b : backend) : env := Env b (pk_of_table (QS false)) [] rand0 (schema_fks (QS false)) false 10.
