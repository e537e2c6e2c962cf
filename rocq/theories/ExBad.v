(** * Schemas and histories on which promises of the code fail.
    Each one is small; all conditions that do hold are proved beside it. *)
From Verif Require Import Base BaseLemmas Schema TrigSet Gen Exec Orm Flush Spec GenLemmas Check ExForum.

Definition env_of (b : backend) (S : schema) (imm : bool) : env :=
  match mk_env b S rand0 imm 10 with Ok E => E | Err _ => Env b (λ _, "id") [] rand0 [] imm 10 end.

(** ** A callback reading a computed column declared after it *)
Definition cb_copy (c : string) : callback := λ _ _ r, Ok (PVal (col r c)).
Lemma cb_copy_reads S m c : reads_only S m (cb_copy c) (Reads [c] []).
Proof. intros d d' k r r' Ho _. unfold cb_copy. rewrite (Ho c); [done|]. simpl. by left. Qed.
Definition oo_f : field := cbf "f" "A" (cb_copy "g") [] [].
Definition oo_g : field := cbf "g" "A" (cb_copy "x") [] [].
Definition OoA : model := mkmodel "A" "a" 20 [plain "x" "A"; oo_f; oo_g] [].
Definition OO : schema := Schema [OoA] false.
Definition oo_rds (m : model) (f : field) : reads := Reads [if decide (f_col f = "f") then "g" else "x"] [].
Lemma OO_trackable b : trackable OO (λ _, 0%nat) true b.
Proof. apply trackableb_spec. by vm_compute. Qed.
Lemma OO_covered : all_covered OO.
Proof.
  apply (coverb_all _ oo_rds); [by vm_compute|]. intros m f fn ds sk Hm Hf Hk.
  simpl in Hm. apply elem_of_list_singleton in Hm as ->. simpl in Hf.
  repeat (apply elem_of_cons in Hf as [->|Hf]); [..|by apply elem_of_nil in Hf]; simpl in Hk; try discriminate Hk;
    injection Hk as <- <- <-; apply cb_copy_reads.
Qed.
Definition oo_ops : list op := [OSave "A" None (rowof [("x", VInt 1)])].
Definition upd_x2 : list op := [OUpdate "a" [1] (λ r, <["x" := VInt 2]> r)].
(** A history, a flush, another history. *)
Definition hist2 (b : backend) (S : schema) (ops1 ops2 : list op) : db :=
  let E := env_of b S true in foldl (step E S) (flush E S id_ord 5 (foldl (step E S) d0 ops1)).1 ops2.
Definition oo_d (b : backend) : db := hist2 b OO oo_ops upd_x2.

(** ** A row related to itself *)
(** def f(self): return self.parent.g *)
Definition cb_parent_g : callback := λ d _ r,
  match col r "parent_id" with
  | VInt j => match getrow d "a" j with Some p => Ok (PVal (col p "g")) | None => Ok (PVal VNull) end
  | _ => Ok (PVal VNull)
  end.
Definition sr_dep : dep := Dep "A" (RelForward "parent_id") [].
Definition SrA : model := mkmodel "A" "a" 20
  [plain "x" "A"; fkf "parent" "A" "A"; oo_g; cbf "f" "A" cb_parent_g [sr_dep] []] [].
Definition SR : schema := Schema [SrA] false.
Definition sr_rds (m : model) (f : field) : reads :=
  if decide (f_col f = "g") then Reads ["x"] [] else Reads ["parent_id"] [(sr_dep, ["g"])].
Lemma SR_flushable : flushable SR (λ _, 0%nat) true.
Proof.
  apply (flushableb_spec _ _ _ sr_rds); [by vm_compute| |].
  - intros m r Hm. by apply elem_of_list_singleton in Hm as ->.
  - intros m f fn ds sk Hm Hf Hk. simpl in Hm. apply elem_of_list_singleton in Hm as ->. simpl in Hf.
    repeat (apply elem_of_cons in Hf as [->|Hf]); [..|by apply elem_of_nil in Hf]; simpl in Hk; try discriminate Hk;
      injection Hk as <- <- <-; [apply cb_copy_reads|].
    intros d d' k r r' Ho Hv. specialize (Hv _ _ (elem_of_list_here _ _)). specialize (Ho _ (elem_of_list_here _ _)).
    unfold dep_view in Hv. simpl in Hv. unfold cb_parent_g. rewrite Ho in *. destruct (col r' "parent_id") as [|j|]; [done| |done].
    injection Hv as Hv. destruct (getrow d "a" j) as [x|], (getrow d' "a" j) as [y|]; try done. simpl in Hv. injection Hv as Hv. by rewrite Hv.
Qed.
Definition sr_ops : list op :=
  [ OSave "A" None (rowof [("x", VInt 1); ("parent_id", VNull)]);
    OUpdate "a" [1] (λ r, <["parent_id" := VInt 1]> r) ].
Definition sr_d (b : backend) : db := hist2 b SR sr_ops upd_x2.
