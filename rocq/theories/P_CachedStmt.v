(** * @cached attributes are current after statements on related rows (C150). *)
From Verif Require Import Base BaseLemmas Schema TrigSet Gen Exec Orm Flush Spec Sessions Hist Check ExForum KeyDraw KeyObs SaveKey KeysApart CachedDb CachedStmt P_Key P_KeysApart P_CachedDb.

(** [reads_related], [declared_related]: the function looks only at watched columns of rows reached
    through declared dependencies (every kind but the target of a generic foreign key).
    [leaves_row]: a statement that leaves the row in place and does not assign its key or the
    foreign keys that are followed.  Up to [d] anything may have happened, also reads, as long as
    what the function returns had changed with the key only.  Then the statements [os] are run on
    whatever tables, failing or not: no flush is needed for the attribute to show the current value. *)
Theorem cached_current_after_statements b S rand imm depth E rank m f ds fn via k os d vs ca :
  mk_env b S rand imm depth = Ok E → trackable S rank imm b → (∀ i j, rand i = rand j → i = j) →
  m ∈ s_models S → f ∈ m_fields m → f_kind f = KCacheKey ds →
  reads_related S m (fn (m_table m) (f_col f)) via → declared_related S ds via →
  Forall (leaves_row S m f via k) os → xrun S rand E fn (d :: vs) ca → links_ok S d → is_Some (getrow d (m_table m) k) →
  key_follows fn (m_table m) (f_col f) k (d :: vs) → let d' := foldl (hstep E S) d (HOp <$> os) in
  (cached_read fn ca d' (m_table m) (f_col f) k).1 = Some (fn (m_table m) (f_col f) d' k).
Proof.
  exact (λ HE Htk Hinj Hm Hf Hk Hrd Hdecl, stmts_current b S rand imm depth E rank HE Htk Hinj m f ds Hm Hf Hk fn via Hrd Hdecl k os d vs ca).
Qed.
Print Assumptions cached_current_after_statements.

(** Documents show something computed from the name of the author and the bodies of the sections. *)
Definition cs_via : list (dep * list string) := [(dep_author, ["name"]); (dep_sections, ["body"])].
Definition cs_fn (t c : string) (d : db) (k : Z) : Z :=
  (if bool_decide (cellv d "doc" k "author_id" ≫= (λ v, match v with VInt j => cellv d "author" j "name" | _ => None end) = Some (VText "z")) then 20 else 10) +
  Z.of_nat (size (omap (λ r : row, if decide (col r "doc_id" = VInt k) then Some (cols_of ["body"] r) else None) (tab d "section"))).
Lemma dvrow_inj x y : DVRow x = DVRow y → x = y. Proof. by intros [=]. Qed.
Lemma dvrows_inj x y : DVRows x = DVRows y → x = y. Proof. by intros [=]. Qed.
Lemma cs_reads t c : reads_related KS KDoc (cs_fn t c) cs_via.
Proof.
  intros d d' k r r' Hr Hr' Hv. simpl in Hr, Hr'. unfold cs_fn.
  pose proof (Hv dep_author ["name"] ltac:(left)) as V1. pose proof (Hv dep_sections ["body"] ltac:(right; left)) as V2. clear Hv.
  unfold key_view, dep_view in V1, V2.
  change (find_model KS (dep_other dep_author)) with (Some KAuthor) in V1. change (find_model KS (dep_other dep_sections)) with (Some KSection) in V2.
  cbn [dep_rel dep_author dep_sections m_table KAuthor KSection mkmodel] in V1, V2. 
  apply dvrow_inj in V1. apply dvrows_inj in V2. rewrite V2. clear V2. f_equal.
  assert (Heq : ∀ x rx, getrow x "doc" k = Some rx → (cellv x "doc" k "author_id" ≫= (λ v, match v with VInt j => cellv x "author" j "name" | _ => None end)) =
    (match col rx "author_id" with VInt j => cols_of ["name"] <$> getrow x "author" j | _ => None end) ≫= head).
  { intros x rx Hx. unfold cellv. rewrite Hx. simpl. destruct (col rx "author_id") as [|j|]; [done| |done]. by destruct (getrow x "author" j). }
  rewrite (Heq _ _ Hr), (Heq _ _ Hr'), V1. done.
Qed.
Definition cs_ops : list op := [op_author; OInsert "section" [(9, rowof [("doc_id", VInt 1); ("body", VText "new")])]; OUpdate "doc" [1; 2] (λ r, <["title" := VText "u"]> r);
  ODelete "section" [1]; OInsert "section" [(10, rowof [("doc_id", VInt 1); ("body", VText "new")])]].
Definition cs_ca (b : backend) : gmap Z Z := (cached_read cs_fn ∅ (kd b) "doc" "ck" 1).2.
Definition cs_end (b : backend) : db := foldl (hstep (KE b) KS) (kd b) (HOp <$> cs_ops).
Example cached_current_ex b : trackable KS krank true b ∧ (∀ i j, rand0 i = rand0 j → i = j) ∧ reads_related KS KDoc (cs_fn "doc" "ck") cs_via ∧
  declared_related KS kdeps cs_via ∧ Forall (leaves_row KS KDoc f_key cs_via 1) cs_ops ∧ xrun KS rand0 (KE b) cs_fn (kd b :: cd_vs b) (cs_ca b) ∧
  links_ok KS (kd b) ∧ bool_decide (is_Some (getrow (kd b) "doc" 1)) = true ∧ key_follows cs_fn "doc" "ck" 1 (kd b :: cd_vs b) ∧
  (cached_read cs_fn ∅ (kd b) "doc" "ck" 1).1 = Some 11 ∧ (cached_read cs_fn (cs_ca b) (cs_end b) "doc" "ck" 1).1 = Some 22.
Proof.
  assert (Hck : key_cell KS "doc" "ck") by (exists KDoc, f_key, kdeps; split; [by left|]; split; [do 2 right; left|done]).
  split; [apply KS_trackable|]. split; [unfold rand0; intros; lia|]. split; [apply cs_reads|]. split; [|split; [|split; [|split; [apply kd_links|split; [comp|split; [|split; comp]]]]]].
  - intros dp cs Hin. apply elem_of_cons in Hin as [[= -> ->]|Hin]; [|apply elem_of_list_singleton in Hin as [= -> ->]].
    + split; [left|]. exists KAuthor. split; [done|]. split; [|done]. intros c ->%elem_of_list_singleton. apply trackedb_spec. by vm_compute.
    + split; [right; left|]. exists KSection. split; [done|]. split; [intros c ->%elem_of_list_singleton|]; apply trackedb_spec; by vm_compute.
  - repeat (apply Forall_cons; split); [..|by apply Forall_nil].
    all: split; [|split]; simpl; try done.
    all: try (intros c Hc; apply KS_cells in Hc as [Hc _]; done).
    all: try (intros r c Hc; apply KS_cells in Hc as [Ht ->]; first [discriminate Ht|by rewrite col_insert_ne]).
    all: try (intros _ _ r c Hc; apply elem_of_list_singleton in Hc as ->; by rewrite col_insert_ne).
    all: intros dp cs Hin _ _ r c Hc; apply elem_of_cons in Hin as [[= -> ->]|Hin]; [|apply elem_of_list_singleton in Hin as [= -> ->]]; simpl in Hc;
      repeat (apply elem_of_cons in Hc as [->|Hc]; [by rewrite col_insert_ne|]); by apply elem_of_nil in Hc.
  - apply (x_read KS rand0 (KE b) cs_fn (kd b) (cd_vs b) ∅ "doc" "ck" 1); [apply kd_run|done].
  - apply key_followsb_spec. comp.
Qed.
