(** * Text object ids (C129) and the types of the compared columns (C130). *)
From Verif Require Import Base BaseLemmas Schema TrigSet Gen Exec Orm Flush Spec Sessions Hist Check ExForum ExRich KeyDraw KeyObs TypedSql.

(** Documents whose key depends on notes that refer to them by a text column. *)
Definition tdep : dep := Dep "Note" (RelGenForward "ctype_id" "object_id") [].
Definition tkey : field := ckf "ck" "Doc" [tdep].
Definition TDoc : model := mkmodel "Doc" "doc" 20 [plain "title" "Doc"; tkey] [].
Definition TNote : model := mkmodel "Note" "note" 24 [plain "ctype_id" "Note"; plain "object_id" "Note"; plain "text" "Note"] [].
Definition TS : schema := Schema [TDoc; TNote] false.
Definition TE (b : backend) : env :=
  match mk_env b TS rand0 true 10 with Ok E => E | Err _ => Env b (λ _, "id") [] rand0 [] true 10 end.
Lemma TE_ok b : mk_env b TS rand0 true 10 = Ok (TE b).
Proof. destruct b; vm_compute; reflexivity. Qed.
Definition tty : types := λ t c, if bool_decide (c ∈ ["object_id"; "text"; "title"]) then CTxt else CInt.
Lemma TS_trackable b : trackable TS (λ t, if decide (t = "doc") then 0%nat else 1%nat) true b.
Proof. apply trackableb_spec. by vm_compute. Qed.
Definition td (b : backend) : db := foldl (hstep (TE b) TS) d0 (HOp <$>
  [ OSave "Doc" None (rowof [("title", VText "x")]); OSave "Doc" None (rowof [("title", VText "y")]) ]).
Definition note (i : Z) (x : string) : row := rowof [("ctype_id", VInt 20); ("object_id", VText (pretty i)); ("text", VText x)].
Definition op_note : op := OInsert "note" [(5, note 2 "n")].
Definition tafter (b : backend) : db := match run_typed tty (TE b) op_note (td b) with Ok d => d | Err _ => td b end.
Ltac comp := match goal with b : backend |- _ => destruct b; vm_compute; reflexivity end.
Lemma TS_tracked c : c ∈ ["ctype_id"; "object_id"; "text"] → tracked TS TNote c.
Proof.
  intros H. repeat (apply elem_of_cons in H as [->|H]; [apply trackedb_spec; by vm_compute|]). by apply elem_of_nil in H.
Qed.

(** ** C129 *)
(** PostgreSQL: no related row can be inserted, deleted or changed in a tracked column. *)
Theorem text_ids_pg_raise S rand imm depth E ty m f ds dp om ctc oidc o j d old new (r : row) :
  mk_env Postgres S rand imm depth = Ok E → wf_schema S → names_apart S →
  m ∈ s_models S → f ∈ m_fields m → f_kind f = KCacheKey ds →
  dp ∈ ds → find_model S (dep_other dp) = Some om → dep_rel dp = RelGenForward ctc oidc → tracked S om ctc →
  ty (m_table m) (m_pk m) = CInt → ty (m_table om) oidc = CTxt →
  writes o (m_table om) j d old new → noticed S om old new →
  old = Some r ∨ new = Some r → col r ctc = VInt (m_ct m) →
  ∀ d', run_typed ty E o d ≠ Ok d'.
Proof.
  exact (λ HE Hwf Hna Hm Hf Hk Hdp Hfo Hr Hct Hti Htt, pg_raises Postgres S rand imm depth E HE Hwf Hna ty m f ds dp om ctc oidc Hm Hf Hk Hdp Hfo Hr Hct Hti Htt o j d old new r eq_refl).
Qed.
Print Assumptions text_ids_pg_raise.
Example text_ids_pg_ex : mk_env Postgres TS rand0 true 10 = Ok (TE Postgres) ∧ wf_schema TS ∧ names_apart TS ∧
  tracked TS TNote "ctype_id" ∧ tty "doc" "id" = CInt ∧ tty "note" "object_id" = CTxt ∧
  writes op_note "note" 5 (td Postgres) None (Some (note 2 "n")) ∧ col (note 2 "n") "ctype_id" = VInt (m_ct TDoc) ∧
  run_typed tty (TE Postgres) op_note (td Postgres) = Err EType.
Proof.
  destruct (TS_trackable Postgres). split; [apply TE_ok|]. split; [done|]. split; [done|]. split; [apply TS_tracked; left|].
  split; [by vm_compute|]. split; [by vm_compute|]. split; [by split; [|exists (note 2 "n")]|]. split; vm_compute; reflexivity.
Qed.

(** SQLite and MySQL: the key is redrawn whenever a row that refers to it by text is
    inserted, deleted or changed in a tracked column. *)
Theorem text_ids_redraw b S rand imm depth E ty m f ds dp om ctc oidc o j d old new (r : row) k d' :
  b ≠ Postgres → mk_env b S rand imm depth = Ok E → wf_schema S → names_apart S →
  m ∈ s_models S → f ∈ m_fields m → f_kind f = KCacheKey ds →
  dp ∈ ds → find_model S (dep_other dp) = Some om → dep_rel dp = RelGenForward ctc oidc → tracked S om ctc → tracked S om oidc →
  ty (m_table m) (m_pk m) = CInt → ty (m_table om) oidc = CTxt →
  writes o (m_table om) j d old new → noticed S om old new →
  old = Some r ∨ new = Some r → col r ctc = VInt (m_ct m) → col r oidc = VText (pretty k) →
  spares o (m_table m) k [f_col f] → is_Some (getrow d (m_table m) k) →
  run_typed ty E o d = Ok d' → redrawn rand (d_rnd d) (m_table m) (f_col f) k d'.
Proof. exact (text_redraw b S rand imm depth E ty m f ds dp om ctc oidc o j d old new r k d'). Qed.
Print Assumptions text_ids_redraw.
Example text_ids_redraw_ex b : b ≠ Postgres → run_typed tty (TE b) op_note (td b) = Ok (tafter b) ∧ is_Some (getrow (td b) "doc" 2) ∧
  tracked TS TNote "object_id" ∧ writes op_note "note" 5 (td b) None (Some (note 2 "n")) ∧ spares op_note "doc" 2 ["ck"] ∧
  cellv (tafter b) "doc" 2 "ck" ≠ cellv (td b) "doc" 2 "ck" ∧ cellv (tafter b) "doc" 1 "ck" = cellv (td b) "doc" 1 "ck".
Proof.
  intros Hb.
  assert (H1 : match run_typed tty (TE b) op_note (td b) with Ok _ => true | Err _ => false end = true).
  { destruct b; [vm_compute; reflexivity|exfalso; auto|vm_compute; reflexivity]. }
  assert (H2 : bool_decide (is_Some (getrow (td b) "doc" 2)) = true) by comp.
  assert (H3 : bool_decide (cellv (tafter b) "doc" 2 "ck" = cellv (td b) "doc" 2 "ck") = false).
  { destruct b; [vm_compute; reflexivity|exfalso; auto|vm_compute; reflexivity]. }
  split; [unfold tafter; destruct (run_typed _ _ _ _); [reflexivity|discriminate H1]|].
  split; [by apply bool_decide_eq_true in H2|]. split; [apply TS_tracked; right; left|].
  split; [by split; [|exists (note 2 "n")]|]. split; [done|]. split; [by apply bool_decide_eq_false in H3|]. comp.
Qed.
(** They select exactly the row whose key the text denotes. *)
Theorem text_ids_select b S rand imm depth E ty m om oidc d e rf k (r : row) :
  mk_env b S rand imm depth = Ok E → wf_schema S → m ∈ s_models S →
  ty (m_table m) (m_pk m) = CInt → ty (m_table om) oidc = CTxt → ev_tab e = m_table om →
  where_typed ty E d e (m_table m) k r (WEq (m_pk m) rf oidc [] []) = true ↔ to_text (ref_val E e rf oidc) = Some (pretty k).
Proof. exact (λ HE Hwf Hm Hti Htt, text_where b S rand imm depth E HE Hwf ty m om oidc Hm Hti Htt e rf d k r). Qed.
Print Assumptions text_ids_select.
Example text_ids_select_ex b : let e := Ev "note" 5 (ChIns (note 2 "n")) in
  where_typed tty (TE b) d0 e "doc" 2 ∅ (WEq "id" RNew "object_id" [] []) = true ∧
  where_typed tty (TE b) d0 e "doc" 1 ∅ (WEq "id" RNew "object_id" [] []) = false.
Proof. cbv zeta. split; comp. Qed.
(** As stated it fails: on PostgreSQL the note cannot be written. *)
Theorem text_ids_refuted : ∃ S ty d o, trackable S (λ t, if decide (t = "doc") then 0%nat else 1%nat) true Postgres ∧
  (∃ E, mk_env Postgres S rand0 true 10 = Ok E ∧ run_typed ty E o d = Err EType) ∧
  (∀ b, b ≠ Postgres → ∃ E d', mk_env b S rand0 true 10 = Ok E ∧ run_typed ty E o d = Ok d') ∧
  (∀ b, ∃ E d', mk_env b S rand0 true 10 = Ok E ∧ run_op E S o d = Ok d').
Proof.
  exists TS, tty, (td SQLite), op_note. split; [apply TS_trackable|]. split; [|split].
  - exists (TE Postgres). split; [apply TE_ok|]. vm_compute. reflexivity.
  - intros b Hb. exists (TE b).
    assert (H1 : match run_typed tty (TE b) op_note (td SQLite) with Ok _ => true | Err _ => false end = true).
    { destruct b; [vm_compute; reflexivity|exfalso; auto|vm_compute; reflexivity]. }
    destruct (run_typed tty (TE b) op_note (td SQLite)) as [x|]; [|discriminate H1]. exists x. split; [apply TE_ok|reflexivity].
  - intros b. exists (TE b).
    assert (H1 : match run_op (TE b) TS op_note (td SQLite) with Ok _ => true | Err _ => false end = true) by comp.
    destruct (run_op (TE b) TS op_note (td SQLite)) as [x|]; [|discriminate H1]. exists x. split; [apply TE_ok|reflexivity].
Qed.
Print Assumptions text_ids_refuted.

(** ** C130 *)
(** Where keys are compared with integer columns, the types make no difference, whatever the
    types of the object ids that only callback fields depend on. *)
Theorem types_agree b S rand imm depth E ty o t d :
  mk_env b S rand imm depth = Ok E → wf_schema S → names_apart S → one_type S ty → is_statement o t →
  run_typed ty E o d = run_op E S o d.
Proof. exact (λ HE Hwf Hna, typed_as_untyped b S rand imm depth E HE Hwf Hna ty o t d). Qed.
Print Assumptions types_agree.
(** Posts with tags attached by text: the callback field depending on them is marked. *)
Definition rty : types := λ t c, if bool_decide (c ∈ ["object_id"; "title"; "name"; "forum_title"]) then CTxt else CInt.
Definition op_tag : op := OInsert "tag" [(1, rowof [("ctype_id", VInt 11); ("object_id", VText "7"); ("weight", VInt 3)])].
Example types_agree_ex b : wf_schema RS ∧ names_apart RS ∧ one_type RS rty ∧ is_statement op_tag "tag" ∧ rty "tag" "object_id" = CTxt ∧
  ∃ d, run_typed rty (RE b) op_tag d0 = Ok d ∧ d_dirty d = [(11, Some "7")].
Proof.
  split; [apply RS_wf|]. split; [apply names_apartb_spec; vm_compute; reflexivity|]. split; [split|].
  - intros m Hm. models Hm; by vm_compute.
  - intros m f dp o Hm Hf Hd Ho. destruct (RS_deps _ _ _ Hm Hf Hd) as [(-> & _ & ->)|[(-> & _ & ->)|[(-> & -> & ->)|(-> & _ & ->)]]]; injection Ho as <-; simpl.
    + by vm_compute.
    + by vm_compute.
    + intros ds [=].
    + split; by vm_compute.
  - intros m f a rel Hm Hf Hk Ho. destruct (RS_aggs _ _ _ Hm Hf Hk) as (-> & [[-> ->]|[-> ->]]); injection Ho as <-; by vm_compute.
  - split; [done|]. split; [by vm_compute|].
    assert (H1 : match run_typed rty (RE b) op_tag d0 with Ok d => bool_decide (d_dirty d = [(11, Some "7")]) | Err _ => false end = true) by comp.
    destruct (run_typed rty (RE b) op_tag d0) as [d|]; [|discriminate H1]. exists d. split; [reflexivity|]. by apply bool_decide_eq_true in H1.
Qed.
