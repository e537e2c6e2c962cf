(** * Cache keys are redrawn by the database itself (C35). *)
From Verif Require Import Base BaseLemmas Schema TrigSet Gen Exec Orm Flush Spec SpecAgg SpecOrder Settle Sessions Hist Check CheckOrder ExForum KeyDraw KeyObs KeyStmt KeyFrame.

(** Documents whose cache key depends on the author, the sections, the topics and
    the notes attached by a generic relation. The author counts awards. *)
Definition dep_author : dep := Dep "Author" (RelForward "author_id") [].
Definition dep_sections : dep := Dep "Section" (RelBackward "doc_id") [].
Definition dep_topics : dep := Dep "Topic" (RelM2M "doc_topics" "doc_id" "topic_id") [].
Definition dep_notes : dep := Dep "Note" (RelGenForward "ctype_id" "object_id") [].
Definition kdeps : list dep := [dep_author; dep_sections; dep_topics; dep_notes].
Definition f_key : field := ckf "ck" "Doc" kdeps.
Definition KDoc : model := mkmodel "Doc" "doc" 20 [plain "title" "Doc"; fkf "author" "Author" "Doc"; f_key]
  [M2M "topics" "Topic" "doc_topics" "doc_id" "topic_id" None].
Definition KAuthor : model := mkmodel "Author" "author" 21 [plain "name" "Author"; aggf "awards" "Author" (Agg "Award" "author_id" [] [] None [])] [].
Definition KAward : model := mkmodel "Award" "award" 25 [fkf "author" "Author" "Award"] [].
Definition KSection : model := mkmodel "Section" "section" 22 [fkf "doc" "Doc" "Section"; plain "body" "Section"] [].
Definition KTopic : model := mkmodel "Topic" "topic" 23 [plain "label" "Topic"] [].
Definition KNote : model := mkmodel "Note" "note" 24 [plain "ctype_id" "Note"; plain "object_id" "Note"; plain "text" "Note"] [].
Definition KS : schema := Schema [KDoc; KAuthor; KSection; KTopic; KNote; KAward] false.
Definition KE (b : backend) : env :=
  match mk_env b KS rand0 true 10 with Ok E => E | Err _ => Env b (λ _, "id") [] rand0 [] true 10 end.
Lemma KE_ok b : mk_env b KS rand0 true 10 = Ok (KE b).
Proof. destruct b; vm_compute; reflexivity. Qed.
Definition krank (t : string) : nat := if decide (t = "doc") then 0 else if decide (t = "award") then 2 else 1.
Lemma KS_trackable b : trackable KS krank true b.
Proof. apply trackableb_spec. by vm_compute. Qed.

Definition kops : list op :=
  [ OInsert "author" [(1, rowof [("name", VText "a"); ("awards", VInt 0)]); (2, rowof [("name", VText "b"); ("awards", VInt 0)])];
    OSave "Doc" None (rowof [("title", VText "x"); ("author_id", VInt 1)]);
    OSave "Doc" None (rowof [("title", VText "y"); ("author_id", VInt 2)]);
    OInsert "section" [(1, rowof [("doc_id", VInt 1); ("body", VText "s")]); (2, rowof [("doc_id", VInt 2); ("body", VText "s")])];
    OInsert "topic" [(1, rowof [("label", VText "t")]); (2, rowof [("label", VText "u")])];
    OInsert "doc_topics" [(1, rowof [("doc_id", VInt 1); ("topic_id", VInt 1)]); (2, rowof [("doc_id", VInt 2); ("topic_id", VInt 2)])];
    OInsert "note" [(1, rowof [("ctype_id", VInt 20); ("object_id", VInt 1); ("text", VText "n")])];
    OInsert "award" [(1, rowof [("author_id", VInt 2)])] ].
Definition kd (b : backend) : db := foldl (hstep (KE b) KS) d0 (HOp <$> kops).
Definition kafter (b : backend) (o : op) : db := step (KE b) KS (kd b) o.
Lemma kafter_ok b o : match run_op (KE b) KS o (kd b) with Ok _ => true | Err _ => false end = true →
  run_op (KE b) KS o (kd b) = Ok (kafter b o).
Proof. apply step_ok. Qed.
Lemma KS_flushable : flushable KS krank true.
Proof.
  apply (flushableb_spec KS krank true (λ _ _, Reads [] [])).
  - by vm_compute.
  - intros m r Hm. simpl in Hm. repeat (apply elem_of_cons in Hm as [->|Hm]; [done|]). by apply elem_of_nil in Hm.
  - intros m f fn ds sk Hm Hf Hk. exfalso. simpl in Hm.
    repeat (apply elem_of_cons in Hm as [->|Hm]; [simpl in Hf;
      repeat (apply elem_of_cons in Hf as [->|Hf]; [discriminate Hk|]); by apply elem_of_nil in Hf|]). by apply elem_of_nil in Hm.
Qed.
Lemma KS_no_self : no_self_dep KS.
Proof. apply no_self_depb_spec. by vm_compute. Qed.
Lemma kd_links b : links_ok KS (kd b).
Proof.
  apply (hist_inv b KS rand0 true 10 (KE b) krank (KE_ok b) KS_flushable KS_no_self). apply finv_empty. reflexivity.
Qed.
Ltac comp := match goal with b : backend |- _ => destruct b; vm_compute; reflexivity end.
Lemma cellv_row d t k c v : cellv d t k c = Some v → ∃ r, getrow d t k = Some r ∧ col r c = v.
Proof. unfold cellv. intros H. apply fmap_Some in H as (r & Hr & ->). by exists r. Qed.

(** [redrawn rand n0 t c k d]: the cell holds a random value drawn after the first
    [n0] ones. *)
Theorem forward_change_redraws b S rand imm depth E rank m f ds dp om fk o d d' k r j :
  mk_env b S rand imm depth = Ok E → trackable S rank imm b →
  m ∈ s_models S → f ∈ m_fields m → f_kind f = KCacheKey ds →
  dp ∈ ds → find_model S (dep_other dp) = Some om → dep_rel dp = RelForward fk →
  run_op E S o d = Ok d' → links_ok S d → getrow d (m_table m) k = Some r →
  spares o (m_table m) k [f_col f; fk] → col r fk = VInt j → touched S om d d' j →
  redrawn rand (d_rnd d) (m_table m) (f_col f) k d'.
Proof. exact (λ HE Htk Hm Hf Hk Hdp Hfo Hr Ho HL Hg Hsp Hj Ht, key_forward b S rand imm depth E rank HE Htk m f ds Hm Hf Hk o d d' Ho HL k r Hg dp om Hdp Hfo fk j Hr Hsp Hj Ht). Qed.
Print Assumptions forward_change_redraws.
(** Renaming author 1 redraws the key of document 1. *)
Definition op_author : op := OUpdate "author" [1] (λ r, <["name" := VText "z"]> r).
Example forward_redraws_ex b : run_op (KE b) KS op_author (kd b) = Ok (kafter b op_author) ∧
  trackable KS krank true b ∧ links_ok KS (kd b) ∧ spares op_author "doc" 1 ["ck"; "author_id"] ∧
  cellv (kd b) "doc" 1 "author_id" = Some (VInt 1) ∧ touched KS KAuthor (kd b) (kafter b op_author) 1 ∧
  cellv (kafter b op_author) "doc" 1 "ck" ≠ cellv (kd b) "doc" 1 "ck".
Proof.
  split; [apply kafter_ok; comp|]. split; [apply KS_trackable|]. split; [apply kd_links|]. split; [done|]. split; [comp|]. split.
  - apply (touched_upd _ _ _ _ _ "name" (VText "a") (VText "z")); [apply trackedb_spec; by vm_compute|comp|comp|done].
  - apply (bool_decide_unpack _). comp.
Qed.

Theorem backward_change_redraws b S rand imm depth E rank m f ds dp om fk o d d' k j :
  mk_env b S rand imm depth = Ok E → trackable S rank imm b →
  m ∈ s_models S → f ∈ m_fields m → f_kind f = KCacheKey ds →
  dp ∈ ds → find_model S (dep_other dp) = Some om → dep_rel dp = RelBackward fk → tracked S om fk →
  run_op E S o d = Ok d' → links_ok S d → is_Some (getrow d (m_table m) k) →
  spares o (m_table m) k [f_col f] →
  before_or_after (m_table om) d d' j (λ r, col r fk = VInt k) → touched S om d d' j →
  redrawn rand (d_rnd d) (m_table m) (f_col f) k d'.
Proof. exact (λ HE Htk Hm Hf Hk Hdp Hfo Hr Htf Ho HL '(ex_intro _ r Hg) Hsp Hba Ht, key_backward b S rand imm depth E rank HE Htk m f ds Hm Hf Hk o d d' Ho HL k r Hg dp om Hdp Hfo fk j Hr Htf Hsp Hba Ht). Qed.
Print Assumptions backward_change_redraws.
(** Moving section 2 from document 2 to document 1 redraws both keys. *)
Definition op_section : op := OUpdate "section" [2] (λ r, <["doc_id" := VInt 1]> r).
Example backward_redraws_ex b : run_op (KE b) KS op_section (kd b) = Ok (kafter b op_section) ∧
  is_Some (getrow (kd b) "doc" 1) ∧ is_Some (getrow (kd b) "doc" 2) ∧ tracked KS KSection "doc_id" ∧
  before_or_after "section" (kd b) (kafter b op_section) 2 (λ r, col r "doc_id" = VInt 1) ∧
  before_or_after "section" (kd b) (kafter b op_section) 2 (λ r, col r "doc_id" = VInt 2) ∧
  touched KS KSection (kd b) (kafter b op_section) 2 ∧
  cellv (kafter b op_section) "doc" 1 "ck" ≠ cellv (kd b) "doc" 1 "ck" ∧
  cellv (kafter b op_section) "doc" 2 "ck" ≠ cellv (kd b) "doc" 2 "ck".
Proof.
  assert (H1 : cellv (kd b) "section" 2 "doc_id" = Some (VInt 2)) by comp.
  assert (H2 : cellv (kafter b op_section) "section" 2 "doc_id" = Some (VInt 1)) by comp.
  assert (R1 : cellv (kd b) "doc" 1 "author_id" = Some (VInt 1)) by comp.
  assert (R2 : cellv (kd b) "doc" 2 "author_id" = Some (VInt 2)) by comp.
  split; [apply kafter_ok; comp|].
  split; [apply cellv_row in R1 as (? & ? & ?); by eexists|]. split; [apply cellv_row in R2 as (? & ? & ?); by eexists|].
  split; [apply trackedb_spec; by vm_compute|]. split; [right; by apply cellv_row|]. split; [left; by apply cellv_row|].
  split; [apply (touched_upd _ _ _ _ _ "doc_id" (VInt 2) (VInt 1)); [apply trackedb_spec; by vm_compute|done..]|].
  split; apply (bool_decide_unpack _); comp.
Qed.

(** The trigger compares the primary key with the object id, so the object id is
    an integer here. *)
Theorem generic_change_redraws b S rand imm depth E rank m f ds dp om ctc oidc o d d' k j :
  mk_env b S rand imm depth = Ok E → trackable S rank imm b →
  m ∈ s_models S → f ∈ m_fields m → f_kind f = KCacheKey ds →
  dp ∈ ds → find_model S (dep_other dp) = Some om → dep_rel dp = RelGenForward ctc oidc →
  tracked S om ctc → tracked S om oidc →
  run_op E S o d = Ok d' → links_ok S d → is_Some (getrow d (m_table m) k) →
  spares o (m_table m) k [f_col f] →
  before_or_after (m_table om) d d' j (λ r, col r ctc = VInt (m_ct m) ∧ col r oidc = VInt k) → touched S om d d' j →
  redrawn rand (d_rnd d) (m_table m) (f_col f) k d'.
Proof. exact (λ HE Htk Hm Hf Hk Hdp Hfo Hr Htc Hto Ho HL '(ex_intro _ r Hg) Hsp Hba Ht, key_generic b S rand imm depth E rank HE Htk m f ds Hm Hf Hk o d d' Ho HL k r Hg dp om Hdp Hfo ctc oidc j Hr Htc Hto Hsp Hba Ht). Qed.
Print Assumptions generic_change_redraws.
(** Editing and deleting the note attached to document 1 redraw its key. *)
Definition op_note : op := OUpdate "note" [1] (λ r, <["text" := VText "z"]> r).
Definition op_unnote : op := ODelete "note" [1].
Example generic_redraws_ex b : run_op (KE b) KS op_note (kd b) = Ok (kafter b op_note) ∧
  run_op (KE b) KS op_unnote (kd b) = Ok (kafter b op_unnote) ∧
  tracked KS KNote "ctype_id" ∧ tracked KS KNote "object_id" ∧
  before_or_after "note" (kd b) (kafter b op_note) 1 (λ r, col r "ctype_id" = VInt 20 ∧ col r "object_id" = VInt 1) ∧
  touched KS KNote (kd b) (kafter b op_note) 1 ∧ touched KS KNote (kd b) (kafter b op_unnote) 1 ∧
  cellv (kafter b op_note) "doc" 1 "ck" ≠ cellv (kd b) "doc" 1 "ck" ∧
  cellv (kafter b op_unnote) "doc" 1 "ck" ≠ cellv (kd b) "doc" 1 "ck".
Proof.
  assert (H1 : cellv (kd b) "note" 1 "ctype_id" = Some (VInt 20)) by comp.
  assert (H2 : cellv (kd b) "note" 1 "object_id" = Some (VInt 1)) by comp.
  assert (H3 : getrow (kafter b op_unnote) "note" 1 = None) by comp.
  apply cellv_row in H1 as (r & Hr & H1). unfold cellv in H2. rewrite Hr in H2. injection H2 as H2.
  split; [apply kafter_ok; comp|]. split; [apply kafter_ok; comp|].
  split; [apply trackedb_spec; by vm_compute|]. split; [apply trackedb_spec; by vm_compute|]. split; [left; by exists r|].
  split; [apply (touched_upd _ _ _ _ _ "text" (VText "n") (VText "z")); [apply trackedb_spec; by vm_compute|comp|comp|done]|].
  split; [apply touched_gone; [by eexists|done]|].
  split; apply (bool_decide_unpack _); comp.
Qed.

Theorem link_change_redraws b S rand imm depth E rank m f ds dp om t c rc o d d' k i :
  mk_env b S rand imm depth = Ok E → trackable S rank imm b →
  m ∈ s_models S → f ∈ m_fields m → f_kind f = KCacheKey ds →
  dp ∈ ds → find_model S (dep_other dp) = Some om → dep_rel dp = RelM2M t c rc →
  run_op E S o d = Ok d' → links_ok S d → is_Some (getrow d (m_table m) k) →
  spares o (m_table m) k [f_col f] →
  before_or_after t d d' i (λ r, col r c = VInt k) → link_touched t c rc d d' i →
  redrawn rand (d_rnd d) (m_table m) (f_col f) k d'.
Proof. exact (λ HE Htk Hm Hf Hk Hdp Hfo Hr Ho HL '(ex_intro _ r Hg) Hsp Hba Ht, key_link b S rand imm depth E rank HE Htk m f ds Hm Hf Hk o d d' Ho HL k r Hg dp om Hdp Hfo t c rc i Hr Hsp Hba Ht). Qed.
Print Assumptions link_change_redraws.
Theorem far_change_redraws b S rand imm depth E rank m f ds dp om t c rc o d d' k i lr j :
  mk_env b S rand imm depth = Ok E → trackable S rank imm b →
  m ∈ s_models S → f ∈ m_fields m → f_kind f = KCacheKey ds →
  dp ∈ ds → find_model S (dep_other dp) = Some om → dep_rel dp = RelM2M t c rc →
  run_op E S o d = Ok d' → links_ok S d → is_Some (getrow d (m_table m) k) →
  spares o (m_table m) k [f_col f] →
  getrow d' t i = Some lr → col lr c = VInt k → col lr rc = VInt j → touched S om d d' j →
  redrawn rand (d_rnd d) (m_table m) (f_col f) k d'.
Proof. exact (λ HE Htk Hm Hf Hk Hdp Hfo Hr Ho HL '(ex_intro _ r Hg) Hsp Hl Hc Hrc Ht, key_far b S rand imm depth E rank HE Htk m f ds Hm Hf Hk o d d' Ho HL k r Hg dp om Hdp Hfo t c rc i lr j Hr Hsp Hl Hc Hrc Ht). Qed.
Print Assumptions far_change_redraws.
(** Removing a topic from document 1, and relabelling that topic. *)
Definition op_untopic : op := ODelete "doc_topics" [1].
Definition op_label : op := OUpdate "topic" [1] (λ r, <["label" := VText "z"]> r).
Example link_redraws_ex b : run_op (KE b) KS op_untopic (kd b) = Ok (kafter b op_untopic) ∧
  run_op (KE b) KS op_label (kd b) = Ok (kafter b op_label) ∧
  before_or_after "doc_topics" (kd b) (kafter b op_untopic) 1 (λ r, col r "doc_id" = VInt 1) ∧
  link_touched "doc_topics" "doc_id" "topic_id" (kd b) (kafter b op_untopic) 1 ∧
  (∃ lr, getrow (kafter b op_label) "doc_topics" 1 = Some lr ∧ col lr "doc_id" = VInt 1 ∧ col lr "topic_id" = VInt 1) ∧
  touched KS KTopic (kd b) (kafter b op_label) 1 ∧
  cellv (kafter b op_untopic) "doc" 1 "ck" ≠ cellv (kd b) "doc" 1 "ck" ∧
  cellv (kafter b op_label) "doc" 1 "ck" ≠ cellv (kd b) "doc" 1 "ck".
Proof.
  assert (H1 : cellv (kd b) "doc_topics" 1 "doc_id" = Some (VInt 1)) by comp.
  assert (H2 : getrow (kafter b op_untopic) "doc_topics" 1 = None) by comp.
  assert (H3 : cellv (kafter b op_label) "doc_topics" 1 "doc_id" = Some (VInt 1)) by comp.
  assert (H4 : cellv (kafter b op_label) "doc_topics" 1 "topic_id" = Some (VInt 1)) by comp.
  apply cellv_row in H1 as (r & Hr & H1). apply cellv_row in H3 as (lr & Hlr & H3). unfold cellv in H4. rewrite Hlr in H4. injection H4 as H4.
  split; [apply kafter_ok; comp|]. split; [apply kafter_ok; comp|]. split; [left; by exists r|].
  split; [unfold link_touched; by rewrite Hr, H2|]. split; [by exists lr|].
  split; [apply (touched_upd _ _ _ _ _ "label" (VText "t") (VText "z")); [apply trackedb_spec; by vm_compute|comp|comp|done]|].
  split; apply (bool_decide_unpack _); comp.
Qed.

(** The frame: if the statement names no row related to row [k] (before or after
    it), and triggers update no related table when rows of the statement's table change,
    the key stays. *)
Theorem unrelated_change_keeps_key b S rand imm depth E m f ds o t d d' k r :
  mk_env b S rand imm depth = Ok E → wf_schema S → names_apart S →
  m ∈ s_models S → f ∈ m_fields m → f_kind f = KCacheKey ds →
  is_statement o t → run_op E S o d = Ok d' → getrow d (m_table m) k = Some r →
  spares o (m_table m) k (f_col f :: fwd_cols S ds) →
  (∀ x t' j, x = d ∨ x = d' → key_related S m ds x k r t' j → ¬ leads_to S t t' ∧ ¬ (t' = t ∧ j ∈ stmt_keys o)) →
  ∃ r', getrow d' (m_table m) k = Some r' ∧ col r' (f_col f) = col r (f_col f).
Proof. exact (λ HE Hwf Hna Hm Hf Hk, key_kept b S rand imm depth E HE Hwf Hna m f ds Hm Hf Hk o t d d' k r). Qed.
Print Assumptions unrelated_change_keeps_key.
(** The tables that changes of [t] lead to. *)
Definition kleads (t : string) : list string := if decide (t = "award") then ["author"; "doc"] else ["doc"].
Lemma KS_related x r t j : key_related KS KDoc kdeps x 1 r t j → col r "author_id" = VInt 1 →
  ¬ leads_to KS "author" t ∧ ¬ (t = "author" ∧ j ∈ [2]).
Proof.
  intros H Hc. assert (Ht : t ≠ "doc" ∧ (t = "author" → j = 1)).
  { destruct H as [dp o fk j Hdp Ho Hr Hj|dp o fk j rj Hdp Ho Hr Hg Hj|dp t c rc i lr Hdp Hr|dp o t c rc i lr j Hdp Ho Hr|dp o ctc oidc j rj Hdp Ho Hr|dp ctc oidc Hdp Hr];
      unfold kdeps in Hdp; repeat (apply elem_of_cons in Hdp as [->|Hdp]; [simpl in Hr|]); try (by apply elem_of_nil in Hdp); try discriminate Hr;
      first [injection Hr as <- <- <-|injection Hr as <- <-|injection Hr as <-]; try injection Ho as <-; split; try done; congruence. }
  destruct Ht as [Ht1 Ht2]. split.
  - intros Hto. apply (closedb_spec KS kleads) in Hto; [|by vm_compute]. by apply elem_of_list_singleton in Hto.
  - intros [-> ->%elem_of_list_singleton]. specialize (Ht2 eq_refl). done.
Qed.
(** Renaming author 2 leaves the key of document 1 alone and redraws that of document 2,
    although the authors hold a count kept by triggers. *)
Definition op_author2 : op := OUpdate "author" [2] (λ r, <["name" := VText "z"]> r).
Example unrelated_keeps_ex b : run_op (KE b) KS op_author2 (kd b) = Ok (kafter b op_author2) ∧
  wf_schema KS ∧ names_apart KS ∧ is_statement op_author2 "author" ∧ spares op_author2 "doc" 1 ("ck" :: fwd_cols KS kdeps) ∧
  (∃ r, getrow (kd b) "doc" 1 = Some r ∧ ∀ x t j, x = kd b ∨ x = kafter b op_author2 → key_related KS KDoc kdeps x 1 r t j →
     ¬ leads_to KS "author" t ∧ ¬ (t = "author" ∧ j ∈ stmt_keys op_author2)) ∧
  cellv (kafter b op_author2) "doc" 1 "ck" = cellv (kd b) "doc" 1 "ck" ∧
  cellv (kafter b op_author2) "doc" 2 "ck" ≠ cellv (kd b) "doc" 2 "ck".
Proof.
  split; [apply kafter_ok; comp|]. destruct (KS_trackable b).
  split; [done|]. split; [done|]. split; [done|]. split; [done|]. split.
  - assert (H1 : cellv (kd b) "doc" 1 "author_id" = Some (VInt 1)) by comp. apply cellv_row in H1 as (r & Hr & Hc).
    exists r. split; [done|]. intros x t j _ Hk. by eapply KS_related.
  - split; [comp|]. apply (bool_decide_unpack _). comp.
Qed.

(** ** Where it fails *)
(** A dependency in the direction of a GenericForeignKey watches the depending
    table itself: changing the target does not redraw the key. *)
Definition f_bkey : field := ckf "ck" "Note" [Dep "Item" (RelGenBackward "ctype_id" "object_id") []].
Definition BNote : model := mkmodel "Note" "note" 31 [plain "ctype_id" "Note"; plain "object_id" "Note"; f_bkey] [].
Definition BItem : model := mkmodel "Item" "item" 30 [plain "name" "Item"] [].
Definition BS : schema := Schema [BItem; BNote] false.
Definition BE (b : backend) : env :=
  match mk_env b BS rand0 true 10 with Ok E => E | Err _ => Env b (λ _, "id") [] rand0 [] true 10 end.
Definition bd (b : backend) : db := foldl (step (BE b) BS) d0
  [ OInsert "item" [(1, rowof [("name", VText "a")])];
    OSave "Note" None (rowof [("ctype_id", VInt 30); ("object_id", VInt 1)]) ].
Definition op_item : op := OUpdate "item" [1] (λ r, <["name" := VText "z"]> r).
Ltac compb := match goal with b : backend |- _ => destruct b; [vm_compute; reflexivity|vm_compute; reflexivity|exfalso; auto] end.
Theorem generic_target_redraws_refuted b : b ≠ MySQL →
  mk_env b BS rand0 true 10 = Ok (BE b) ∧
  run_op (BE b) BS op_item (bd b) = Ok (step (BE b) BS (bd b) op_item) ∧
  cellv (bd b) "note" 1 "ctype_id" = Some (VInt 30) ∧ cellv (bd b) "note" 1 "object_id" = Some (VInt 1) ∧
  cellv (bd b) "item" 1 "name" = Some (VText "a") ∧
  cellv (step (BE b) BS (bd b) op_item) "item" 1 "name" = Some (VText "z") ∧
  is_Some (cellv (bd b) "note" 1 "ck") ∧
  cellv (step (BE b) BS (bd b) op_item) "note" 1 "ck" = cellv (bd b) "note" 1 "ck".
Proof.
  intros Hb. assert (H1 : mk_env b BS rand0 true 10 = Ok (BE b)) by compb.
  assert (H2 : run_op (BE b) BS op_item (bd b) = Ok (step (BE b) BS (bd b) op_item)) by (apply step_ok; compb).
  assert (H3 : cellv (bd b) "note" 1 "ck" = Some (VInt 1000)) by compb.
  split_and!; [done|done|compb|compb|compb|compb|by eexists|compb].
Qed.
Print Assumptions generic_target_redraws_refuted.
(** On MySQL such a row cannot even be inserted: the trigger updates the table the
    INSERT is working on (error 1442). *)
Example generic_target_mysql : mk_env MySQL BS rand0 true 10 = Ok (BE MySQL) ∧
  run_op (BE MySQL) BS (OSave "Note" None (rowof [("ctype_id", VInt 30); ("object_id", VInt 1)]))
    (step (BE MySQL) BS d0 (OInsert "item" [(1, rowof [("name", VText "a")])])) = Err ETableInUse.
Proof. split; by vm_compute. Qed.

(** A chain of rows depending on their parents: on SQLite, which does not run a
    trigger recursively, the key of the grandchild is not redrawn although the child
    it depends on changed in a tracked column (its own key). *)
Definition f_nkey : field := ckf "ck" "Node" [Dep "Node" (RelForward "parent_id") []].
Definition NNode : model := mkmodel "Node" "node" 40 [fkf "parent" "Node" "Node"; plain "name" "Node"; f_nkey] [].
Definition NS : schema := Schema [NNode] false.
Definition NE (b : backend) : env :=
  match mk_env b NS rand0 true 10 with Ok E => E | Err _ => Env b (λ _, "id") [] rand0 [] true 10 end.
Definition nd (b : backend) : db := foldl (step (NE b) NS) d0
  [ OSave "Node" None (rowof [("parent_id", VNull); ("name", VText "a")]);
    OSave "Node" None (rowof [("parent_id", VInt 1); ("name", VText "b")]);
    OSave "Node" None (rowof [("parent_id", VInt 2); ("name", VText "c")]) ].
Definition op_node : op := OUpdate "node" [1] (λ r, <["name" := VText "z"]> r).
Theorem chained_keys_redrawn_refuted :
  mk_env SQLite NS rand0 true 10 = Ok (NE SQLite) ∧
  run_op (NE SQLite) NS op_node (nd SQLite) = Ok (step (NE SQLite) NS (nd SQLite) op_node) ∧
  cellv (nd SQLite) "node" 3 "parent_id" = Some (VInt 2) ∧ tracked NS NNode "ck" ∧
  touched NS NNode (nd SQLite) (step (NE SQLite) NS (nd SQLite) op_node) 2 ∧
  cellv (step (NE SQLite) NS (nd SQLite) op_node) "node" 3 "ck" = cellv (nd SQLite) "node" 3 "ck".
Proof.
  split_and!; [by vm_compute|apply step_ok; by vm_compute|by vm_compute|apply trackedb_spec; by vm_compute| |by vm_compute].
  apply (touched_upd _ _ _ _ _ "ck" (VInt 1001) (VInt 1003)); [apply trackedb_spec|..]; by vm_compute.
Qed.
Print Assumptions chained_keys_redrawn_refuted.
