(** * Several databases (C68). *)
From Verif Require Import Base BaseLemmas Schema TrigSet Gen Exec Orm Flush Spec SpecAgg Sessions Hist Check ExForum ExRich ExBad ExAgg.
From Verif Require Import Text Read MultiDb.

(** ** C68 *)
(** On the default database everything happens as if it were the only one, so all
    other theorems apply to it. *)
Theorem default_as_single Es S hs st :
  foldl (mstep Es S) st hs default_alias = foldl (hstep (Es default_alias) S) (st default_alias) (omap on_default hs).
Proof. exact (hist_default Es S hs st). Qed.
Print Assumptions default_as_single.
(** A step changes one database: flush and rebuildall the default one. *)
Theorem one_database_changes Es S st h v : (match h with MOp u _ => v ≠ u | _ => v ≠ "default" end) → mstep Es S st h v = st v.
Proof. intros H. apply mstep_frame. by destruct h. Qed.
Print Assumptions one_database_changes.
(** On another database the operations do what they would do on the only one, as long as
    no stored instance with aggregates is saved; it is never flushed. *)
Theorem other_never_flushed Es S u hs st : u ≠ "default" → Forall (no_agg_save S) (omap (on_other u) hs) →
  foldl (mstep Es S) st hs u = foldl (step (Es u) S) (st u) (omap (on_other u) hs).
Proof. exact (hist_other Es S u hs st). Qed.
Print Assumptions other_never_flushed.
(** With its own engine's dialect and the content types of the default database, its
    stale rows are at least marked. *)
Theorem other_database_marked b S rand imm depth Es rank u ct hs st :
  mk_env b S rand imm depth = Ok (Es u) → flushable S rank imm → (∀ m, m ∈ s_models S → ct (m_name m) = m_ct m) →
  u ≠ "default" → Forall (no_agg_save S) (omap (on_other u) hs) →
  links_ok S (st u) → consistent_or_marked S (st u) → consistent_or_marked (with_cts ct S) (foldl (mstep Es S) st hs u).
Proof.
  intros HE Hfl Hct Hu Hf L C. rewrite with_same_cts, hist_other by done. by apply (fsteps_inv b S rand imm depth (Es u) rank HE Hfl).
Qed.
Print Assumptions other_database_marked.
(** The history of ExRich.v on the database "other". *)
Definition two (b : backend) : string → env := λ _, RE b.
Definition rhist : list mop := (MOp "other" <$> rops) ++ [MFlush id_ord 5].
Lemma rops_new : Forall (no_agg_save RS) rops.
Proof.
  destruct RS_flushable. unfold rops. repeat (apply Forall_cons; split); [..|by apply Forall_nil]; try exact I; intros m Hm; left; (split; [done|]);
    destruct (GenLemmas.find_model_in _ _ _ Hm) as [Hin _]; intros mm Hmm; by eapply fl_nodm.
Qed.
Example other_database_ex b :
  mk_env b RS rand0 true 10 = Ok (two b "other") ∧ flushable RS rrank true ∧ Forall (no_agg_save RS) (omap (on_other "other") rhist) ∧
  links_ok RS d0 ∧ consistent_or_marked RS d0 ∧
  (let d := foldl (mstep (two b) RS) (λ _, d0) rhist "other" in cellv d "post" 7 "forum_title" = Some VNull ∧ cellv d "forum" 1 "title" = Some (VText "c") ∧ bool_decide (marker_of RPost 7 ∈ d_dirty d) = true).
Proof.
  split; [apply RE_ok|]. split; [apply RS_flushable|]. split; [exact rops_new|].
  split; [by intros m f dp o t c rc _ _ _ _ _ lk lr Hl|]. split; [by intros m k r _ Hr|].
  destruct b; vm_compute; split_and!; reflexivity.
Qed.

(** False of the code: denorm.flush() makes all denormalized data fresh.  The rows of a
    second database stay marked and stale. *)
Theorem flush_reaches_all_refuted : ∃ b S Es hs ord n u st, wf_schema S ∧ (∀ v, mk_env b S rand0 true 10 = Ok (Es v)) ∧ (∀ v, d_tabs (st v) = ∅) ∧
  (flush (Es "default") S ord n (foldl (mstep Es S) st hs "default")).2 = Done ∧
  ¬ consistent S (foldl (mstep Es S) st (hs ++ [MFlush ord n]) u) ∧ d_dirty (foldl (mstep Es S) st (hs ++ [MFlush ord n]) u) ≠ [].
Proof.
  exists Postgres, RS, (two Postgres), (MOp "other" <$> rops), id_ord, 5%nat, "other", (λ _, d0). split; [apply RS_wf|]. split; [intros; apply RE_ok|]. split; [done|].
  split; [vm_compute; reflexivity|]. split.
  - apply (staleb_spec _ _ RPost 3 7); [simpl; set_solver|]. vm_compute. reflexivity.
  - apply (bool_decide_unpack _). vm_compute. exact I.
Qed.
Print Assumptions flush_reaches_all_refuted.

(** False of the code: saving a stored instance to another database keeps its aggregates.
    The value written is that of the row with the same key in the default database. *)
Definition frow (n : Z) : row := rowof [("title", VText "a"); ("post_count", VInt n); ("score_sum", VInt n); ("total", VInt 0); ("ck", VInt 0)].
Definition prow1 : row := rowof [("forum_id", VInt 1); ("views", VInt 0); ("score", VInt 5)].
Definition ahist : list mop := [MOp "default" (OInsert "forum" [(1, frow 0)]); MOp "other" (OInsert "forum" [(1, frow 0)]); MOp "other" (OInsert "post" [(1, prow1)])].
Theorem save_other_keeps_counts_refuted : ∃ b S Es m f a rel hs o u st, wf_schema S ∧ names_apart S ∧ (∀ v, mk_env b S rand0 true 10 = Ok (Es v)) ∧
  agg_field S m f a rel ∧ (∀ v, d_tabs (st v) = ∅) ∧ (∃ pk r, o = OSave (m_name m) pk r) ∧
  cellv (foldl (mstep Es S) st hs u) (m_table m) 1 (f_col f) = Some (VInt 1) ∧ agg_value (foldl (mstep Es S) st hs u) rel a 1 = 1 ∧
  ¬ agg_exact m f a rel (foldl (mstep Es S) st (hs ++ [MOp u o]) u).
Proof.
  exists Postgres, RS, (two Postgres), RForum, f_count, (Agg "Post" "forum_id" [] [] None []), RPost, ahist, (OSave "Forum" (Some 1) (frow 1)), "other", (λ _, d0).
  split; [apply RS_wf|]. split; [apply RS_flushable|]. split; [intros; apply RE_ok|].
  split; [apply agg_fieldb_spec; [inl|inl|done|done|by vm_compute]|]. split; [done|]. split; [by eexists _, _|].
  split; [vm_compute; reflexivity|]. split; [vm_compute; reflexivity|].
  apply (agg_wrong _ _ _ _ _ 1 0 1); [vm_compute; reflexivity..|done].
Qed.
Print Assumptions save_other_keeps_counts_refuted.
(** If there is no such row, the save raises an IndexError. *)
Theorem save_other_works_refuted : ∃ b S E m d dd r, wf_schema S ∧ mk_env b S rand0 true 10 = Ok E ∧ m ∈ s_models S ∧
  is_Some (getrow d (m_table m) 1) ∧ run_op E S (OSave (m_name m) (Some 1) r) d ≠ Err EIndex ∧ run_op_on (λ _, dd) E S (OSave (m_name m) (Some 1) r) d = Err EIndex.
Proof.
  exists Postgres, RS, (RE Postgres), RForum, (foldl (step (RE Postgres) RS) d0 [OInsert "forum" [(1, frow 0)]]), d0, (frow 0).
  split; [apply RS_wf|]. split; [apply RE_ok|]. split; [simpl; set_solver|]. split; [apply (bool_decide_unpack _); vm_compute; exact I|].
  split; [|vm_compute; reflexivity]. intros H.
  assert (Hb : match run_op (RE Postgres) RS (OSave "Forum" (Some 1) (frow 0)) (foldl (step (RE Postgres) RS) d0 [OInsert "forum" [(1, frow 0)]]) with Ok _ => true | Err _ => false end = true) by (vm_compute; reflexivity).
  revert Hb. change "Forum" with (m_name RForum). by rewrite H.
Qed.
Print Assumptions save_other_works_refuted.

(** False of the code: the triggers of another database mark its rows whatever its content
    types are.  With other ids than in the default database the markers name rows of
    other models. *)
Definition cts (n : string) : Z := if String.eqb n "Forum" then 11 else 10.
Definition cops : list op := [OInsert "forum" [(1, rowof [("title", VText "a"); ("ck", VInt 0); ("post_count", VInt 0); ("score_sum", VInt 0); ("total", VInt 0)])];
  OInsert "post" [(5, rowof [("forum_id", VInt 1); ("score", VInt 5)])]; OUpdate "forum" [1] (λ r, <["title" := VText "b"]> r)].
Theorem other_content_types_refuted : ∃ b S E ct ops d, wf_schema S ∧ wf_schema (with_cts ct S) ∧ mk_env b S rand0 true 10 = Ok E ∧ d_tabs d = ∅ ∧
  ¬ consistent_or_marked (with_cts ct S) (foldl (step E S) d ops).
Proof.
  exists Postgres, FS, (FE Postgres), cts, cops, d0. split; [apply wf_schemab_spec; by vm_compute|]. split; [apply wf_schemab_spec; by vm_compute|].
  split; [vm_compute; reflexivity|]. split; [done|]. intros H.
  assert (Hs : staleb (foldl (step (FE Postgres) FS) d0 cops) (set_ct cts Post) 2 5 = true) by (vm_compute; reflexivity).
  assert (Hd : bool_decide (marker_of (set_ct cts Post) 5 ∈ d_dirty (foldl (step (FE Postgres) FS) d0 cops)) = false) by (vm_compute; reflexivity).
  revert H Hs Hd. generalize (foldl (step (FE Postgres) FS) d0 cops). intros d H Hs Hd. unfold staleb in Hs.
  destruct (m_fields (set_ct cts Post) !! 2%nat) as [f|] eqn:Hf; [|done]. destruct (getrow d (m_table (set_ct cts Post)) 5) as [r|] eqn:Hr; [|done].
  destruct (H (set_ct cts Post) 5 r) as [Hm|Hc]; [simpl; set_solver|done|by apply bool_decide_eq_false in Hd|].
  specialize (Hc f (elem_of_list_lookup_2 _ _ _ Hf)). unfold row_consistent in Hc. destruct (f_kind f); try done.
  destruct Hc as (pv & Hfn & Hst). rewrite Hfn in Hs. by apply negb_true_iff, bool_decide_eq_false in Hs.
Qed.
Print Assumptions other_content_types_refuted.

(** False of the code: triggers can be installed in a database of another kind than the
    default one.  Of PostgreSQL and SQLite, neither can read any text made for the other. *)
Theorem other_dialect_unreadable nu ut b b' n tr acts ps :
  (b = Postgres ∧ b' = SQLite) ∨ (b = SQLite ∧ b' = Postgres) → read b' (trig_text nu ut b n tr acts) ps = None.
Proof. intros H. apply other_dialect. naive_solver. Qed.
Print Assumptions other_dialect_unreadable.
