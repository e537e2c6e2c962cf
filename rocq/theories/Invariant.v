(** * Statements and operations preserve "every row is consistent or marked". *)
From Verif Require Import Base BaseLemmas Schema TrigSet Gen Exec Orm Flush Spec Engine GenLemmas Marking.

(** ** Frame of trigger updates under a rank *)
Section frame.
Context (E : env) (rank : string → nat) (Hac : acyclic E rank).

Definition same_from (n : nat) (d d' : db) : Prop := ∀ t k, (n ≤ rank t)%nat → getrow d' t k = getrow d t k.
Lemma same_from_refl n d : same_from n d d. Proof. done. Qed.
Lemma same_from_trans n a b c : same_from n a b → same_from n b c → same_from n a c.
Proof. intros H1 H2 t k Ht. rewrite H2 by done. by apply H1. Qed.

Lemma apply_change_frame t d ch d' evs : ch_quiet ch → apply_change E t d ch = Ok (d', evs) →
  same_from (S (rank t)) d d' ∧ ∀ e, e ∈ evs → ev_tab e = t.
Proof.
  intros Hq H. destruct (apply_change_applied _ _ _ _ _ _ Hq H) as [Ap _]. split; [|apply (ap_tab _ _ _ _ Ap)].
  intros t' k Ht. apply (ap_other _ _ _ _ Ap). intros ->. lia.
Qed.

Lemma run_stmt_frame fr t cs d d' :
  Forall ch_quiet cs → (∀ d e d', ev_tab e = t → fr d e = Ok d' → same_from (S (rank t)) d d') →
  run_stmt E fr t cs d = Ok d' → same_from (S (rank t)) d d'.
Proof.
  intros Hq Hfr.
  assert (Hb : ∀ cs d d', Forall ch_quiet cs → run_batch E fr t cs d = Ok d' → same_from (S (rank t)) d d').
  { clear d d' cs Hq. intros cs d d' Hq H. unfold run_batch in H. inv_bind H. destruct a as [d1 evs]. simpl in H.
    assert (Ha : same_from (S (rank t)) d d1 ∧ ∀ e, e ∈ evs → ev_tab e = t).
    { clear H. revert d evs H0. induction cs as [|c cs IH]; intros d evs H.
      - injection H as <- <-. split; [done|]. by intros ? ?%elem_of_nil.
      - rewrite apply_all_cons in H. inv_bind H. inv_bind H. injection H as <- <-. destruct a as [? ?], a0 as [? ?]; simpl in *.
        apply Forall_cons in Hq as [Hq1 Hq2]. destruct (apply_change_frame _ _ _ _ _ Hq1 H0) as [F1 T1].
        destruct (IH Hq2 _ _ H1) as [F2 T2]. split; [by eapply same_from_trans|].
        intros e [?|?]%elem_of_app; auto. }
    destruct Ha as [F T]. eapply same_from_trans; [exact F|].
    eapply foldM_rel; [apply same_from_refl|apply same_from_trans| |exact H]. intros. eapply Hfr; eauto. }
  intros H. unfold run_stmt in H. destruct (e_be E).
  2: by eapply Hb.
  all: eapply foldM_rel; [apply same_from_refl|apply same_from_trans| |exact H]; intros a c a' Hc Ha; eapply Hb; [|exact Ha];
    apply Forall_singleton; by eapply Forall_forall in Hq.
Qed.

Lemma fire_frame n : ∀ act d e d', fire E n act d e = Ok d' → same_from (rank (ev_tab e)) d d'.
Proof.
  induction n as [|n IH]; intros act d e d' H; [done|]. simpl in H.
  eapply foldM_rel; [apply same_from_refl|apply same_from_trans| |exact H].
  intros a tr a' Htr H1. simpl in H1. destruct (trig_applies E act e tr) eqn:Happ; [|by injection H1 as <-].
  assert (i_tab tr = ev_tab e) as Htab.
  { unfold trig_applies in Happ. apply andb_true_iff in Happ as [Happ _].
    apply andb_true_iff in Happ as [Happ _]. apply andb_true_iff in Happ as [Happ _].
    by apply bool_decide_eq_true in Happ. }
  eapply foldM_rel; [apply same_from_refl|apply same_from_trans| |exact H1].
  intros c ac c' Hac' H2. destruct ac; simpl in H2; [by injection H2 as <-|by injection H2 as <-|].
  case_decide; [done|]. pose proof (Hac _ _ _ _ _ Htr Hac') as Hlt. rewrite Htab in Hlt.
  intros t' k' Hr'. eapply (run_stmt_frame _ t); [| |exact H2|lia].
  - apply Forall_forall. intros. by eapply upd_changes_quiet.
  - intros d1 e1 d2 Ht1 Hf t1 k1 Hr1. eapply IH; [exact Hf|]. rewrite Ht1. lia.
Qed.
End frame.

(** A statement changing one row. *)
Lemma run_stmt_single E fr t c d d' : run_stmt E fr t [c] d = Ok d' → run_batch E fr t [c] d = Ok d'.
Proof.
  unfold run_stmt. destruct (e_be E); [|done|]; simpl; intros H; by inv_bind H; injection H as <-.
Qed.

(** Inserting the same key twice fails. *)
Lemma apply_ins_nodup E t rows : ∀ d d' evs,
  apply_all E t ((λ p : Z * row, CIns p.1 p.2) <$> rows) d = Ok (d', evs) →
  NoDup rows.*1 ∧ ∀ k, k ∈ rows.*1 → getrow d t k = None.
Proof.
  induction rows as [|[k r] rows IH]; intros d d' evs H.
  { split; [apply NoDup_nil_2|]. by intros ? ?%elem_of_nil. }
  rewrite fmap_cons, apply_all_cons in H. inv_bind H. inv_bind H. destruct a as [d1 e1], a0 as [d2 e2]; simpl in *.
  destruct (getrow d t k) eqn:Hk; [done|]. case_match; [|done]. injection H0 as <- <-.
  destruct (IH _ _ _ H1) as [Hnd Hn]. csimpl. split.
  - constructor; [|done]. intros Hin. apply Hn in Hin. rewrite getrow_put_eq in Hin. done.
  - intros k' [->|Hin]%elem_of_cons; [done|]. pose proof (Hn _ Hin) as Hg. rewrite getrow_put in Hg. case_decide; done.
Qed.

Lemma presave_field_db E m add pk p f q : presave_field E m add pk p f = Ok q →
  d_tabs q.1 = d_tabs p.1 ∧ d_dirty q.1 = d_dirty p.1.
Proof.
  unfold presave_field. destruct (f_kind f); intros H.
  - by injection H as <-.
  - by injection H as <-.
  - inv_bind H. inv_bind H. by injection H as <-.
  - destruct add; [by injection H as <-|]. repeat case_match; try done. by injection H as <-.
  - by injection H as <-.
Qed.
Lemma presave_all_db E m add pk d r q : presave_all E m add pk d r = Ok q →
  d_tabs q.1 = d_tabs d ∧ d_dirty q.1 = d_dirty d.
Proof.
  intros H. change d with ((d, r).1).
  eapply (foldM_rel (λ p q : db * row, d_tabs q.1 = d_tabs p.1 ∧ d_dirty q.1 = d_dirty p.1)); [..|exact H].
  - done.
  - intros a b c [] []. split; congruence.
  - intros a x a' _ Ha. by apply presave_field_db in Ha.
Qed.

(** ** Operations are made of statements: a preorder respected by statements and
    by consulting the clock and the random source is respected by operations. *)
Section ops.
  Context (E : env) (S : schema) (R : db → db → Prop).
  Context (Rtrans : ∀ x y z, R x y → R y z → R x z).
  Context (Rtabs : ∀ d d', d_tabs d' = d_tabs d → d_dirty d' = d_dirty d → R d d').
  Context (Rexec : ∀ t cs d d', Forall ch_quiet cs → (e_be E = Postgres → NoDup (ch_key <$> cs)) →
             exec E t cs d = Ok d' → R d d').
  Lemma R_refl d : R d d. Proof. by apply Rtabs. Qed.
  Lemma number_keys n rs : ch_key <$> number n rs = (λ i : nat, n + Z.of_nat i) <$> seq 0 (length rs).
  Proof.
    revert n. induction rs as [|r rs IH]; intros n; csimpl; [done|]. rewrite IH. f_equal; [lia|].
    rewrite <- fmap_S_seq, <- list_fmap_compose. apply list_fmap_ext. intros i. simpl. lia.
  Qed.
  Lemma number_nodup n rs : NoDup (ch_key <$> number n rs).
  Proof. rewrite number_keys. apply (NoDup_fmap_2_strong _ _); [|apply NoDup_seq]. intros; lia. Qed.
  Lemma number_quiet n rs : Forall ch_quiet (number n rs).
  Proof. revert n. induction rs as [|r rs IH]; intros n; simpl; constructor; [done|apply IH]. Qed.

  Lemma m2m_set_R mm k' vals d d' : m2m_set E mm k' vals d = Ok d' → R d d'.
  Proof.
    unfold m2m_set. intros H. inv_bind H. eapply Rtrans.
    - eapply Rexec; [| |exact H0].
      + apply Forall_forall. intros x Hx. by apply elem_of_list_fmap in Hx as (y & -> & _).
      + intros _. rewrite <- list_fmap_compose. rewrite (list_fmap_ext _ id) by done. rewrite list_fmap_id.
        apply NoDup_fmap_fst.
        * intros x v1 v2 H1 H2. apply elem_of_list_filter in H1 as [_ H1]. apply elem_of_list_filter in H2 as [_ H2].
          unfold links in H1, H2. apply elem_of_list_fmap in H1 as ([x1 r1] & [= -> ->] & H1). apply elem_of_list_fmap in H2 as ([x2 r2] & [= -> ->] & H2).
          apply elem_of_list_filter in H1 as [_ H1]. apply elem_of_list_filter in H2 as [_ H2].
          apply elem_of_map_to_list in H1, H2. congruence.
        * apply NoDup_filter. unfold links. apply (NoDup_fmap_2_strong _ _).
          -- intros [x1 r1] [x2 r2] H1 H2 [= -> _].
             apply elem_of_list_filter in H1 as [_ H1]. apply elem_of_list_filter in H2 as [_ H2].
             apply elem_of_map_to_list in H1, H2. congruence.
          -- apply NoDup_filter, NoDup_map_to_list.
    - eapply Rexec; [apply number_quiet|intros _; apply number_nodup|exact H].
  Qed.
  Lemma m2m_pre_save_R m' pk r d d' : m2m_pre_save E m' pk r d = Ok d' → R d d'.
  Proof.
    unfold m2m_pre_save. destruct pk as [k'|]; [|intros [= <-]; apply R_refl].
    case_decide; [intros [= <-]; apply R_refl|].
    apply foldM_rel; [apply R_refl|exact Rtrans|].
    intros a mm a' _ Ha. destruct (mm_denorm mm) as [[fn' ds']|]; [|injection Ha as <-; apply R_refl].
    inv_bind Ha. by eapply m2m_set_R.
  Qed.
  Lemma save_existing_R m' k' r d p : save_existing E m' k' r d = Ok p → R d p.1.
  Proof.
    unfold save_existing. intros H. inv_bind H. inv_bind H. inv_bind H. injection H as <-. simpl.
    eapply Rtrans; [by eapply m2m_pre_save_R|]. apply presave_all_db in H1 as [T D].
    eapply Rtrans; [by eapply Rtabs|]. eapply Rexec; [| |exact H2].
    - apply Forall_singleton. simpl. intros ??? [= <-]. done.
    - intros _. apply NoDup_singleton.
  Qed.
  Lemma post_save_R m' k' r d p : post_save_created E m' k' r d = Ok p → R d p.1.
  Proof.
    unfold post_save_created. case_match; [by apply save_existing_R|]. intros [= <-]. apply R_refl.
  Qed.
  Lemma save_R m' pk r d p : save E m' pk r d = Ok p → R d p.1.1.
  Proof.
    unfold save. intros H.
    assert (Hins : ∀ k r d q d2 s, presave_all E m' true pk d r = Ok q →
      exec E (m_table m') [CIns k q.2] q.1 = Ok d2 → post_save_created E m' k q.2 d2 = Ok s → R d s.1).
    { intros k0 r0 d3 q d2 s Hq Hx Hs. apply presave_all_db in Hq as [T D].
      eapply Rtrans; [by eapply Rtabs|]. eapply Rtrans; [|by eapply post_save_R].
      eapply Rexec; [| |exact Hx]; [by apply Forall_singleton|intros _; apply NoDup_singleton]. }
    destruct pk as [k'|].
    - destruct (getrow d (m_table m') k').
      + inv_bind H. injection H as <-. by eapply save_existing_R.
      + inv_bind H. inv_bind H. inv_bind H. inv_bind H. inv_bind H. injection H as <-. simpl.
        eapply Rtrans; [by eapply m2m_pre_save_R|]. apply presave_all_db in H1 as [T D].
        eapply Rtrans; [by eapply Rtabs|]. by eapply Hins.
    - inv_bind H. inv_bind H. inv_bind H. injection H as <-. simpl. by eapply Hins.
  Qed.

  Lemma run_op_R o d d' : run_op E S o d = Ok d' → R d d'.
  Proof.
    destruct o; simpl; intros H.
    - destruct (find_model S m); [|done]. inv_bind H. injection H as <-. by eapply save_R.
    - destruct (decide (e_be E = Postgres)) as [Hb|Hb].
      + eapply Rexec; [| |exact H].
        * apply Forall_forall. intros x Hx. by apply elem_of_list_fmap in Hx as (y & -> & _).
        * intros _. rewrite <- list_fmap_compose. rewrite (list_fmap_ext _ fst) by done.
          unfold exec, run_stmt in H. rewrite Hb in H. unfold run_batch in H. inv_bind H. destruct a.
          by apply apply_ins_nodup in H0 as [].
      + eapply Rexec; [|done|exact H].
        apply Forall_forall. intros x Hx. by apply elem_of_list_fmap in Hx as (y & -> & _).
    - eapply Rexec; [| |exact H].
      + apply Forall_forall. intros x Hx. apply elem_of_list_fmap in Hx as (y & -> & _). simpl. by intros ??? [= <-].
      + intros _. rewrite <- list_fmap_compose. rewrite (list_fmap_ext _ id) by done. rewrite list_fmap_id. apply NoDup_remove_dups.
    - eapply Rexec; [| |exact H].
      + apply Forall_forall. intros x Hx. by apply elem_of_list_fmap in Hx as (y & -> & _).
      + intros _. rewrite <- list_fmap_compose. rewrite (list_fmap_ext _ id) by done. rewrite list_fmap_id. apply NoDup_remove_dups.
  Qed.
End ops.

Section inv.
Context (b : backend) (S : schema) (rand : nat → Z) (imm : bool) (depth : nat) (E : env) (l : list trigger).
Context (Hwf : wf_schema S) (HE : mk_env b S rand imm depth = Ok E) (Hl : gen_all S = Ok l).
Context (Hnames : names_ok b l) (Hlk : wf_links S).
Context (Hsafe : s_bulk_unsafe S = false).
Context (Hm2m : no_m2m_dep S ∨ (imm = true ∧ m2m_declared S)).
Context (rank : string → nat) (Hac : b = SQLite → acyclic E rank).

Lemma links_fk m f dp t c rc o :
  m ∈ s_models S → f ∈ m_fields m → dp ∈ field_deps f → dep_rel dp = RelM2M t c rc →
  find_model S (dep_other dp) = Some o → e_fkimm E = true ∧ (t, rc, m_table o) ∈ e_fks E.
Proof.
  intros Hm Hf Hdp Hr Hfo. destruct Hm2m as [Hno|[Himm Hdecl]]; [exfalso; by eapply Hno|].
  destruct (E_fields _ _ _ _ _ _ _ HE Hl) as (_ & _ & _ & -> & -> & _). split; [done|].
  destruct (Hdecl _ _ _ _ _ _ _ Hm Hf Hdp Hr Hfo) as (m' & mm & Hm' & Hmm & <- & Hc).
  unfold schema_fks. apply elem_of_list_bind. exists m'. split; [|done].
  rewrite (wf_noproxy _ _ (wf_models _ Hwf _ Hm')). apply elem_of_app. right. apply elem_of_list_bind.
  exists mm. split; [|done]. destruct Hc as [[<- Ho]|[<- <-]].
  - right. rewrite Ho. by left.
  - by left.
Qed.

Lemma links_apply t d ch d' evs : ch_quiet ch → links_ok S d → apply_change E t d ch = Ok (d', evs) → links_ok S d'.
Proof.
  intros Hq L H m f dp o lt c rc Hm Hf Hdp Hr Hfo lk lr Hlr j Hj.
  destruct (links_fk _ _ _ _ _ _ _ Hm Hf Hdp Hr Hfo) as [Himm Hfk].
  pose proof (wf_deps _ Hwf _ _ _ Hm Hf Hdp _ Hfo) as Wd. rewrite Hr in Wd. destruct Wd as (Wt & _ & Wrc).
  destruct (find_model_in _ _ _ Hfo) as [Ho _].
  assert (Hpk : e_pk E lt = "id") by (eapply pk_link; eauto).
  specialize (L _ _ _ _ _ _ _ Hm Hf Hdp Hr Hfo).
  assert (Hrow : ∀ dd r, fk_row_ok E dd lt lk r = true → col r rc = VInt j → is_Some (getrow dd (m_table o) j)).
  { intros dd r Hok Hc. unfold fk_row_ok in Hok. rewrite forallb_forall in Hok.
    specialize (Hok _ (proj1 (elem_of_list_In _ _) Hfk)). simpl in Hok.
    rewrite bool_decide_true in Hok by done. simpl in Hok. unfold cell in Hok. rewrite Hpk, decide_False, Hc in Hok by done.
    by apply bool_decide_eq_true in Hok. }
  destruct ch; simpl in H.
  - destruct (getrow d t k) eqn:Hg; [done|]. rewrite Himm in H. simpl in H.
    destruct (fk_row_ok _ _ _ _ _) eqn:Hok; [|done]. injection H as <- <-.
    rewrite getrow_put in Hlr. case_decide as Hd.
    + destruct Hd as [-> ->]. injection Hlr as ->. by eapply Hrow.
    + specialize (L _ _ Hlr _ Hj). rewrite getrow_put. case_decide; [done|done].
  - destruct (getrow d t k) eqn:Hg; [|by injection H as <- <-; eauto]. inv_bind H. rewrite Himm in H. simpl in H.
    destruct (fk_row_ok _ _ _ _ _) eqn:Hok; [|done]. injection H as <- <-.
    apply Hq in H0 as [_ Hts].
    assert (Heq : ∀ t' k', getrow a.2 t' k' = getrow d t' k') by (intros; unfold getrow, tab; by rewrite Hts).
    rewrite getrow_put in Hlr. case_decide as Hd.
    + destruct Hd as [-> ->]. injection Hlr as <-. by eapply Hrow.
    + rewrite Heq in Hlr. specialize (L _ _ Hlr _ Hj). rewrite getrow_put. case_decide; [by eexists|]. by rewrite Heq.
  - destruct (getrow d t k) eqn:Hg; [|by injection H as <- <-; eauto]. rewrite Himm in H. simpl in H.
    destruct (fk_del_ok _ _ _ _) eqn:Hok; [|done]. injection H as <- <-.
    rewrite getrow_del in Hlr. case_decide as Hd; [done|]. specialize (L _ _ Hlr _ Hj).
    rewrite getrow_del. case_decide as Hd'; [|done]. destruct Hd' as [<- ->]. exfalso.
    unfold fk_del_ok in Hok. rewrite forallb_forall in Hok.
    specialize (Hok _ (proj1 (elem_of_list_In _ _) Hfk)). simpl in Hok.
    rewrite bool_decide_true in Hok by done. simpl in Hok. rewrite forallb_forall in Hok.
    assert (Hin : (lk, lr) ∈ map_to_list (tab (del_row d (m_table o) k) lt)).
    { apply elem_of_map_to_list. change (getrow (del_row d (m_table o) k) lt lk = Some lr). rewrite getrow_del, decide_False; done. }
    specialize (Hok _ (proj1 (elem_of_list_In _ _) Hin)). simpl in Hok.
    unfold cell in Hok. rewrite Hpk, decide_False, Hj in Hok by done. by rewrite bool_decide_true in Hok.
Qed.
Lemma links_tabs d d' : d_tabs d' = d_tabs d → links_ok S d → links_ok S d'.
Proof.
  intros Heq L m f dp o t c rc Hm Hf Hdp Hr Hfo lk lr Hlr j Hj. unfold getrow, tab in *. rewrite Heq in *.
  by eapply L.
Qed.
Lemma row_view_tabs m rd k d d' : d_tabs d' = d_tabs d → row_view S m rd k d' = row_view S m rd k d.
Proof.
  intros Heq. unfold row_view, dep_view, getrow, tab. by rewrite Heq.
Qed.

(** ** The main marking fact: what any declared reader sees cannot change unnoticed. *)
Section view.
  Context (m : model) (f : field) (fn : callback) (ds : list dep) (sk : list string) (rd : reads) (k : Z).
  Context (Hm : m ∈ s_models S) (Hf : f ∈ m_fields m) (Hk : f_kind f = KCallback fn ds sk).
  Context (Hdr : declared_reads S m ds rd).

  Definition vnoticed (d d' : db) : Prop :=
    row_view S m rd k d' ≠ row_view S m rd k d → row_view S m rd k d' ≠ None → newly d d' (marker_of m k).
  Lemma vnoticed_trans a c d : dmono a c → dmono c d → vnoticed a c → vnoticed c d → vnoticed a d.
  Proof. apply noticed_trans. Qed.
  Lemma vnoticed_tabs d d' : d_tabs d' = d_tabs d → vnoticed d d'.
  Proof. intros Heq Hne. by rewrite (row_view_tabs _ _ _ _ _ Heq) in Hne. Qed.

  Lemma exec_vnoticed t cs d d' :
    Forall ch_quiet cs → (e_be E = Postgres → NoDup (ch_key <$> cs)) →
    exec E t cs d = Ok d' → links_ok S d → links_ok S d' ∧ dmono d d' ∧ vnoticed d d'.
  Proof.
    intros Hq Hnd H L.
    assert (Hgo : ∀ cs, Forall ch_quiet cs → NoDup (ch_key <$> cs) → ∀ d d', exec E t cs d = Ok d' → links_ok S d →
       links_ok S d' ∧ dmono d d' ∧ vnoticed d d').
    { intros cs' Hq' Hnd' a a' Ha La.
      eapply (exec_noticed E (row_view S m rd k) (marker_of m k) (links_ok S) (λ _, ch_quiet)) with (rank := rank); [..|exact Hq'|exact Hnd'|exact Ha|exact La].
      - eapply stable; eauto.
      - eapply obs_view; eauto.
      - done.
      - intros. by eapply upd_changes_quiet.
      - intros. by eapply links_apply.
      - intros. by eapply links_tabs.
      - intros. by apply row_view_tabs.
      - eapply unique_names; eauto.
      - intros Hb. apply Hac. by rewrite <- (E_be _ _ _ _ _ _ _ HE Hl). }
    destruct (decide (e_be E = Postgres)) as [Hb|Hb]; [eapply Hgo; eauto|].
    unfold exec, run_stmt in H.
    assert (H' : foldM (λ d c, run_batch E (fire E (e_depth E) []) t [c] d) d cs = Ok d') by by destruct (e_be E).
    clear H. revert L.
    apply (foldM_rel (λ d d', links_ok S d → links_ok S d' ∧ dmono d d' ∧ vnoticed d d') _ _) with (4 := H').
    - intros a La. split_and!; [done|apply dmono_refl|by apply vnoticed_tabs].
    - intros x y z H1 H2 Lx. destruct (H1 Lx) as (L1 & D1 & N1). destruct (H2 L1) as (L2 & D2 & N2).
      split_and!; [done|by eapply dmono_trans|by eapply vnoticed_trans].
    - intros a c a' Hc Ha La. apply (Hgo [c]).
      + apply Forall_singleton. by eapply Forall_forall in Hq.
      + apply NoDup_singleton.
      + unfold exec, run_stmt. destruct (e_be E); [|done|]; simpl; by rewrite Ha.
      + done.
  Qed.

  Definition vgood (d d' : db) : Prop := links_ok S d → links_ok S d' ∧ dmono d d' ∧ vnoticed d d'.
  Lemma vgood_tabs d d' : d_tabs d' = d_tabs d → d_dirty d' = d_dirty d → vgood d d'.
  Proof.
    intros Ht Hd L. split_and!; [by eapply links_tabs|by apply dmono_eq|by apply vnoticed_tabs].
  Qed.
  Lemma vgood_refl d : vgood d d. Proof. by apply vgood_tabs. Qed.
  Lemma vgood_trans x y z : vgood x y → vgood y z → vgood x z.
  Proof.
    intros H1 H2 Lx. destruct (H1 Lx) as (L1 & D1 & N1). destruct (H2 L1) as (L2 & D2 & N2).
    split_and!; [done|by eapply dmono_trans|by eapply vnoticed_trans].
  Qed.
  Lemma exec_vgood t cs d d' :
    Forall ch_quiet cs → (e_be E = Postgres → NoDup (ch_key <$> cs)) → exec E t cs d = Ok d' → vgood d d'.
  Proof. intros ??? L. by eapply exec_vnoticed. Qed.

  Lemma run_op_vgood o d d' : run_op E S o d = Ok d' → vgood d d'.
  Proof. apply run_op_R; [apply vgood_trans|apply vgood_tabs|apply exec_vgood]. Qed.
  Lemma save_existing_vgood m' k' r d p : save_existing E m' k' r d = Ok p → vgood d p.1.
  Proof. apply save_existing_R; [apply vgood_trans|apply vgood_tabs|apply exec_vgood]. Qed.
End view.

(** ** Link rows keep pointing to existing rows. *)
Definition lgood (d d' : db) : Prop := links_ok S d → links_ok S d'.
Lemma exec_lgood t cs d d' : Forall ch_quiet cs → exec E t cs d = Ok d' → lgood d d'.
Proof.
  intros Hq. apply run_stmt_rel.
  - by intros ??.
  - intros x y z H1 H2 L. auto.
  - intros d1 e d2. apply fire_rel.
    + by intros ??.
    + intros x y z H1 H2 L. auto.
    + intros d3 l3 L. by eapply links_tabs.
    + intros d3 d4 t' k c o v Htw Hg Hd L m f dp o' lt c' rc Hm Hf Hdp Hr Hfo lk lr Hlr j Hj.
      assert (Heq : ∀ t' k', getrow d4 t' k' = getrow d3 t' k') by (by destruct Hd as [-> | ->]).
      pose proof (wf_deps _ Hwf _ _ _ Hm Hf Hdp _ Hfo) as Wd. rewrite Hr in Wd. destruct Wd as (Wt & _ & Wrc).
      rewrite getrow_put in Hlr. case_decide as Hdec.
      * destruct Hdec as [-> ->]. exfalso. by eapply link_not_tw.
      * rewrite Heq in Hlr. destruct (L _ _ _ _ _ _ _ Hm Hf Hdp Hr Hfo _ _ Hlr _ Hj) as [x Hx].
        rewrite getrow_put. case_decide; [by eexists|]. rewrite Heq. by eexists.
  - intros d1 ch d2 evs Hch Hap L. eapply links_apply; [|exact L|exact Hap]. by eapply Forall_forall in Hq.
Qed.
Lemma run_op_lgood o d d' : run_op E S o d = Ok d' → lgood d d'.
Proof.
  apply run_op_R; [intros x y z H1 H2 L; auto|intros ?? ?? ?; by eapply links_tabs|intros; by eapply exec_lgood].
Qed.
Lemma save_existing_lgood m' k' r d p : save_existing E m' k' r d = Ok p → lgood d p.1.
Proof.
  apply save_existing_R; [intros x y z H1 H2 L; auto|intros ?? ?? ?; by eapply links_tabs|intros; by eapply exec_lgood].
Qed.

(** ** The invariant *)
Definition rd_plus (f : field) (rd : reads) : reads := Reads (f_col f :: rd_own rd) (rd_via rd).
Lemma declared_plus m f fn ds rd : covered S m f fn ds rd → declared_reads S m ds (rd_plus f rd).
Proof.
  intros [_ [H1 H2 H3 H4] Hs]. split; simpl.
  - intros c [->|Hc]%elem_of_cons; auto.
  - done.
  - done.
  - intros dp cs o Hin Hfo. specialize (H4 _ _ _ Hin Hfo). destruct (dep_rel dp); try done. by right.
Qed.
Lemma covered_transfer m f fn ds sk rd k d d' r r' :
  f_kind f = KCallback fn ds sk → covered S m f fn ds rd →
  getrow d (m_table m) k = Some r → getrow d' (m_table m) k = Some r' →
  row_view S m (rd_plus f rd) k d' = row_view S m (rd_plus f rd) k d →
  row_consistent m d k r f → row_consistent m d' k r' f.
Proof.
  intros Hk [Hro _ _] Hr Hr' Hv. unfold row_consistent. rewrite Hk. intros (pv & Hfn & Hst).
  unfold row_view in Hv. rewrite Hr, Hr' in Hv. injection Hv as Hc Hown Hvia. exists pv. split.
  - rewrite <- Hfn. apply Hro.
    + intros c Hin. apply elem_of_list_lookup in Hin as [i Hi].
      assert (Heq : (col r' <$> rd_own rd) !! i = (col r <$> rd_own rd) !! i) by exact (f_equal (λ x, x !! i) Hown).
      rewrite !list_lookup_fmap, Hi in Heq. by injection Heq.
    + intros dp cs Hin. apply elem_of_list_lookup in Hin as [i Hi]. simpl in Hvia.
      assert (Heq : ((λ p : dep * list string, dep_view S m d' k r' p.1 p.2) <$> rd_via rd) !! i =
                    ((λ p : dep * list string, dep_view S m d k r p.1 p.2) <$> rd_via rd) !! i) by by rewrite Hvia.
      rewrite !list_lookup_fmap, Hi in Heq. by injection Heq.
  - unfold stores in *. by rewrite Hc.
Qed.

(** A row consistent or marked before is so afterwards, if whatever a declared
    reader of that row sees is noticed. *)
Lemma row_kept (Hcov : all_covered S) m k d d' r r' :
  m ∈ s_models S →
  (∀ f fn ds sk rd, f ∈ m_fields m → f_kind f = KCallback fn ds sk → declared_reads S m ds rd → vnoticed m rd k d d') →
  getrow d (m_table m) k = Some r → getrow d' (m_table m) k = Some r' → ¬ newly d d' (marker_of m k) →
  (∀ f, f ∈ m_fields m → row_consistent m d k r f) → ∀ f, f ∈ m_fields m → row_consistent m d' k r' f.
Proof.
  intros Hm Hv Hr Hr' Hnm Hok f Hf.
  destruct (f_kind f) as [| |fn ds sk|a|ds] eqn:Hk; try by (unfold row_consistent; rewrite Hk).
  destruct (Hcov _ _ _ _ _ Hm Hf Hk) as [rd Hc].
  assert (Heq : row_view S m (rd_plus f rd) k d' = row_view S m (rd_plus f rd) k d).
  { destruct (decide (row_view S m (rd_plus f rd) k d' = row_view S m (rd_plus f rd) k d)) as [|Hne]; [done|].
    exfalso. apply Hnm. eapply Hv; [exact Hf|exact Hk|by eapply declared_plus|exact Hne|].
    unfold row_view. by rewrite Hr'. }
  eapply covered_transfer; [exact Hk|exact Hc|exact Hr|exact Hr'|exact Heq|by apply Hok].
Qed.
Lemma row_inv (Hcov : all_covered S) m k d d' r' :
  m ∈ s_models S →
  (∀ f fn ds sk rd, f ∈ m_fields m → f_kind f = KCallback fn ds sk → declared_reads S m ds rd → vnoticed m rd k d d') →
  dmono d d' → getrow d' (m_table m) k = Some r' →
  (∀ r, getrow d (m_table m) k = Some r → marker_of m k ∈ d_dirty d ∨ ∀ f, f ∈ m_fields m → row_consistent m d k r f) →
  marker_of m k ∈ d_dirty d' ∨ ∀ f, f ∈ m_fields m → row_consistent m d' k r' f.
Proof.
  intros Hm Hv Hmono Hr' Hd.
  destruct (decide (marker_of m k ∈ d_dirty d')) as [|Hnm]; [by left|right].
  assert (Hnn : ¬ newly d d' (marker_of m k)) by (intros Hn; by apply Hnm, (newly_in d)).
  destruct (getrow d (m_table m) k) as [r|] eqn:Hr.
  - eapply row_kept; [done|done|done|exact Hr|exact Hr'|done|].
    destruct (Hd _ eq_refl) as [Hmk|Hok]; [|done]. exfalso. apply Hnm. by eapply dmono_in.
  - intros f Hf. destruct (f_kind f) as [| |fn ds sk|a|ds] eqn:Hk; try by (unfold row_consistent; rewrite Hk).
    destruct (Hcov _ _ _ _ _ Hm Hf Hk) as [rd Hc]. exfalso. apply Hnn.
    eapply Hv; [exact Hf|exact Hk|by eapply declared_plus| |]; unfold row_view; rewrite ?Hr, Hr'; done.
Qed.

Lemma run_op_dmono o d d' : run_op E S o d = Ok d' → dmono d d'.
Proof. apply run_op_R; [apply dmono_trans|intros; by apply dmono_eq|intros; by eapply exec_dmono]. Qed.

(** Every operation keeps the invariant. *)
Lemma run_op_inv (Hcov : all_covered S) o d d' :
  run_op E S o d = Ok d' → links_ok S d → consistent_or_marked S d → links_ok S d' ∧ consistent_or_marked S d'.
Proof.
  intros H L C. split; [by eapply run_op_lgood|]. intros m k r' Hm Hr'.
  eapply row_inv; [done|done| |by eapply run_op_dmono|done|by intros; apply C].
  intros. eapply run_op_vgood; eauto.
Qed.
Lemma steps_inv (Hcov : all_covered S) ops d :
  links_ok S d → consistent_or_marked S d →
  links_ok S (foldl (step E S) d ops) ∧ consistent_or_marked S (foldl (step E S) d ops).
Proof.
  revert d. induction ops as [|o ops IH]; intros d L C; simpl; [done|].
  assert (H : links_ok S (step E S d o) ∧ consistent_or_marked S (step E S d o)).
  { unfold step. destruct (run_op E S o d) eqn:Ho; [by eapply run_op_inv|done]. }
  destruct H. by apply IH.
Qed.
End inv.
