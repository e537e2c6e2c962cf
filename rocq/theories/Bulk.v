(** * Saves and flush with DENORM_BULK_UNSAFE_TRIGGERS (denorm/fields.py:41-44):
    the triggers that mark a row for its own changes are missing. *)
From stdpp Require Import relations.
From Verif Require Import Base BaseLemmas Schema TrigSet Gen Exec Orm Flush Machine Spec SpecAgg SpecOrder SpecSave Engine GenLemmas Marking Conditions Invariant Settle Sessions.

(** ** Field pre_save of a new instance *)
Section presave_new.
Context (E : env) (m : model) (add : bool) (pk : option Z).
Lemma presave_keep_plain fs : ∀ p q c, foldM (presave_field E m add pk) p fs = Ok q →
  (∀ g, g ∈ fs → f_col g = c → f_kind g = KPlain) → col q.2 c = col p.2 c.
Proof.
  induction fs as [|g fs IH]; intros p q c H Hc; simpl in H; [by injection H as <-|].
  inv_bind H. rename a into p1. assert (Hs : col p1.2 c = col p.2 c).
  { unfold presave_field in H0. destruct (decide (f_col g = c)) as [Heq|Hne].
    - rewrite (Hc g) in H0 by (done || left). by injection H0 as <-.
    - assert (Hn : ∀ v, col (<[f_col g := v]> p.2) c = col p.2 c) by (intros; apply col_insert_ne; congruence).
      destruct (f_kind g).
      + by injection H0 as <-.
      + injection H0 as <-. apply Hn.
      + inv_bind H0. inv_bind H0. injection H0 as <-. apply Hn.
      + destruct add; [injection H0 as <-; apply Hn|]. destruct (pk ≫= _) as [r0|]; [|done].
        destruct (m_visible m r0); [|done]. injection H0 as <-. apply Hn.
      + injection H0 as <-. apply Hn. }
  rewrite <- Hs. eapply IH; [exact H|]. intros g' Hg'. apply Hc. by right.
Qed.
(** As [presave_callback], for a function that reads no counts, sums or cache keys of its row. *)
Lemma presave_callback_new rin f fn ds sk d q rd :
  NoDup (f_col <$> m_fields m) → f ∈ m_fields m → f_kind f = KCallback fn ds sk → reads_before m f rd →
  (∀ c, c ∈ rd_own rd → column_of m c) → presave_all E m add pk d rin = Ok q →
  ∃ di ri pv v, d_tabs di = d_tabs d ∧ fn di pk ri = Ok pv ∧ store_value f pv = Ok v ∧
    col q.2 (f_col f) = v ∧ ∀ c, c ∈ rd_own rd → col ri c = col q.2 c.
Proof.
  intros Hnd Hf Hk Hrb Hcols H. unfold presave_all in H. pose proof Hnd as Hnd0.
  apply elem_of_list_split in Hf as (l1 & l3 & Hl). rewrite Hl in H, Hnd.
  rewrite fmap_app, fmap_cons in Hnd. apply NoDup_app in Hnd as (Hn1 & Hn12 & Hn2). apply NoDup_cons in Hn2 as [Hf3 Hn3].
  rewrite foldM_app in H. inv_bind H. destruct a as [di ri]. rewrite foldM_cons in H. inv_bind H.
  destruct a as [dj rj]. rename H0 into HA, H1 into HB, H into HC.
  pose proof (presave_fold_db _ _ _ _ _ _ _ HA) as TA. simpl in TA.
  pose proof HB as HB'. unfold presave_field in HB'. rewrite Hk in HB'. simpl in HB'. inv_bind HB'. inv_bind HB'. injection HB' as <- <-.
  assert (Hkeep : ∀ fs (p q : db * row) c, foldM (presave_field E m add pk) p fs = Ok q → (∀ g, g ∈ fs → f_col g ≠ c) → col q.2 c = col p.2 c).
  { intros fs p' q' c Hq Hc. eapply presave_keep_plain; [exact Hq|]. intros g Hg Heq. by destruct (Hc g Hg). }
  assert (Hnot3 : ∀ g, g ∈ l3 → f_col g ≠ f_col f).
  { intros g Hg Heq. apply Hf3. rewrite <- Heq. apply elem_of_list_fmap. by exists g. }
  assert (Hnot1 : ∀ g g', g ∈ l1 → g' ∈ f :: l3 → f_col g ≠ f_col g').
  { intros g g' Hg Hg' Heq. apply (Hn12 (f_col g)).
    - apply elem_of_list_fmap. by exists g.
    - rewrite <- fmap_cons. apply elem_of_list_fmap. by exists g'. }
  exists di, ri, a, a0. split_and!; [done|done|done| |].
  - rewrite (Hkeep l3 _ _ (f_col f) HC Hnot3). simpl. apply col_insert_eq.
  - intros c Hc. destruct (Hcols _ Hc) as (g & Hg & <- & Hgk). specialize (Hrb g Hg Hc). unfold plain_or_callback in Hgk.
    assert (Hearlier : (∃ m1 m2 m3, m_fields m = m1 ++ g :: m2 ++ f :: m3) → col ri (f_col g) = col q.2 (f_col g)).
    { intros (m1 & m2 & m3 & Hm).
      assert (Hl1 : l1 = m1 ++ g :: m2).
      { assert (Heq : l1 ++ f :: l3 = (m1 ++ g :: m2) ++ f :: m3) by (rewrite <- Hl, Hm; by rewrite <- (assoc_L app)).
        apply NoDup_app_cons_eq in Heq as [-> _]; [done|]. rewrite <- Hl. by apply (NoDup_fmap_1 f_col). }
      symmetry. change ri with ((di, ri).2) at 1. eapply (Hkeep (f :: l3) (di, ri)).
      - rewrite foldM_cons, HB. exact HC.
      - intros g' Hg' Heq. symmetry in Heq. revert Heq. apply Hnot1; [|done]. rewrite Hl1. set_solver. }
    destruct (f_kind g) eqn:Hkg; try contradiction; eauto.
    assert (Huniq : ∀ g', g' ∈ m_fields m → f_col g' = f_col g → f_kind g' = KPlain).
    { intros g' Hg' Heq. by rewrite (NoDup_fmap_eq f_col _ g' g Hnd0 Hg' Hg Heq). }
    symmetry. change ri with ((di, ri).2) at 1. eapply (presave_keep_plain (f :: l3) (di, ri)).
    + rewrite foldM_cons, HB. exact HC.
    + intros g' Hg'. apply Huniq. rewrite Hl. set_solver.
Qed.
End presave_new.

Section bulk.
Context (b : backend) (S : schema) (rand : nat → Z) (imm : bool) (depth : nat) (E : env) (l : list trigger).
Context (HE : mk_env b S rand imm depth = Ok E) (Hl : gen_all S = Ok l) (Hnames : names_ok b l).
Context (rank : string → nat) (Hsa : savable S rank imm) (Hac : acyclic E rank).

Let Hwf : wf_schema S := sa_wf _ _ _ Hsa.
Let Hlk : wf_links S := sa_links _ _ _ Hsa.

(** ** The saved row *)
Lemma savable_settles m k r rin d p : m ∈ s_models S → getrow d (m_table m) k = Some r → no_self_relation S d →
  not_self_related m d k rin → counts_current m rin r → save_existing E m k rin d = Ok p →
  no_self_relation S p.1 ∧ getrow p.1 (m_table m) k = Some p.2 ∧ (∀ c, plain_col m c → col p.2 c = col rin c) ∧
  ∀ f, f ∈ m_fields m → row_consistent m p.1 k p.2 f.
Proof.
  intros Hm Hr Hns Hnr Hcur H. 
  pose proof (sa_self _ _ _ Hsa). pose proof (sa_nodm _ _ _ Hsa). pose proof (sa_settled _ _ _ Hsa). pose proof (sa_m2m _ _ _ Hsa). pose proof (sa_truthy _ _ _ Hsa).
  eapply save_settles_inst with (l := l) (rank := rank); eauto.
Qed.

Context (Hos : own_stored S rank).
(** ** Other rows: what they see through dependencies is noticed *)
Section other.
  Context (m : model) (f : field) (fn : callback) (ds : list dep) (sk : list string) (rd : reads) (k : Z) (v0 : list val).
  Context (Hm : m ∈ s_models S) (Hf : f ∈ m_fields m) (Hk : f_kind f = KCallback fn ds sk).
  Context (Hdr : declared_reads S m ds rd) (Hown : ∀ c, c ∈ rd_own rd → column_of m c).

  Definition own_kept (d : db) : Prop := links_ok S d ∧ ∃ r, getrow d (m_table m) k = Some r ∧ cols_of (rd_own rd) r = v0.
  (** A change that does not write the row, or only a column kept by triggers. *)
  Definition spares (t : string) (ch : change) : Prop := ch_quiet ch ∧
    (t = m_table m → ch_key ch = k →
     ∃ g c, tw E t c ∧ ch = CUpd k g ∧ ∀ d o p, g d o = Ok p → ∃ v, p.1 = <[c := v]> o).
  Lemma spares_upd e d t c x w ch : tw E t c → ch ∈ upd_changes E e d t c x w → spares t ch.
  Proof.
    intros Htw Hin. split; [by eapply upd_changes_quiet|]. intros -> Hkey.
    apply elem_of_list_fmap in Hin as ([k' r] & -> & _). simpl in Hkey. subst k'. eexists _, c. split_and!; [done|reflexivity|].
    intros d1 o p H. inv_bind H. injection H as <-. by eexists.
  Qed.
  Lemma own_kept_apply t d ch d' evs : spares t ch → own_kept d → apply_change E t d ch = Ok (d', evs) → own_kept d'.
  Proof.
    intros [Hq Hsp] [L (r & Hr & Hv)] H. split.
    { eapply links_apply; [exact Hwf|exact HE|exact Hl|exact (sa_m2m _ _ _ Hsa)|exact Hq|exact L|exact H]. }
    destruct (apply_change_applied _ _ _ _ _ _ Hq H) as [Ap Hkeys].
    destruct (decide (t = m_table m)) as [->|Ht]; [|exists r; by rewrite (ap_other _ _ _ _ Ap) by done].
    destruct (decide (ch_key ch = k)) as [Hkey|Hkey].
    - destruct (Hsp eq_refl Hkey) as (g & c & Htw & -> & Hg). simpl in H. rewrite Hr in H. inv_bind H.
      destruct (_ || _) in H; [|done]. injection H as <- <-. destruct (Hg _ _ _ H0) as (v & Hv'). exists a.1.
      rewrite getrow_put_eq, Hv'. split; [done|]. rewrite <- Hv. apply fmap_ext_in. intros c' Hc'. apply col_insert_ne.
      intros ->. eapply (column_not_tw b S rand imm depth E l Hwf HE Hl m _ Hm); [by apply Hown|done].
    - exists r. rewrite (ap_none _ _ _ _ Ap); [done|]. intros e He Hek. apply Hkey. by rewrite <- (Hkeys _ He).
  Qed.
  Lemma exec_spares t cs d d' : Forall (spares t) cs → NoDup (ch_key <$> cs) → exec E t cs d = Ok d' → own_kept d →
    own_kept d' ∧ dmono d d' ∧ vnoticed S m rd k d d'.
  Proof.
    intros Hcs Hnd H Hi.
    eapply (exec_noticed E (row_view S m rd k) (marker_of m k) own_kept spares) with (rank := rank); [..|exact Hcs|exact Hnd|exact H|exact Hi].
    - eapply stable; eauto.
    - intros t' d1 d2 evs [L1 (r1 & Hr1 & E1)] [L2 (r2 & Hr2 & E2)] Ap Hne _.
      eapply (obs_via b S rand imm depth E l Hwf HE Hl Hnames Hlk m f fn ds sk rd k t' d1 d2 evs r1 r2 Hm Hf Hk Hdr L1 L2 Ap Hr1 Hr2); [congruence|done].
    - by intros ?? [].
    - intros. by eapply spares_upd.
    - intros. by eapply own_kept_apply.
    - intros d1 l1 [L (r & Hr & Hv)]. split; [by eapply links_tabs|]. by exists r.
    - intros. by apply row_view_tabs.
    - eapply unique_names; eauto.
    - done.
  Qed.
End other.

(** Every other row stays consistent or gets marked. *)
Lemma others_inv t cs m k d d' r' : m ∈ s_models S →
  Forall (spares m k t) cs → NoDup (ch_key <$> cs) → exec E t cs d = Ok d' → links_ok S d →
  is_Some (getrow d (m_table m) k) → getrow d' (m_table m) k = Some r' →
  (∀ r, getrow d (m_table m) k = Some r → marker_of m k ∈ d_dirty d ∨ ∀ f, f ∈ m_fields m → row_consistent m d k r f) →
  marker_of m k ∈ d_dirty d' ∨ ∀ f, f ∈ m_fields m → row_consistent m d' k r' f.
Proof.
  intros Hm Hcs Hnd H L [r Hr] Hr' Hd. destruct (decide (marker_of m k ∈ d_dirty d')) as [|Hnm]; [by left|right].
  assert (Hdm : dmono d d'). { eapply exec_dmono; [|exact H]. eapply Forall_impl; [exact Hcs|]. by intros ? []. }
  intros f Hf. destruct (f_kind f) as [| |fn ds sk|a|ds] eqn:Hk; try by (unfold row_consistent; rewrite Hk).
  destruct (Hos _ _ _ _ _ Hm Hf Hk) as (rd & Hcv & _ & Hown).
  assert (Hdr : declared_reads S m ds (rd_plus f rd)) by (by eapply declared_plus).
  assert (Hown' : ∀ c, c ∈ rd_own (rd_plus f rd) → column_of m c).
  { intros c [->|Hc]%elem_of_cons; [|by apply Hown]. exists f. split_and!; [done|done|]. unfold plain_or_callback. by rewrite Hk. }
  destruct (exec_spares m f fn ds sk (rd_plus f rd) k (cols_of (rd_own (rd_plus f rd)) r) Hm Hf Hk Hdr Hown' t cs d d' Hcs Hnd H)
    as (_ & _ & Hn). { split; [done|]. by exists r. }
  eapply (covered_transfer S m f fn ds sk rd k d d' r r' Hk Hcv Hr Hr').
  - destruct (decide (row_view S m (rd_plus f rd) k d' = row_view S m (rd_plus f rd) k d)) as [|Hne]; [done|].
    exfalso. apply Hnm. apply (newly_in d). apply Hn; [done|]. unfold row_view. by rewrite Hr'.
  - destruct (Hd _ Hr) as [Hmk|Hok]; [|by apply Hok]. exfalso. apply Hnm. by eapply dmono_in.
Qed.

(** Saving an instance of a stored row keeps the invariant and settles the row. *)
Lemma inst_inv m k r rin d p : m ∈ s_models S → getrow d (m_table m) k = Some r →
  not_self_related m d k rin → counts_current m rin r → save_existing E m k rin d = Ok p →
  finv S d → finv S p.1 ∧ mk_settled S (marker_of m k) p.1.
Proof.
  intros Hm Hr Hnr Hcur Hsv (L & C & N).
  destruct (savable_settles m k r rin d p Hm Hr N Hnr Hcur Hsv) as (N' & Hr' & _ & Hc').
  assert (Hst : mk_settled S (marker_of m k) p.1).
  { intros m' k' y Hm' Heq Hy. apply (marker_of_inj S Hwf) in Heq as [-> ->]; [|done|done]. rewrite Hr' in Hy. by injection Hy as <-. }
  assert (L' : links_ok S p.1).
  { eapply (save_existing_lgood b S rand imm depth E l Hwf HE Hl (sa_m2m _ _ _ Hsa)); eauto. }
  split; [|done]. split_and!; [done| |done]. intros m' k' y Hm' Hy.
  destruct (decide (marker_of m' k' = marker_of m k)) as [Heq|Hne]; [right; by eapply Hst|].
  pose proof Hsv as H. unfold save_existing in H. inv_bind H. eapply m2m_pre_save_none in H0; [subst a|exact (sa_nodm _ _ _ Hsa)|done].
  inv_bind H. inv_bind H. injection H as <-. simpl in *. rename a into q, a0 into d2, H0 into Hq, H1 into Hx.
  pose proof (presave_all_db _ _ _ _ _ _ _ Hq) as [Tq Dq].
  assert (Hg : ∀ t j, getrow q.1 t j = getrow d t j) by (intros; unfold getrow, tab; by rewrite Tq).
  assert (Hne' : m_table m' = m_table m → k' ≠ k).
  { intros Ht ->. apply Hne. f_equal. eapply NoDup_fmap_eq; [apply (wf_tables _ Hwf)|done..]. }
  eapply (others_inv (m_table m) [upd_all k q.2] m' k' q.1 d2 y Hm').
  - apply Forall_singleton. split; [by intros ??? [= <-]|]. intros Ht Hkey. simpl in Hkey. symmetry in Ht. by destruct (Hne' Ht).
  - apply NoDup_singleton.
  - done.
  - by eapply links_tabs.
  - rewrite Hg. (* the row existed: an UPDATE creates no row *)
    pose proof Hx as Hx'. unfold exec in Hx'. apply run_stmt_single in Hx'. unfold run_batch in Hx'. inv_bind Hx'. destruct a as [d3 evs]. simpl in Hx'.
    rewrite apply_all_cons in Hx'0. inv_bind Hx'0. destruct a as [d4 evs1]. simpl in Hx'0. injection Hx'0 as <- <-.
    unfold upd_all in Hx'1. simpl in Hx'1. rewrite Hg, Hr in Hx'1. simpl in Hx'1. destruct (_ || _) in Hx'1; [|done]. injection Hx'1 as <- <-.
    rewrite app_nil_r in Hx'. simpl in Hx'. inv_bind Hx'. injection Hx' as <-. apply fire_skel in Hx'0. specialize (Hx'0 (m_table m') k').
    rewrite Hy in Hx'0. destruct (getrow (put_row q.1 (m_table m) k q.2) (m_table m') k') as [z|] eqn:Hz; [|done].
    rewrite getrow_put_ne, Hg in Hz by naive_solver. by rewrite Hz.
  - done.
  - intros r1 Hr1. rewrite Hg in Hr1. destruct (C _ _ _ Hm' Hr1) as [Hin|Hok]; [left; by rewrite Dq|right].
    intros f Hf. destruct (f_kind f) as [| |fn ds sk|a|ds] eqn:Hk; try by (unfold row_consistent; rewrite Hk).
    destruct (Hos _ _ _ _ _ Hm' Hf Hk) as (rd & Hcv & _).
    eapply (covered_transfer S m' f fn ds sk rd k' d q.1 r1 r1 Hk Hcv Hr1); [by rewrite Hg|by apply row_view_tabs|by apply Hok].
Qed.

(** ** Creating one row *)
(** The parts of save() of an instance that is not stored yet: [d1] and [r1] are the database
    and the instance when Django gets to the INSERT. *)
Lemma save_new_parts m pk k rin d d' r' : m ∈ s_models S → getrow d (m_table m) k = None → save E m pk rin d = Ok (d', k, r') →
  ∃ d1 r1 q, d_tabs d1 = d_tabs d ∧ d_dirty d1 = d_dirty d ∧ (∀ c, plain_col m c → col r1 c = col rin c) ∧
    presave_all E m true pk d1 r1 = Ok q ∧ exec E (m_table m) [CIns k q.2] q.1 = Ok d' ∧ r' = q.2.
Proof.
  intros Hm Hr H.
  assert (Hnm : has_m2m_denorm m = false).
  { unfold has_m2m_denorm. destruct (existsb _ _) eqn:Hex; [|done]. apply existsb_exists in Hex as (mm & Hmm & Hd).
    rewrite (sa_nodm _ _ _ Hsa m mm Hm) in Hd by (by apply elem_of_list_In). done. }
  unfold save in H. unfold post_save_created in H. rewrite Hnm in H. destruct pk as [k0|].
  - assert (k0 = k) as ->.
    { destruct (getrow d (m_table m) k0); [by inv_bind H; injection H|]. do 4 inv_bind H. inv_bind H. by injection H. }
    rewrite Hr in H. inv_bind H. eapply m2m_pre_save_none in H0; [subst a|exact (sa_nodm _ _ _ Hsa)|done].
    inv_bind H. inv_bind H. inv_bind H. cbn [rbind] in H. injection H as <- <-.
    rename a into p, H0 into Hp. pose proof (presave_all_db _ _ _ _ _ _ _ Hp) as [Tp Dp].
    exists p.1, p.2, a0. split_and!; try done. intros c (g & Hgm & <- & Hk). change rin with ((d, rin).2) at 1.
    eapply (presave_keep_plain E m false (Some k) (m_fields m) (d, rin)); [exact Hp|].
    intros g' Hg' Heq. assert (g' = g) as ->; [|done]. eapply NoDup_fmap_eq; [apply (wf_cols _ _ (wf_models _ Hwf _ Hm))|done..].
  - inv_bind H. inv_bind H. cbn [rbind] in H. injection H as <- <- <-. by exists d, rin, a.
Qed.

(** The new row is right if the functions give the instance what they give it with its key. *)
Lemma new_settles m pk k rin d d' r' : m ∈ s_models S → getrow d (m_table m) k = None → no_self_relation S d →
  not_self_related m d k rin → key_alike m d pk k → save E m pk rin d = Ok (d', k, r') →
  updated E rank (m_table m) k r' d d' ∧ no_self_relation S d' ∧ (∀ c, plain_col m c → col r' c = col rin c) ∧
  ∀ f, f ∈ m_fields m → row_consistent m d' k r' f.
Proof.
  intros Hm Hr N Hnr Hal H. destruct (save_new_parts _ _ _ _ _ _ _ Hm Hr H) as (d1 & r1 & q & T1 & D1 & P1 & Hq & Hx & ->).
  pose proof (presave_all_db _ _ _ _ _ _ _ Hq) as [Tq Dq].
  assert (Hg : ∀ t j, getrow q.1 t j = getrow d t j) by (intros; unfold getrow, tab; by rewrite Tq, T1).
  assert (Hu : updated E rank (m_table m) k q.2 d d').
  { assert (Hrq : getrow q.1 (m_table m) k = None) by (by rewrite Hg).
    destruct (exec_inserted _ _ _ _ _ _ _ Hac Hrq Hx) as [U1 U2 U3]. split; [done|..].
    - intros t' j ??. rewrite U2 by done. apply Hg.
    - intros t' j Hne. specialize (U3 t' j Hne). by rewrite Hg in U3. }
  assert (Hplain : ∀ c, plain_col m c → col q.2 c = col rin c).
  { intros c Hc. rewrite <- (P1 c Hc). destruct Hc as (g & Hgm & <- & Hk). change r1 with ((d1, r1).2) at 1.
    eapply (presave_keep_plain E m true pk (m_fields m) (d1, r1)); [exact Hq|].
    intros g' Hg' Heq. assert (g' = g) as ->; [|done]. eapply NoDup_fmap_eq; [apply (wf_cols _ _ (wf_models _ Hwf _ Hm))|done..]. }
  assert (Hrx : ∀ x : row, getrow d (m_table m) k = Some x → x = rin) by (intros; congruence).
  split_and!; [done| |done|].
  { exact (no_self_updated b S rand imm depth E l Hwf HE Hl Hnames Hlk (sa_m2m _ _ _ Hsa) rank Hac (sa_self _ _ _ Hsa) (sa_nodm _ _ _ Hsa)
      (sa_truthy _ _ _ Hsa) m k rin rin q.2 d d' Hm Hrx Hu Hplain N Hnr). }
  intros f Hf. unfold row_consistent. destruct (f_kind f) as [| |fn ds sk|a|ds] eqn:Hk; [done..| |done|done].
  destruct (Hos _ _ _ _ _ Hm Hf Hk) as (rd & Hcv & Hse & Hco).
  edestruct (presave_callback_new E m true pk r1 f fn ds sk d1 q rd) as (di & ri & pv & v & Td & Hfn & Hsv & Hcol & Hri).
  { apply (wf_cols _ _ (wf_models _ Hwf _ Hm)). } { done. } { done. } { apply (se_order _ _ _ _ _ Hse). } { done. } { done. }
  rewrite T1 in Td. rewrite (Hal f fn ds sk di ri Hf Hk Td) in Hfn. exists pv. split.
  - rewrite <- Hfn. symmetry. apply (cv_reads _ _ _ _ _ _ Hcv); [done|]. intros dp cs Hin.
    assert (Hdp : dp ∈ ds) by (eapply dr_dep; [apply (cv_decl _ _ _ _ _ _ Hcv)|exact Hin]).
    eapply (dep_view_own b S rand imm depth E l Hwf HE Hl (sa_m2m _ _ _ Hsa) rank (sa_self _ _ _ Hsa) m k rin rin q.2 d d'); eauto.
  - rewrite Hcol. unfold store_value in Hsv. unfold stores. destruct pv as [w|mn j]; [by injection Hsv as ->|].
    destruct (f_fk f) as [rm|]; [|done]. case_decide; [|done]. subst. by injection Hsv as <-.
Qed.

(** Creating a row keeps the invariant. *)
Lemma new_inv m pk k rin d d' r' : m ∈ s_models S → getrow d (m_table m) k = None →
  not_self_related m d k rin → key_alike m d pk k → save E m pk rin d = Ok (d', k, r') → finv S d → finv S d'.
Proof.
  intros Hm Hr Hnr Hal H (L & C & N). destruct (new_settles _ _ _ _ _ _ _ Hm Hr N Hnr Hal H) as (Hu & N2 & _ & Hc2).
  destruct (save_new_parts _ _ _ _ _ _ _ Hm Hr H) as (d1 & r1 & q & T1 & D1 & P1 & Hq & Hx & ->).
  pose proof (presave_all_db _ _ _ _ _ _ _ Hq) as [Tq Dq]. rewrite T1 in Tq. rewrite D1 in Dq.
  assert (Hg : ∀ t j, getrow q.1 t j = getrow d t j) by (intros; unfold getrow, tab; by rewrite Tq).
  assert (L2 : links_ok S d').
  { eapply (exec_lgood b S rand imm depth E l Hwf HE Hl (sa_m2m _ _ _ Hsa)); [|exact Hx|by eapply links_tabs]. by apply Forall_singleton. }
  split_and!; [done| |done]. intros m' k' y Hm' Hy.
  destruct (decide (m_table m' = m_table m ∧ k' = k)) as [[Ht ->]|Hne].
  { right. assert (m' = m) as -> by (eapply NoDup_fmap_eq; [apply (wf_tables _ Hwf)|done..]).
    rewrite (ud_own _ _ _ _ _ _ _ Hu) in Hy. by injection Hy as <-. }
  pose proof (ud_skel _ _ _ _ _ _ _ Hu (m_table m') k' ltac:(destruct (decide (m_table m' = m_table m)); [right; naive_solver|by left])) as Hsk.
  rewrite Hy in Hsk. destruct (getrow d (m_table m') k') as [x|] eqn:Hxr; [|done].
  eapply (others_inv (m_table m) [CIns k q.2] m' k' q.1 d' y Hm').
  - apply Forall_singleton. split; [done|]. intros Ht Hkey. simpl in Hkey. naive_solver.
  - apply NoDup_singleton.
  - done.
  - by eapply links_tabs.
  - by rewrite Hg, Hxr.
  - done.
  - intros r2 Hr2. rewrite Hg, Hxr in Hr2. injection Hr2 as <-. destruct (C _ _ _ Hm' Hxr) as [Hin|Hok]; [left; by rewrite Dq|right].
    intros f Hf. destruct (f_kind f) as [| |fn ds sk|a|ds] eqn:Hk; try by (unfold row_consistent; rewrite Hk).
    destruct (Hos _ _ _ _ _ Hm' Hf Hk) as (rd & Hcv & _).
    eapply (covered_transfer S m' f fn ds sk rd k' d q.1 x x Hk Hcv Hxr); [by rewrite Hg|by apply row_view_tabs|by apply Hok].
Qed.

(** ** Deleting one row *)
Lemma del_rows t k d d' : exec E t [CDel k] d = Ok d' →
  getrow d' t k = None ∧ ∀ t' j y, getrow d' t' j = Some y →
    ∃ x, getrow d t' j = Some x ∧ ∀ c, ¬ tw E t' c → col x c = col y c.
Proof.
  intros H. unfold exec in H. apply run_stmt_single in H. unfold run_batch in H. inv_bind H. destruct a as [d1 evs].
  rewrite apply_all_cons in H0. inv_bind H0. destruct a as [d2 evs1]. simpl in H0, H1. injection H0 as <- <-. rewrite app_nil_r in H. simpl in H.
  assert (Hs : skel E d2 d').
  { clear H1. revert d2 H. induction evs1 as [|e evs1 IH]; intros d2 H; simpl in H; [injection H as <-; apply skel_refl|].
    inv_bind H. eapply skel_trans; [by eapply fire_skel|by apply IH]. }
  assert (Hd : getrow d2 t k = None ∧ ∀ t' j y, getrow d2 t' j = Some y → getrow d t' j = Some y).
  { simpl in H1. destruct (getrow d t k) as [o|] eqn:Ho; [|by injection H1 as <- <-].
    destruct (_ || _) in H1; [|done]. injection H1 as <- <-.
    split; [rewrite getrow_del; by rewrite decide_True|]. intros t' j y Hy. rewrite getrow_del in Hy. by case_decide. }
  destruct Hd as [Hk Hd]. split.
  - specialize (Hs t k). rewrite Hk in Hs. by destruct (getrow d' t k).
  - intros t' j y Hy. specialize (Hs t' j). rewrite Hy in Hs. destruct (getrow d2 t' j) as [x|] eqn:Hx; [|done]. exists x. split; [by apply Hd|done].
Qed.
Lemma del_no_self t k d d' : exec E t [CDel k] d = Ok d' → no_self_relation S d → no_self_relation S d'.
Proof.
  intros H Hns m f fn ds sk dp j y Hm Hf Hk Hdp Hy [Hoth Hrel]. destruct (del_rows _ _ _ _ H) as [_ Hsub].
  assert (Hdpf : dp ∈ field_deps f) by (unfold field_deps; by rewrite Hk).
  assert (Hfo : find_model S (dep_other dp) = Some m) by (rewrite Hoth; apply find_model_self; [apply (wf_names _ Hwf)|done]).
  pose proof (wf_deps _ Hwf _ _ _ Hm Hf Hdpf _ Hfo) as Wd.
  destruct (Hsub _ _ _ Hy) as (x & Hx & Hc).
  assert (Hp : ∀ c, plain_col m c → col x c = col y c).
  { intros c (g & Hg & <- & Hgk). apply Hc. apply (column_not_tw b S rand imm depth E l Hwf HE Hl m _ Hm).
    exists g. split_and!; [done|done|]. unfold plain_or_callback. by rewrite Hgk. }
  apply (Hns m f fn ds sk dp j x Hm Hf Hk Hdp Hx). split; [done|].
  pose proof (sa_self _ _ _ Hsa _ _ _ _ _ _ Hm Hf Hk Hdp Hoth) as Hself.
  destruct (dep_rel dp) as [fk|fk|t' c rc|ctc oidc|ctc oidc]; [..|done].
  - by rewrite Hp.
  - by rewrite Hp.
  - destruct Hrel as (lk & lr & Hlr & H1 & H2). destruct Wd as (Wt & _). destruct (Hsub _ _ _ Hlr) as (lx & Hlx & Hlc).
    exists lk, lx. split_and!; [done| |]; (rewrite Hlc; [done|]; by eapply link_not_tw).
  - destruct Hself. by rewrite !Hp.
Qed.
Lemma del_inv t k d d' : exec E t [CDel k] d = Ok d' → finv S d → finv S d'.
Proof.
  intros H (L & C & N). destruct (del_rows _ _ _ _ H) as [Hgone Hsub]. split_and!.
  - eapply (exec_lgood b S rand imm depth E l Hwf HE Hl (sa_m2m _ _ _ Hsa)); [|exact H|done]. by apply Forall_singleton.
  - intros m j y Hm Hy. destruct (Hsub _ _ _ Hy) as (x & Hx & _).
    eapply (others_inv t [CDel k] m j d d' y Hm).
    + apply Forall_singleton. split; [done|]. intros -> Hkey. simpl in Hkey. subst j. by rewrite Hgone in Hy.
    + apply NoDup_singleton.
    + done.
    + done.
    + by rewrite Hx.
    + done.
    + intros. by eapply C.
  - by eapply del_no_self.
Qed.

(** ** Flush *)
Lemma bulk_save_inv mk m k r d p : content_object S d mk = Ok (Some (m, k, r)) → save_existing E m k r d = Ok p →
  finv S d → finv S p.1 ∧ mk_settled S mk p.1.
Proof.
  intros Ho Hsv Hi. destruct (content_object_some S _ _ _ _ _ Ho) as (Hm & Hr & ->).
  eapply (inst_inv m k r r); [done|done| |by intros ??|done|done].
  intros f fn ds sk dp Hf Hk Hdp. destruct Hi as (_ & _ & N). by eapply N.
Qed.
Lemma bulk_flush_inv ord n d d' o : flush E S ord n d = (d', o) → finv S d → finv S d'.
Proof. eapply flush_inv; [exact Hwf|apply (sa_truthy _ _ _ Hsa)|apply (sa_settled _ _ _ Hsa)|apply bulk_save_inv]. Qed.
Lemma bulk_flush_consistent ord n d d' : flush E S ord n d = (d', Done) → finv S d → consistent S d'.
Proof. eapply flush_consistent; [exact Hwf|apply (sa_truthy _ _ _ Hsa)|apply (sa_settled _ _ _ Hsa)|apply bulk_save_inv]. Qed.
End bulk.

(** ** Histories *)
(** What an application does that changes objects one by one through the ORM: load an
    object and save it, create one, delete one, call flush(). *)
Inductive orm_step (E : env) (S : schema) : db → db → Prop :=
  | os_save m k r0 r d d' k' r' : m ∈ s_models S → getrow d (m_table m) k = Some r0 →
      counts_current m r r0 → not_self_related m d k r → save E m (Some k) r d = Ok (d', k', r') → orm_step E S d d'
  | os_create m pk k r d d' r' : m ∈ s_models S → getrow d (m_table m) k = None →
      not_self_related m d k r → key_alike m d pk k → save E m pk r d = Ok (d', k, r') → orm_step E S d d'
  | os_delete t k d d' : run_op E S (ODelete t [k]) d = Ok d' → orm_step E S d d'
  | os_flush ord n d d' o : flush E S ord n d = (d', o) → orm_step E S d d'.

Section hist.
Context (b : backend) (S : schema) (rand : nat → Z) (imm : bool) (depth : nat) (E : env).
Context (HE : mk_env b S rand imm depth = Ok E) (rank : string → nat) (Hsa : savable S rank imm).

Lemma sa_fresh m k r0 r d d' k' r' : m ∈ s_models S → getrow d (m_table m) k = Some r0 → no_self_relation S d →
  not_self_related m d k r → counts_current m r r0 → save E m (Some k) r d = Ok (d', k', r') →
  k' = k ∧ getrow d' (m_table m) k = Some r' ∧ (∀ c, plain_col m c → col r' c = col r c) ∧
  ∀ f, f ∈ m_fields m → row_consistent m d' k r' f.
Proof.
  intros Hm Hr N Hnr Hcur H. destruct (mk_env_gen _ _ _ _ _ _ HE) as [l Hl].
  unfold save in H. rewrite Hr in H. inv_bind H. injection H as <- <- <-. split; [done|].
  eapply (savable_settles b S rand imm depth E l HE Hl) with (rank := rank); eauto.
  - eapply names_apart_ok; [exact (sa_wf _ _ _ Hsa)|done|done|exact (sa_names _ _ _ Hsa)].
  - eapply upd_acyclic_ok; [exact (sa_wf _ _ _ Hsa)|done|done| |exact (sa_acyclic _ _ _ Hsa)].
    eapply names_apart_ok; [exact (sa_wf _ _ _ Hsa)|done|done|exact (sa_names _ _ _ Hsa)].
Qed.

Context (Hos : own_stored S rank).
Lemma orm_step_inv d d' : orm_step E S d d' → finv S d → finv S d'.
Proof.
  destruct (mk_env_gen _ _ _ _ _ _ HE) as [l Hl].
  assert (Hn : names_ok b l) by (eapply names_apart_ok; [exact (sa_wf _ _ _ Hsa)|done|done|exact (sa_names _ _ _ Hsa)]).
  assert (Hac : acyclic E rank) by (eapply upd_acyclic_ok; [exact (sa_wf _ _ _ Hsa)|done|done|done|exact (sa_acyclic _ _ _ Hsa)]).
  intros Hs Hi. destruct Hs.
  - unfold save in *. rewrite H0 in H3. inv_bind H3. injection H3 as <- <- <-.
    by eapply (inst_inv b S rand imm depth E l HE Hl Hn rank Hsa Hac Hos m k r0 r d a).
  - by eapply (new_inv b S rand imm depth E l HE Hl Hn rank Hsa Hac Hos m pk k r d d' r').
  - by eapply (del_inv b S rand imm depth E l HE Hl Hn rank Hsa Hac Hos t k d d').
  - by eapply (bulk_flush_inv b S rand imm depth E l HE Hl Hn rank Hsa Hac Hos ord n d d' o).
Qed.
Lemma new_fresh m pk k r d d' r' : m ∈ s_models S → getrow d (m_table m) k = None → no_self_relation S d →
  not_self_related m d k r → key_alike m d pk k → save E m pk r d = Ok (d', k, r') →
  getrow d' (m_table m) k = Some r' ∧ (∀ c, plain_col m c → col r' c = col r c) ∧
  ∀ f, f ∈ m_fields m → row_consistent m d' k r' f.
Proof.
  destruct (mk_env_gen _ _ _ _ _ _ HE) as [l Hl].
  assert (Hn : names_ok b l) by (eapply names_apart_ok; [exact (sa_wf _ _ _ Hsa)|done|done|exact (sa_names _ _ _ Hsa)]).
  assert (Hac : acyclic E rank) by (eapply upd_acyclic_ok; [exact (sa_wf _ _ _ Hsa)|done|done|done|exact (sa_acyclic _ _ _ Hsa)]).
  intros Hm Hr Hi Hnr Hal H.
  destruct (new_settles b S rand imm depth E l HE Hl Hn rank Hsa Hac Hos m pk k r d d' r' Hm Hr Hi Hnr Hal H) as (Hu & _ & H2 & H3).
  split_and!; [apply (ud_own _ _ _ _ _ _ _ Hu)|done..].
Qed.
Lemma orm_hist_flush d d1 ord n d' : rtc (orm_step E S) d d1 →
  links_ok S d → consistent_or_marked S d → no_self_relation S d →
  flush E S ord n d1 = (d', Done) → consistent S d' ∧ d_dirty d' = [].
Proof.
  intros Hs L C N Hf. split; [|by eapply flush_done_clean].
  assert (Hi : finv S d1). { assert (Hi : finv S d) by done. clear L C N. induction Hs; [done|]. apply IHHs; [done|]. by eapply orm_step_inv. }
  destruct (mk_env_gen _ _ _ _ _ _ HE) as [l Hl].
  assert (Hn : names_ok b l) by (eapply names_apart_ok; [exact (sa_wf _ _ _ Hsa)|done|done|exact (sa_names _ _ _ Hsa)]).
  assert (Hac : acyclic E rank) by (eapply upd_acyclic_ok; [exact (sa_wf _ _ _ Hsa)|done|done|done|exact (sa_acyclic _ _ _ Hsa)]).
  by eapply (bulk_flush_consistent b S rand imm depth E l HE Hl Hn rank Hsa Hac Hos ord n d1 d').
Qed.
Lemma bulk_rebuild d ord n d' : links_ok S d → no_self_relation S d →
  (∀ m k r, m ∈ s_models S → getrow d (m_table m) k = Some r → m_visible m r = true) →
  rebuildall E S ord n None None d = (d', Done) → consistent S d' ∧ d_dirty d' = [].
Proof.
  intros L N V Hf. destruct (rebuild_inv S (sa_wf _ _ _ Hsa) d L N V) as (L' & C' & N').
  by eapply orm_hist_flush; [apply rtc_refl|..].
Qed.
End hist.

(** ** A flush that raises *)
Lemma flush_pass_raised E S mks d d' e : flush_pass E S mks d = (d', Raised e) → ∃ mk, process E S mk d' = Err e.
Proof.
  revert d. induction mks as [|mk mks IH]; intros d H; simpl in H; [done|].
  destruct (process E S mk d) eqn:Hp; [by eapply IH|]. injection H as <- <-. by exists mk.
Qed.
Lemma flush_raised E S ord n d d' e : flush E S ord n d = (d', Raised e) → ∃ mk, process E S mk d' = Err e.
Proof.
  revert d. induction n as [|n IH]; intros d H; simpl in H; [done|]. case_decide; [done|].
  destruct (flush_pass E S (snapshot E ord d) d) as [d1 o1] eqn:Hp. destruct o1; [by eapply IH| |done].
  injection H as <- <-. by eapply flush_pass_raised.
Qed.
Lemma flush_stuck E S ord d e n mk l : d_dirty d ≠ [] → snapshot E ord d = mk :: l → process E S mk d = Err e →
  flush E S ord (Datatypes.S n) d = (d, Raised e).
Proof. intros Hd Hs Hp. simpl. rewrite decide_False by done. rewrite Hs. simpl. by rewrite Hp. Qed.
