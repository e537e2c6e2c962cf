(** * Saves and flushes never violate CHECK (column >= 0) either. *)
From Verif Require Import Base BaseLemmas Schema TrigSet Gen Exec Orm Flush Machine Spec SpecAgg Engine GenLemmas Marking Conditions Invariant Settle Sessions Frame Hist Merge Agg AggEngine AggOps AggCheck.

(** The functions of the application report no violated CHECK themselves. *)
Definition calm (S : schema) : Prop := ∀ m, m ∈ s_models S →
  (∀ f fn ds sk, f ∈ m_fields m → f_kind f = KCallback fn ds sk → ∀ d pk r, fn d pk r ≠ Err ECheck) ∧
  (∀ mm fn ds, mm ∈ m_m2m m → mm_denorm mm = Some (fn, ds) → ∀ d pk r, fn d pk r ≠ Err ECheck).
(** A denormalized column that is summed gets no negative values. *)
Definition nonneg_fns (S : schema) : Prop := ∀ m f a rel, agg_field S m f a rel → ∀ c g fn ds sk,
  ag_sum a = Some c → g ∈ m_fields rel → f_col g = c → f_kind g = KCallback fn ds sk →
  ∀ d pk r pv v, fn d pk r = Ok pv → store_value g pv = Ok v → 0 ≤ summand v.
Definition nonneg_hop (S : schema) (h : hop) : Prop := match h with HOp o => nonneg_op S o | _ => True end.
(** The exception a step of a history raises. *)
Definition raised (E : env) (S : schema) (h : hop) (d : db) : option exn :=
  let of_flush (o : outcome) := match o with Raised e => Some e | _ => None end in
  match h with
  | HOp o => match run_op E S o d with Err e => Some e | Ok _ => None end
  | HFlush ord n => of_flush (flush E S ord n d).2
  | HRebuild ord n mn fn => of_flush (rebuildall E S ord n mn fn d).2
  end.

Section save.
Context (b : backend) (S : schema) (rand : nat → Z) (depth : nat) (E : env) (l : list trigger).
Context (Hwf : wf_schema S) (HE : mk_env b S rand true depth = Ok E) (Hl : gen_all S = Ok l) (Hnames : names_ok b l).
Context (Hall : all_agg S) (Hcalm : calm S) (Hfns : nonneg_fns S).

Definition fine (d : db) : Prop := all_exact S d ∧ wok S d.
Lemma fine_tabs d d' : d_tabs d' = d_tabs d → fine d → fine d'.
Proof.
  intros Ht [H1 H2]. split; [intros m f a rel Haf; eapply exact_tabs; [exact Ht|by apply H1]|].
  intros m f a rel Haf j r Hr. apply (H2 _ _ _ _ Haf j). unfold getrow, tab in *. by rewrite <- Ht.
Qed.
Lemma exec_wok t cs d d' : Forall ch_quiet cs → Forall (wr_ok S t) cs → wok S d → exec E t cs d = Ok d' → wok S d'.
Proof.
  intros Hq Hwr Hw H. unfold exec, run_stmt in H.
  assert (Hs : foldM (λ d ch, run_batch E (fire E (e_depth E) []) t [ch] d) d cs = Ok d' → wok S d').
  { intros H'. revert Hw. eapply (foldM_rel (λ d d', wok S d → wok S d')); [by intros ?|by eauto| |exact H']. intros d1 ch d2 Hin Hr Hw1.
    eapply (batch_wok b S rand depth E l Hwf HE Hl); [..|exact Hr]; [| |done]; apply Forall_singleton; [by eapply Forall_forall in Hq|by eapply Forall_forall in Hwr]. }
  destruct (e_be E); [by apply Hs| |by apply Hs]. by eapply (batch_wok b S rand depth E l Hwf HE Hl); [..|exact H].
Qed.
Lemma exec1_fine t ch d d' : (∀ m f a rel, agg_field S m f a rel → clean_in m f d t ch) → ch_quiet ch → wr_ok S t ch →
  exec E t [ch] d = Ok d' → fine d → fine d'.
Proof.
  intros Hcl Hq Hwr H [H1 H2]. split; [|by eapply exec_wok; [by apply Forall_singleton..|done|exact H]].
  intros m f a rel Haf. eapply (exec1_exact b S rand depth E l Hwf HE Hl m f a rel Haf (field_settling b S rand depth E l Hwf HE Hl Hnames m f a rel Haf)); [by eapply Hcl|exact Hq|exact H|by apply H1].
Qed.

(** ** pre_save *)
Lemma presave_nonneg m0 f a m add pk d r q : agg_field S m0 f a m → presave_all E m add pk d r = Ok q → nonneg_row a r → nonneg_row a q.2.
Proof.
  intros Haf H Hr c Hc. specialize (Hr c Hc).
  assert (Hcc : c ∈ agg_cols a) by (unfold agg_cols; rewrite Hc; right; rewrite !elem_of_app; right; right; left).
  destruct (af_cols _ _ _ _ _ Haf c Hcc) as [(g & Hg & Hgc & Hgp) _].
  assert (Hm : m ∈ s_models S) by (by eapply find_model_in, Haf).
  pose proof (wf_cols _ _ (wf_models _ Hwf _ Hm)) as Hnd.
  unfold presave_all in H. change r with ((d, r).2) in Hr. revert Hr.
  eapply (foldM_rel (λ p q : db * row, 0 ≤ summand (col p.2 c) → 0 ≤ summand (col q.2 c))); [by intros ?|by eauto| |exact H].
  intros p h p' Hh Hp Hs. destruct (decide (f_col h = c)) as [Hhc|Hhc].
  - assert (h = g) as -> by (eapply NoDup_fmap_eq; [exact Hnd|done|done|congruence]).
    unfold presave_field in Hp. destruct (f_kind g) as [| |fn ds sk| |] eqn:Hk.
    + by injection Hp as <-.
    + injection Hp as <-. simpl. rewrite <- Hgc, col_insert_eq. simpl. lia.
    + inv_bind Hp. inv_bind Hp. injection Hp as <-. simpl. rewrite <- Hgc, col_insert_eq.
      eapply (Hfns _ _ _ _ Haf c g fn ds sk); eauto.
    + unfold plain_or_callback in Hgp. by rewrite Hk in Hgp.
    + unfold plain_or_callback in Hgp. by rewrite Hk in Hgp.
  - unfold presave_field in Hp. destruct (f_kind h).
    + by injection Hp as <-.
    + injection Hp as <-. simpl. by rewrite col_insert_ne.
    + inv_bind Hp. inv_bind Hp. injection Hp as <-. simpl. by rewrite col_insert_ne.
    + destruct add; [injection Hp as <-; simpl; by rewrite col_insert_ne|]. repeat case_match; try done. injection Hp as <-. simpl. by rewrite col_insert_ne.
    + injection Hp as <-. simpl. by rewrite col_insert_ne.
Qed.
Lemma presave_nocheck m add pk d r : m ∈ s_models S → presave_all E m add pk d r ≠ Err ECheck.
Proof.
  intros Hm. destruct (Hcalm _ Hm) as [Hc _]. unfold presave_all.
  assert (Hgo : ∀ fs p, (∀ f, f ∈ fs → f ∈ m_fields m) → foldM (presave_field E m add pk) p fs ≠ Err ECheck); [|by apply Hgo].
  induction fs as [|f fs IH]; intros p Hf; [done|]. rewrite foldM_cons.
  assert (Hn : presave_field E m add pk p f ≠ Err ECheck).
  { unfold presave_field. destruct (f_kind f) as [| |fn ds sk| |] eqn:Hk; [done|done| | |done].
    - pose proof (Hc f fn ds sk (Hf f ltac:(left)) Hk p.1 pk p.2). destruct (fn p.1 pk p.2) as [pv|]; simpl; [|congruence].
      unfold store_value. by repeat case_match.
    - by repeat case_match. }
  destruct (presave_field E m add pk p f) as [p'|]; simpl; [|congruence]. apply IH. intros g Hg. apply Hf. by right.
Qed.

(** ** Links *)
Lemma link_step t cs d : (∀ m', m' ∈ s_models S → t ≠ m_table m') → Forall ch_quiet cs → Forall tame cs → NoDup (ch_key <$> cs) → fine d →
  exec E t cs d ≠ Err ECheck ∧ ∀ d', exec E t cs d = Ok d' → fine d'.
Proof.
  intros Ht Hq Hta Hnd [Hex Hw].
  assert (Hwr : Forall (wr_ok S t) cs).
  { apply Forall_forall. intros ch _ m f a rel Haf HT. exfalso. eapply Ht; [|exact HT]. by eapply find_model_in, Haf. }
  assert (Hcl : Forall (all_clean S t) cs).
  { apply Forall_forall. intros ch _ m f a rel Haf d1 HT. exfalso. eapply Ht; [|exact HT]. apply Haf. }
  split; [eapply (exec_nocheck b S rand depth E l); eauto|]. intros d' H. split; [|by eapply exec_wok].
  intros m f a rel Haf. eapply (link_exact b S rand depth E l Hwf HE Hl m f a rel Haf (field_settling b S rand depth E l Hwf HE Hl Hnames m f a rel Haf)); [exact Ht|exact Hq|done|exact H|by apply Hex].
Qed.
Lemma m2m_set_step mm k vals d : (∀ m', m' ∈ s_models S → mm_table mm ≠ m_table m') → fine d →
  m2m_set E mm k vals d ≠ Err ECheck ∧ ∀ d', m2m_set E mm k vals d = Ok d' → fine d'.
Proof.
  intros Ht Hf. unfold m2m_set.
  assert (Hnd1 : NoDup (ch_key <$> (CDel <$> (filter (λ p : Z * val, p.2 ∉ VInt <$> vals) (links d mm k)).*1))).
  { rewrite <- list_fmap_compose. rewrite (list_fmap_ext _ id) by done. rewrite list_fmap_id. apply NoDup_fmap_fst.
    * intros x v1 v2 H1 H2. apply elem_of_list_filter in H1 as [_ H1]. apply elem_of_list_filter in H2 as [_ H2].
      unfold links in H1, H2. apply elem_of_list_fmap in H1 as ([x1 r1] & [= -> ->] & H1). apply elem_of_list_fmap in H2 as ([x2 r2] & [= -> ->] & H2).
      apply elem_of_list_filter in H1 as [_ H1]. apply elem_of_list_filter in H2 as [_ H2].
      apply elem_of_map_to_list in H1, H2. congruence.
    * apply NoDup_filter. unfold links. apply (NoDup_fmap_2_strong _ _).
      -- intros [x1 r1] [x2 r2] H1 H2 [= -> _].
         apply elem_of_list_filter in H1 as [_ H1]. apply elem_of_list_filter in H2 as [_ H2].
         apply elem_of_map_to_list in H1, H2. congruence.
      -- apply NoDup_filter, NoDup_map_to_list. }
  destruct (link_step (mm_table mm) (CDel <$> (filter (λ p : Z * val, p.2 ∉ VInt <$> vals) (links d mm k)).*1) d) as [C1 F1]; [done|..|done|done|].
  { apply Forall_forall. intros x Hx. by apply elem_of_list_fmap in Hx as (y & -> & _). }
  { apply Forall_forall. intros x Hx. by apply elem_of_list_fmap in Hx as (y & -> & _). }
  destruct (exec E (mm_table mm) _ d) as [d1|] eqn:H1; simpl; [|split; [congruence|done]].
  apply link_step; [done|apply number_quiet| |apply number_nodup|by apply F1].
  generalize (fresh_key (tab d1 (mm_table mm))) as n. match goal with |- ∀ n, Forall tame (number n ?rs) => generalize rs end.
  intros rs. induction rs as [|x xs IH]; intros n; simpl; constructor; [done|apply IH].
Qed.
Lemma m2m_pre_save_step m pk r d : m ∈ s_models S → fine d → m2m_pre_save E m pk r d ≠ Err ECheck ∧ ∀ d', m2m_pre_save E m pk r d = Ok d' → fine d'.
Proof.
  intros Hm Hf. destruct (Hcalm _ Hm) as [_ Hc]. unfold m2m_pre_save. destruct pk as [k|]; [|split; [done|by intros d' [= <-]]].
  case_decide; [split; [done|by intros d' [= <-]]|].
  assert (Hgo : ∀ mms d, (∀ mm, mm ∈ mms → mm ∈ m_m2m m) → fine d → foldM (λ d mm,
        match mm_denorm mm with
        | Some (fn, _) => let* vals := fn d (Some k) r in m2m_set E mm k vals d
        | None => Ok d
        end) d mms ≠ Err ECheck ∧ ∀ d', foldM (λ d mm,
        match mm_denorm mm with
        | Some (fn, _) => let* vals := fn d (Some k) r in m2m_set E mm k vals d
        | None => Ok d
        end) d mms = Ok d' → fine d'); [|by apply Hgo].
  clear d Hf. induction mms as [|mm mms IH]; intros d Hin Hf; [split; [done|by intros d' [= <-]]|].
  rewrite foldM_cons.
  assert (H1 : match mm_denorm mm with Some (fn, _) => let* vals := fn d (Some k) r in m2m_set E mm k vals d | None => Ok d end ≠ Err ECheck ∧
    ∀ d', match mm_denorm mm with Some (fn, _) => let* vals := fn d (Some k) r in m2m_set E mm k vals d | None => Ok d end = Ok d' → fine d').
  { destruct (mm_denorm mm) as [[fn ds]|] eqn:Hk; [|split; [done|by intros d' [= <-]]].
    pose proof (Hc mm fn ds (Hin mm ltac:(left)) Hk d (Some k) r). destruct (fn d (Some k) r) as [vals|]; simpl; [|split; [congruence|done]].
    apply m2m_set_step; [|done]. intros m'' Hm''. apply (wf_m2mtab _ _ (wf_models _ Hwf _ Hm)); [apply Hin; left|done]. }
  destruct H1 as [C1 F1]. match goal with |- context [rbind ?x _] => destruct x as [d1|] eqn:H1 end; simpl; [|split; [congruence|done]].
  apply IH; [intros mm' Hmm'; apply Hin; by right|by apply F1].
Qed.

(** ** save() *)
Definition nonneg_save (m : model) (r : row) : Prop := ∀ m0 f a, agg_field S m0 f a m → nonneg_row a r.
Lemma table_rel m m0 f a rel : m ∈ s_models S → agg_field S m0 f a rel → m_table m = m_table rel → rel = m.
Proof. intros Hm Haf Ht. symmetry. eapply table_inj; [exact Hwf|done|by eapply find_model_in, Haf|done]. Qed.
Lemma presave_save m add pk d r q : presave_all E m add pk d r = Ok q → nonneg_save m r → nonneg_save m q.2.
Proof. intros H Hr m0 f a Haf. eapply presave_nonneg; [exact Haf|exact H|]. by eapply Hr. Qed.
Lemma write_step m ch d : m ∈ s_models S → (∀ m0 f a rel, agg_field S m0 f a rel → clean_in m0 f d (m_table m) ch) → ch_quiet ch → tame ch →
  (∀ m0 f a, agg_field S m0 f a m → match ch with CIns _ r => 0 ≤ weight a r | CUpd _ g => ∀ d o p, 0 ≤ weight a o → g d o = Ok p → 0 ≤ weight a p.1 | CDel _ => True end) → fine d →
  exec E (m_table m) [ch] d ≠ Err ECheck ∧ ∀ d', exec E (m_table m) [ch] d = Ok d' → fine d'.
Proof.
  intros Hm Hcl Hq Ht Hw [Hex Hwk].
  assert (Hwr : wr_ok S (m_table m) ch). { intros m0 f a rel Haf HT. pose proof (table_rel _ _ _ _ _ Hm Haf HT) as ->. by eapply Hw. }
  split; [eapply (exec1_nocheck b S rand depth E l); eauto|]. intros d' H. by eapply exec1_fine.
Qed.
Lemma save_existing_step m k r d : m ∈ s_models S → nonneg_save m r → fine d →
  save_existing E m k r d ≠ Err ECheck ∧ ∀ p, save_existing E m k r d = Ok p → fine p.1 ∧ nonneg_save m p.2.
Proof.
  intros Hm Hr Hf. unfold save_existing. destruct (m2m_pre_save_step m (Some k) r d Hm Hf) as [C1 F1].
  destruct (m2m_pre_save E m (Some k) r d) as [d1|]; simpl; [|split; [congruence|done]]. specialize (F1 _ eq_refl).
  pose proof (presave_nocheck m false (Some k) d1 r Hm) as C2. destruct (presave_all E m false (Some k) d1 r) as [p|] eqn:Hp; simpl; [|split; [congruence|done]].
  pose proof (presave_save _ _ _ _ _ _ Hp Hr) as Hn. pose proof (presave_all_db _ _ _ _ _ _ _ Hp) as [Ht _].
  assert (F2 : fine p.1) by (eapply fine_tabs; [exact Ht|done]).
  destruct (write_step m (upd_all k p.2) p.1) as [C3 F3]; [done|..|done| ].
  - intros m0 f a rel Haf HT. pose proof (model_T S Hwf m0 f a rel Haf m Hm HT) as ->. simpl. intros o q Ho [= <-]. simpl.
    apply (presave_agg S E Hwf m0 f a rel Haf) in Hp as (k0 & r0 & [= <-] & Hr0 & ->). unfold getrow, tab in *. rewrite Ht in Ho. rewrite Ho in Hr0. congruence.
  - simpl. by intros ??? [= <-].
  - done.
  - intros m0 f a Haf. simpl. intros ? ? q _ [= <-]. simpl. apply weight_nonneg. by eapply Hn.
  - destruct (exec E (m_table m) [upd_all k p.2] p.1) as [d2|] eqn:Hx; simpl; [|split; [congruence|done]].
    split; [done|]. intros q [= <-]. simpl. split; [by apply F3|done].
Qed.
Lemma insert_step m pk k r d : m ∈ s_models S → nonneg_save m r → fine d →
  presave_all E m true pk d r ≠ Err ECheck ∧ ∀ q, presave_all E m true pk d r = Ok q →
  exec E (m_table m) [CIns k q.2] q.1 ≠ Err ECheck ∧ ∀ d2, exec E (m_table m) [CIns k q.2] q.1 = Ok d2 →
  post_save_created E m k q.2 d2 ≠ Err ECheck ∧ ∀ s, post_save_created E m k q.2 d2 = Ok s → fine s.1 ∧ nonneg_save m s.2.
Proof.
  intros Hm Hr Hf. split; [by apply presave_nocheck|]. intros q Hq.
  pose proof (presave_save _ _ _ _ _ _ Hq Hr) as Hn. pose proof (presave_all_db _ _ _ _ _ _ _ Hq) as [Ht _].
  assert (F2 : fine q.1) by (eapply fine_tabs; [exact Ht|done]).
  destruct (write_step m (CIns k q.2) q.1) as [C3 F3]; [done|..|done|]; [|done|done| |].
  - intros m0 f a rel Haf HT. pose proof (model_T S Hwf m0 f a rel Haf m Hm HT) as ->. simpl. by apply (presave_agg S E Hwf m0 f a rel Haf) in Hq.
  - intros m0 f a Haf. simpl. apply weight_nonneg. by eapply Hn.
  - split; [done|]. intros d2 Hd2. specialize (F3 _ Hd2). unfold post_save_created. case_match; [by apply save_existing_step|].
    split; [done|]. by intros s [= <-].
Qed.
Lemma save_step m pk r d : m ∈ s_models S → nonneg_save m r → fine d →
  save E m pk r d ≠ Err ECheck ∧ ∀ p, save E m pk r d = Ok p → fine p.1.1.
Proof.
  intros Hm Hr Hf. unfold save. destruct pk as [k|].
  - destruct (getrow d (m_table m) k).
    + destruct (save_existing_step m k r d Hm Hr Hf) as [C F]. destruct (save_existing E m k r d) as [p|]; simpl; [|split; [congruence|done]].
      split; [done|]. intros q [= <-]. by apply (F p).
    + destruct (m2m_pre_save_step m (Some k) r d Hm Hf) as [C1 F1]. destruct (m2m_pre_save E m (Some k) r d) as [d1|]; simpl; [|split; [congruence|done]].
      specialize (F1 _ eq_refl). pose proof (presave_nocheck m false (Some k) d1 r Hm) as C2.
      destruct (presave_all E m false (Some k) d1 r) as [p|] eqn:Hp; simpl; [|split; [congruence|done]].
      pose proof (presave_save _ _ _ _ _ _ Hp Hr) as Hn. pose proof (presave_all_db _ _ _ _ _ _ _ Hp) as [Ht _].
      destruct (insert_step m (Some k) k p.2 p.1 Hm Hn) as [C3 F3]; [by eapply fine_tabs|].
      destruct (presave_all E m true (Some k) p.1 p.2) as [q|]; simpl; [|split; [congruence|done]]. destruct (F3 _ eq_refl) as [C4 F4].
      destruct (exec E (m_table m) [CIns k q.2] q.1) as [d2|]; simpl; [|split; [congruence|done]]. destruct (F4 _ eq_refl) as [C5 F5].
      destruct (post_save_created E m k q.2 d2) as [s|]; simpl; [|split; [congruence|done]]. split; [done|]. intros x [= <-]. by apply (F5 s).
  - destruct (insert_step m None 0 r d Hm Hr Hf) as [C3 _]. destruct (presave_all E m true None d r) as [q|] eqn:Hq; simpl; [|split; [congruence|done]].
    destruct (insert_step m None (fresh_key (tab q.1 (m_table m))) r d Hm Hr Hf) as [_ F3]. destruct (F3 _ Hq) as [C4 F4].
    destruct (exec E (m_table m) [CIns (fresh_key (tab q.1 (m_table m))) q.2] q.1) as [d2|]; simpl; [|split; [congruence|done]]. destruct (F4 _ eq_refl) as [C5 F5].
    destruct (post_save_created E m _ q.2 d2) as [s|]; simpl; [|split; [congruence|done]]. split; [done|]. intros x [= <-]. by apply (F5 s).
Qed.

(** ** Operations, flush, histories *)
Definition clean_all (o : op) : Prop := ∀ m f a rel, agg_field S m f a rel → clean_op m f o.
Lemma stmt_wok o d d' : (∀ mn pk r, o ≠ OSave mn pk r) → nonneg_op S o → wok S d → run_op E S o d = Ok d' → wok S d'.
Proof.
  intros Hns Hnn Hw H. destruct o as [mn pk r|t rows|t ks g|t ks]; simpl in H; [by destruct (Hns mn pk r)|..];
    (eapply exec_wok; [| |exact Hw|exact H]); apply Forall_forall; intros ch Hch.
  - by apply elem_of_list_fmap in Hch as (y & -> & _).
  - intros m f a rel Haf HT. apply elem_of_list_fmap in Hch as ([k r] & -> & Hin). apply weight_nonneg. by eapply (Hnn _ _ _ _ Haf).
  - apply elem_of_list_fmap in Hch as (y & -> & _). simpl. by intros ??? [= <-].
  - intros m f a rel Haf HT. apply elem_of_list_fmap in Hch as (k & -> & Hin). intros d1 o p Ho [= <-]. apply weight_nonneg. eapply (Hnn _ _ _ _ Haf); [done|by apply weight_nonneg'].
  - by apply elem_of_list_fmap in Hch as (y & -> & _).
  - intros m f a rel Haf HT. by apply elem_of_list_fmap in Hch as (k & -> & Hin).
Qed.
Lemma op_step o d : clean_all o → nonneg_op S o → fine d → run_op E S o d ≠ Err ECheck ∧ ∀ d', run_op E S o d = Ok d' → fine d'.
Proof.
  intros Hcl Hnn Hf. assert (Hor : (∀ mn pk r, o ≠ OSave mn pk r) ∨ ∃ mn pk r, o = OSave mn pk r) by (destruct o; eauto; by left).
  destruct Hor as [Hns|(mn & pk & r & ->)].
  - destruct Hf as [Hex Hw]. split; [eapply (run_op_nocheck b S rand depth E l); eauto|]. intros d' H. split; [|by eapply stmt_wok].
    intros m f a rel Haf. eapply (run_op_exact b S rand depth E l Hwf HE Hl m f a rel Haf (field_settling b S rand depth E l Hwf HE Hl Hnames m f a rel Haf)); [by eapply Hcl|exact H|by apply Hex].
  - simpl. destruct (find_model S mn) as [m|] eqn:Hm; [|done].
    destruct (save_step m pk r d) as [C F]; [by eapply find_model_in| |done|].
    + intros m0 f a Haf. by apply (Hnn _ _ _ _ Haf).
    + destruct (save E m pk r d) as [p|]; simpl; [|split; [congruence|done]]. split; [done|]. intros x [= <-]. by apply (F p).
Qed.
Lemma wok_save d m k r : wok S d → getrow d (m_table m) k = Some r → nonneg_save m r.
Proof.
  intros Hw Hr m0 f a Haf c Hc. pose proof (Hw _ _ _ _ Haf _ _ Hr) as H. unfold weight in H. by rewrite Hc in H.
Qed.
Lemma process_step mk d : fine d → process E S mk d ≠ Err ECheck ∧ ∀ d', process E S mk d = Ok d' → fine d'.
Proof.
  intros Hf. unfold process, process_save.
  destruct (content_object S d mk) as [co|er] eqn:Hco; simpl.
  2: { unfold content_object in Hco. repeat case_match; try done; injection Hco as <-; done. }
  destruct co as [[[m k] r]|]; simpl; [|split; [done|intros d' [= <-]; by eapply (fine_tabs d)]].
  case_match; simpl; [|split; [done|intros d' [= <-]; by eapply (fine_tabs d)]].
  assert (Hmr : m ∈ s_models S ∧ getrow d (m_table m) k = Some r).
  { unfold content_object in Hco. destruct (model_of_ct S mk.1) as [m2|] eqn:Hm2; [|done]. repeat case_match; try done. injection Hco as -> -> ->.
    split; [|apply list_find_Some in H1 as (H1 & _); apply elem_of_list_lookup_2, elem_of_map_to_list in H1; done]. unfold model_of_ct in Hm2. destruct (list_find _ _) as [[i m3]|] eqn:Hfind; [|done]. injection Hm2 as <-.
    apply list_find_Some in Hfind as (Hin & _). by eapply elem_of_list_lookup_2. }
  destruct Hmr as [Hm Hr]. destruct (save_existing_step m k r d Hm) as [C F]; [eapply wok_save; [apply Hf|done]|done|].
  destruct (save_existing E m k r d) as [p|]; simpl; [|split; [congruence|done]]. split; [done|]. intros d' [= <-]. eapply (fine_tabs p.1); [done|]. by apply (F p).
Qed.
Lemma flush_pass_step ml d : fine d → (flush_pass E S ml d).2 ≠ Raised ECheck ∧ fine (flush_pass E S ml d).1.
Proof.
  revert d. induction ml as [|mk ml IH]; intros d Hf; simpl; [done|]. destruct (process_step mk d Hf) as [C F].
  destruct (process E S mk d) as [d1|]; [by apply IH, F|]. simpl. split; [congruence|done].
Qed.
Lemma flush_step ord n d : fine d → (flush E S ord n d).2 ≠ Raised ECheck ∧ fine (flush E S ord n d).1.
Proof.
  revert d. induction n as [|n IH]; intros d Hf; simpl; [done|]. case_decide; [done|].
  destruct (flush_pass_step (snapshot E ord d) d Hf) as [C F]. destruct (flush_pass E S (snapshot E ord d) d) as [d1 [|er|]]; simpl in *; auto.
Qed.
Lemma hstep_fine h d : (∀ o, h = HOp o → clean_all o) → nonneg_hop S h → fine d → fine (hstep E S d h).
Proof.
  intros Hcl Hnn Hf. destruct h as [o|ord n|ord n mn fn]; simpl.
  - unfold step. destruct (op_step o d (Hcl _ eq_refl) Hnn Hf) as [_ F]. destruct (run_op E S o d); [by apply F|done].
  - by apply flush_step.
  - unfold rebuildall. apply flush_step. by eapply (fine_tabs d).
Qed.
Lemma hist_fine hs d : Forall (λ h, ∀ o, h = HOp o → clean_all o) hs → Forall (nonneg_hop S) hs → fine d → fine (foldl (hstep E S) d hs).
Proof.
  revert d. induction hs as [|h hs IH]; intros d Hcl Hnn Hf; [done|]. apply Forall_cons in Hcl as [H1 H2]. apply Forall_cons in Hnn as [H3 H4].
  simpl. apply IH; [done..|]. by apply hstep_fine.
Qed.
Lemma fine_spec d : fine d ↔ all_agg_exact S d ∧ nonneg_db S d.
Proof.
  split.
  - intros [H1 H2]. split; [intros m f a rel Haf; apply exact_spec; by apply H1|]. intros m f a rel Haf j r Hr c Hc.
    pose proof (H2 _ _ _ _ Haf _ _ Hr) as H. unfold weight in H. by rewrite Hc in H.
  - intros [H1 H2]. split; [intros m f a rel Haf; apply exact_spec; by eapply H1|]. intros m f a rel Haf j r Hr. apply weight_nonneg. by eapply H2.
Qed.
End save.
