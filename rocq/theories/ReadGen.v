(** * Every trigger text generated for a schema with ordinary names is read. *)
From Verif Require Import Base BaseLemmas Schema TrigSet Gen GenLemmas Exec Conditions Render RenderProps Text Read ReadProps ReadStmt ReadTrig ReadMeans.
From Coq Require Import Ascii.
Open Scope list_scope.

(** ** Schemas with ordinary names *)
Definition rel_plain (b : backend) (r : relation) : Prop :=
  match r with
  | RelForward fk | RelBackward fk => plain b fk
  | RelM2M t c rc => plain b t ∧ plain b c ∧ plain b rc
  | RelGenForward ctc oidc | RelGenBackward ctc oidc => ident ctc ∧ plain b oidc
  end.
Definition field_plain (b : backend) (f : field) : Prop :=
  ident (f_att f) ∧
  match f_kind f with
  | KCallback _ ds _ => Forall (λ dp, rel_plain b (dep_rel dp)) ds
  | KCacheKey ds => plain b (f_name f) ∧ Forall (λ dp, rel_plain b (dep_rel dp)) ds
  | KAgg a => plain b (f_name f) ∧ ident (ag_fk a) ∧ Forall cond_ok (ag_filter a) ∧ Forall cond_ok (ag_exclude a) ∧
      match ag_sum a with Some c => ident c | None => True end
  | _ => True
  end.
Definition names_plain (b : backend) (S : schema) : Prop :=
  ∀ m, m ∈ s_models S → plain b (m_table m) ∧ plain b (m_pk m) ∧ (0 ≤ m_ct m)%Z ∧ Forall (field_plain b) (m_fields m).

Definition gen_ok (b : backend) (tr : trigger) : Prop := trig_ok b tr ∧ ∀ a, a ∈ t_acts tr → ∀ q, names_ok b q a.
Lemma plain_col b q c : plain b c → col_ok b q c.
Proof. intros H. destruct q; [by apply plain_ident in H|done]. Qed.
Definition mp (b : backend) (m : model) : Prop := plain b (m_table m) ∧ plain b (m_pk m) ∧ (0 ≤ m_ct m)%Z ∧ Forall (field_plain b) (m_fields m).
Lemma Forall_filt {A} (P Q : A → Prop) `{∀ x, Decision (Q x)} (l : list A) : Forall P l → Forall P (filter Q l).
Proof. rewrite !Forall_forall. intros H' x [_ Hx]%elem_of_list_filter. by apply H'. Qed.
Lemma atts_ident b m : mp b m → Forall ident (m_pk m :: (f_att <$> filter (λ f, f_owner f = m_name m) (m_fields m))).
Proof.
  intros (_ & Hp & _ & Hf). constructor; [by apply plain_ident in Hp|]. apply Forall_fmap, Forall_filt. eapply Forall_impl; [exact Hf|]. by intros f [? _].
Qed.
Lemma model_trigger_ok b m ct sk e acts : mp b m → (∀ a, a ∈ acts → ∀ q, names_ok b q a) → gen_ok b (model_trigger m ct sk e acts).
Proof.
  intros Hm Ha. split; [|done]. split_and!; [by destruct Hm| |done]. cbn [model_trigger t_fields]. unfold model_tfields. apply Forall_filt. by apply atts_ident with (b := b).
Qed.
Lemma m2m_trigger_ok b t c rc ct e acts : plain b t → plain b c → plain b rc → (∀ a, a ∈ acts → ∀ q, names_ok b q a) → gen_ok b (m2m_trigger t c rc ct e acts).
Proof. intros Ht Hc Hr Ha. split; [|done]. split_and!; [done| |done]. repeat constructor; try (by eapply plain_ident); by destruct Hc, Hr. Qed.
Lemma gen_trigger_ok b m ctc ct e acts : mp b m → ident ctc → (0 ≤ ct)%Z → (∀ a, a ∈ acts → ∀ q, names_ok b q a) → gen_ok b (gen_trigger m ctc ct e acts).
Proof. intros Hm Hc Hct Ha. split; [|done]. split_and!; [by destruct Hm|by apply atts_ident with (b := b)|]. by intros cf [= <-]. Qed.

Ltac mem := repeat match goal with
  | H : _ ∈ [] |- _ => by apply elem_of_nil in H
  | H : _ ∈ _ :: _ |- _ => apply elem_of_cons in H as [->|H]
  end.
Ltac nok := intros ? ? ?; mem; cbn [names_ok]; split_and!; first [done | by apply plain_col | by eapply plain_ident].
Lemma cb_dep_ok b this other dp tr : mp b this → mp b other → rel_plain b (dep_rel dp) → tr ∈ cb_dep_triggers this other dp → gen_ok b tr.
Proof.
  intros Ht Ho Hr Hin. pose proof Ht as (T1 & T2 & T3 & _). pose proof Ho as (O1 & O2 & _ & _). unfold cb_dep_triggers in Hin. destruct (dep_rel dp); cbn [rel_plain] in Hr.
  - mem; apply model_trigger_ok; try done; nok.
  - mem; apply model_trigger_ok; try done; nok.
  - destruct Hr as (R1 & R2 & R3). mem; first [apply model_trigger_ok | apply m2m_trigger_ok]; try done; nok.
  - destruct Hr as (R1 & R2). mem; apply gen_trigger_ok; try done; nok.
  - destruct Hr as (R1 & R2). mem; apply gen_trigger_ok; try done; nok.
Qed.
Lemma ck_dep_ok b this other fname dp tr : mp b this → mp b other → plain b fname → rel_plain b (dep_rel dp) → tr ∈ ck_dep_triggers this other fname dp → gen_ok b tr.
Proof.
  intros Ht Ho Hn Hr Hin. pose proof Ht as (T1 & T2 & T3 & _). pose proof Ho as (O1 & O2 & _ & _). unfold ck_dep_triggers in Hin. destruct (dep_rel dp); cbn [rel_plain] in Hr.
  - mem; apply model_trigger_ok; try done; nok.
  - mem; apply model_trigger_ok; try done; nok.
  - destruct Hr as (R1 & R2 & R3). mem; first [apply model_trigger_ok | apply m2m_trigger_ok]; try done; nok.
  - destruct Hr as (R1 & R2). mem; apply gen_trigger_ok; try done; nok.
  - destruct Hr as (R1 & R2). mem; apply gen_trigger_ok; try done; nok.
Qed.
Lemma agg_ok b this rel fname a tr : mp b this → mp b rel → plain b fname → ident (ag_fk a) → Forall cond_ok (ag_filter a) → Forall cond_ok (ag_exclude a) →
  match ag_sum a with Some c => ident c | None => True end → tr ∈ agg_triggers this rel fname a → gen_ok b tr.
Proof.
  intros Ht Ho Hn Hk Hf Hx Hs Hin. pose proof Ht as (T1 & T2 & T3 & _). unfold agg_triggers in Hin.
  mem; apply model_trigger_ok; try done; intros ? ? ?; mem; cbn [names_ok]; split_and!; try done; try (by eapply plain_ident); by destruct (ag_sum a).
Qed.
Lemma field_triggers_ok b S m f l tr : names_plain b S → m ∈ s_models S → field_plain b f → field_triggers S m f = Ok l → tr ∈ l → gen_ok b tr.
Proof.
  intros HS Hm [_ Hf] Hl Hin. assert (Hmp : mp b m) by (by apply HS). unfold field_triggers in Hl. destruct (f_kind f) as [| |fn ds sk|a|ds].
  - injection Hl as <-. by apply elem_of_nil in Hin.
  - injection Hl as <-. by apply elem_of_nil in Hin.
  - destruct (deps_triggers S m cb_dep_triggers ds) as [l0|] eqn:H; [|done]. injection Hl as <-. apply elem_of_app in Hin as [Hin|Hin].
    + destruct (s_bulk_unsafe S); [by apply elem_of_nil in Hin|]. pose proof Hmp as (T1 & T2 & T3 & _). unfold cb_self_triggers in Hin. mem; apply model_trigger_ok; try done; nok.
    + destruct (deps_triggers_spec _ _ _ _ _ H) as [_ Hs]. destruct (Hs _ Hin) as (dp & o & Hdp & Ho & Htr). apply find_model_in in Ho as [Ho _].
      eapply (cb_dep_ok b m o dp); [done|by apply HS| |done]. by eapply (proj1 (Forall_forall _ _)) in Hf.
  - destruct Hf as (F1 & F2 & F3 & F4 & F5). unfold with_model in Hl. destruct (find_model S (ag_rel a)) as [r|] eqn:Hr; [|done]. injection Hl as <-.
    apply find_model_in in Hr as [Hr _]. eapply (agg_ok b m r (f_name f) a); try done. by apply HS.
  - destruct Hf as [F1 F2]. destruct (deps_triggers_spec _ _ _ _ _ Hl) as [_ Hs]. destruct (Hs _ Hin) as (dp & o & Hdp & Ho & Htr). apply find_model_in in Ho as [Ho _].
    eapply (ck_dep_ok b m o (f_name f) dp); [done|by apply HS|done| |done]. by eapply (proj1 (Forall_forall _ _)) in F2.
Qed.
Lemma alldenorms_in S m f : (m, f) ∈ alldenorms S → m ∈ s_models S ∧ ∃ m0, m0 ∈ s_models S ∧ f ∈ m_fields m0.
Proof.
  unfold alldenorms. rewrite elem_of_list_bind. intros (m0 & H & Hm0). destruct (m_proxy m0); [by apply elem_of_nil in H|]. apply elem_of_list_bind in H as (f0 & H & Hf0).
  destruct (is_denorm f0); [|by apply elem_of_nil in H]. destruct (find_model S (f_owner f0)) as [o|] eqn:Ho; [|by apply elem_of_nil in H]. destruct (m_swapped o); [by apply elem_of_nil in H|].
  apply elem_of_list_singleton in H as [= -> ->]. apply find_model_in in Ho as [Ho _]. split; [done|by exists m0].
Qed.
Lemma generated_ok b S l tr : names_plain b S → gen_all S = Ok l → tr ∈ l → gen_ok b tr.
Proof.
  intros HS Hl Hin. apply (gen_all_elem _ _ _ Hl) in Hin as (m & f & lf & Hd & Hf & Hin). apply alldenorms_in in Hd as (Hm & m0 & Hm0 & Hf0).
  destruct (HS _ Hm0) as (_ & _ & _ & Ha). apply (field_triggers_ok b S m f lf); try done. by eapply (proj1 (Forall_forall _ _)) in Ha.
Qed.
Lemma merged_ok b S ts n tr : names_plain b S → build_triggerset b S = Ok ts → (n, tr) ∈ ts → gen_ok b tr.
Proof.
  intros HS Hts Hin. destruct (build_gen _ _ _ Hts) as (l & Hl & Hok). destruct (to_sound _ _ _ Hok _ _ Hin) as [(tr1 & H1 & _ & Hh) Ha]. split.
  - destruct (generated_ok _ _ _ _ HS Hl H1) as [(A & B & C) _]. destruct Hh as (E1 & E2 & E3 & E4 & E5). unfold trig_ok. by rewrite E1, E3, E4, E5.
  - intros a Hin' q. destruct (Ha _ Hin') as (tr2 & H2 & _ & Hin2). by apply (generated_ok _ _ _ _ HS Hl H2).
Qed.

(** ** Final names *)
Definition low_ok (b : backend) (c : ascii) : bool := match b with Postgres => Ascii.eqb (low_char c) c | _ => true end.
Lemma folded_chars b w : folded b w = w ↔ all_chars (low_ok b) w = true.
Proof.
  destruct b; cbn [folded]; [split; [intros _|done]; by induction w| |split; [intros _|done]; by induction w]. induction w as [|c w IH]; [done|]. cbn. rewrite andb_true_iff, <- IH, Ascii.eqb_eq.
  split; [by intros [= -> ->]|]. by intros [-> ->].
Qed.
Lemma chars_app P s t : all_chars P (s +:+ t) = all_chars P s && all_chars P t.
Proof. induction s as [|c s IH]; [done|]. rewrite str_app_cons. cbn. by rewrite IH, andb_assoc. Qed.
Lemma chars_sub P n s : all_chars P s = true → all_chars P (String.substring 0 n s) = true.
Proof. revert n. induction s as [|c s IH]; intros [|n] H; try done. cbn in *. apply andb_true_iff in H as [-> H]. cbn. by apply IH. Qed.
Lemma plain_chars b w : plain b w → all_chars is_ident_char w = true ∧ all_chars (low_ok b) w = true.
Proof. intros ([_ H1] & _ & _ & H2). split; [done|by apply folded_chars]. Qed.
Definition word_ok (b : backend) (w : string) : Prop := all_chars is_ident_char w = true ∧ all_chars (low_ok b) w = true.
Lemma plain_denorm b w : word_ok b ("denorm_" +:+ w) → plain b ("denorm_" +:+ w).
Proof. intros [H1 H2]. split_and!; [split; [done|exact H1]|reflexivity|reflexivity|by apply folded_chars]. Qed.
Lemma word_app b s t : word_ok b s → word_ok b t → word_ok b (s +:+ t).
Proof. intros [A B] [C D]. split; rewrite chars_app; by apply andb_true_iff. Qed.
Lemma word_sub b n s : word_ok b s → word_ok b (String.substring 0 n s).
Proof. intros [A B]. split; by apply chars_sub. Qed.
Lemma word_pretty b (z : Z) : (0 ≤ z)%Z → word_ok b (pretty z).
Proof.
  intros Hz. split; [by apply ident_pretty|]. destruct b; [by induction (pretty z)| |by induction (pretty z)]. pose proof (pretty_num z) as H.
  induction (pretty z) as [|c w IH]; [done|]. cbn in *. apply andb_true_iff in H as [Hc H]. rewrite IH by done. rewrite andb_true_r. apply Ascii.eqb_eq. unfold low_char, code.
  unfold is_num_char in Hc. cbv zeta in Hc. destruct ((65 <=? N_of_ascii c) && (N_of_ascii c <=? 90))%N eqn:E; [|done]. exfalso.
  apply andb_true_iff in E as [E1 E2]. apply orb_true_iff in Hc as [Hc|Hc]; [apply andb_true_iff in Hc as [Hc1 Hc2]|]; rewrite ?N.leb_le, ?N.eqb_eq in *; lia.
Qed.
Lemma trig_name_word b tr : trig_ok b tr → ∃ w, trig_name b tr = "denorm_after_row_" +:+ w ∧ word_ok b (trig_name b tr).
Proof.
  intros (Ht & _ & Hc). assert (Hb : word_ok b (base_name tr)).
  { unfold base_name. apply word_app; [by destruct b|]. apply word_app; [by destruct b, (t_ev tr)|]. apply word_app; [by destruct b|]. by apply plain_chars. }
  unfold trig_name. destruct (t_ctf tr) as [cf|]; [|destruct b; by eexists].
  destruct b; [|..|by eexists]; (eexists; split; [unfold base_name; rewrite !str_app_assoc; reflexivity|]; rewrite <- str_app_assoc);
    rewrite <- ?str_app_assoc; (apply word_app; [apply word_app; [exact Hb|done]|apply word_pretty]); by apply (Hc cf).
Qed.
Lemma final_plain b digest rnd tr : trig_ok b tr → (∀ s, word_ok b (digest s)) → word_ok b rnd → plain b (final_name b digest rnd tr).
Proof.
  intros Ht Hd Hr. destruct (trig_name_word b tr Ht) as (w & Hw & Hok). rewrite Hw in Hok.
  unfold final_name, pg_name, my_name. rewrite Hw.
  assert (Hp : ∀ x, word_ok b ("denorm_after_row_" +:+ x) → plain b ("denorm_after_row_" +:+ x)).
  { intros x Hx. apply (plain_denorm b ("after_row_" +:+ x)). exact Hx. }
  destruct b; [by apply Hp| |]; (case_decide; [try by apply Hp|try by apply Hp]).
  - apply (Hp (String.substring 0 37 w +:+ digest ("denorm_after_row_" +:+ w))).
    apply (word_app Postgres (String.substring 0 54 ("denorm_after_row_" +:+ w))); [|done]. by apply word_sub.
  - apply (Hp (String.substring 0 28 w +:+ rnd)).
    apply (word_app MySQL (String.substring 0 45 ("denorm_after_row_" +:+ w))); [|done]. by apply word_sub.
Qed.

(** ** Reading all of them *)
Lemma dedup_sql_in nu b acts p : p ∈ dedup_sql nu b [] acts → p ∈ acts.
Proof. destruct (dedup_sql_spec nu b acts []) as (_ & H & _). intros Hp. by destruct (H _ Hp). Qed.
Lemma trig_sql_inv b tr it : trig_sql b tr = Ok it → trig_cond b tr = Ok (i_cond it) ∧ i_tab it = t_tab tr ∧ i_ev it = t_ev tr ∧ i_acts it = dedup [] (t_acts tr) ∧
  (b = SQLite → ∀ a, a ∈ t_acts tr → act_params a = []).
Proof.
  unfold trig_sql. intros H. inv_bind H. case_decide.
  - destruct (forallb _ _) eqn:E; [|done]. injection H as <-. split_and!; try done. intros _ x Hx. rewrite forallb_True in E || apply Is_true_true in E.
    apply forallb_True in E. eapply (proj1 (Forall_forall _ _)) in E; [|apply elem_dedup; split; [exact Hx|by intros ?%elem_of_nil]]. by apply bool_decide_unpack in E.
  - injection H as <-. by split_and!.
Qed.
Lemma params_nil nu b acts : (∀ a, a ∈ acts.*2 → act_params a = []) → trig_params nu b acts = [].
Proof.
  intros H. unfold trig_params. assert (Hd : ∀ p, p ∈ dedup_sql nu b [] acts → act_params p.2 = []).
  { intros p Hp%dedup_sql_in. apply H. apply elem_of_list_fmap. by exists p. }
  induction (dedup_sql nu b [] acts) as [|p l IH]; [done|]. cbn. rewrite Hd by left. apply IH. intros. apply Hd. by right.
Qed.
Lemma schema_reads b S ts n tr it nu ut acts fn : names_plain b S → build_triggerset b S = Ok ts → (n, tr) ∈ ts → trig_sql b tr = Ok it →
  acts.*2 = t_acts tr → plain b fn →
  read b (trig_text nu ut b fn tr acts) (trig_params nu b acts) = Some (trig_ast nu ut b fn tr (dedup_sql nu b [] acts)).
Proof.
  intros HS Hts Hin Hit Ha Hfn. destruct (merged_ok _ _ _ _ _ HS Hts Hin) as [Ho Hn]. destruct (trig_sql_inv _ _ _ Hit) as (Hc & _ & _ & _ & Hp).
  apply (read_trig nu ut b fn tr (i_cond it)); try done.
  - apply Forall_forall. intros [q a] Hqa%dedup_sql_in. apply Hn. rewrite <- Ha. apply elem_of_list_fmap. by exists (q, a).
  - intros Hb. apply params_nil. rewrite Ha. by apply Hp.
Qed.
