(** * Deciding the conditions of Spec.v on concrete schemas.
    No modelling here: boolean checks proved sound, used by the examples. *)
From Verif Require Import Base BaseLemmas Schema TrigSet Gen Exec Spec GenLemmas Orm Flush.

#[global] Instance dep_eq_dec : EqDecision dep.
Proof. solve_decision. Defined.

Lemma allb_spec {A} (p : A → bool) l : forallb p l = true → ∀ x, x ∈ l → p x = true.
Proof. intros H x Hx. rewrite forallb_forall in H. apply H. by apply elem_of_list_In. Qed.
Lemma exb_spec {A} (p : A → bool) l : existsb p l = true → ∃ x, x ∈ l ∧ p x = true.
Proof. rewrite existsb_exists. intros (x & Hx & Hp). exists x. by rewrite elem_of_list_In. Qed.
Ltac bsplit := repeat match goal with
  | H : _ && _ = true |- _ => apply andb_true_iff in H as [? ?]
  | H : bool_decide _ = true |- _ => apply bool_decide_eq_true in H
  | H : negb _ = true |- _ => apply negb_true_iff in H
  | H : bool_decide _ = false |- _ => apply bool_decide_eq_false in H
  end.
(** Use a check of the form forallb on a member. *)
Tactic Notation "allb" hyp(H) constr(x) "as" ident(N) := pose proof (allb_spec _ _ H x ltac:(assumption)) as N; simpl in N.

Section check.
Context (S : schema).

Definition pocb (f : field) : bool := match f_kind f with KAgg _ | KCacheKey _ => false | _ => true end.
Lemma pocb_spec f : pocb f = true ↔ plain_or_callback f.
Proof. unfold pocb, plain_or_callback. destruct (f_kind f); naive_solver. Qed.
Definition column_ofb (m : model) (c : string) : bool :=
  existsb (λ f, bool_decide (f_col f = c) && pocb f) (m_fields m).
Lemma column_ofb_spec m c : column_ofb m c = true → column_of m c.
Proof. intros H. apply exb_spec in H as (f & Hf & Hp). bsplit. exists f. by rewrite <- pocb_spec. Qed.
Definition plain_colb (m : model) (c : string) : bool :=
  existsb (λ f, bool_decide (f_col f = c) && match f_kind f with KPlain => true | _ => false end) (m_fields m).
Lemma plain_colb_spec m c : plain_colb m c = true → plain_col m c.
Proof. intros H. apply exb_spec in H as (f & Hf & Hp). bsplit. exists f. by destruct (f_kind f). Qed.

Definition wf_modelb (m : model) : bool :=
  negb (m_proxy m) && negb (m_swapped m) &&
  forallb (λ f, bool_decide (f_owner f = m_name m) && bool_decide (f_att f = f_col f) &&
                (pocb f || bool_decide (f_name f = f_col f))) (m_fields m) &&
  bool_decide (NoDup (f_col <$> m_fields m)) && bool_decide (m_pk m ∉ f_col <$> m_fields m) &&
  forallb (λ mm, forallb (λ m', negb (bool_decide (mm_table mm = m_table m'))) (s_models S)) (m_m2m m).
Lemma wf_modelb_spec m : wf_modelb m = true → wf_model S m.
Proof.
  unfold wf_modelb. rewrite !andb_true_iff. intros (((((A1 & A2) & A3) & A4) & A5) & A6). bsplit. split; try done.
  - intros f Hf. allb A3 f as B. by bsplit.
  - intros f Hf. allb A3 f as B. by bsplit.
  - intros f Hf. allb A3 f as B. rewrite !andb_true_iff, orb_true_iff in B. destruct B as [_ [B|B]]; [left; by apply pocb_spec|right; by bsplit].
  - intros mm m' Hmm Hm'. allb A6 mm as B. allb B m' as C. by bsplit.
Qed.

Definition wf_depb (m : model) (dp : dep) : bool :=
  match find_model S (dep_other dp) with
  | None => true
  | Some o =>
    match dep_rel dp with
    | RelForward fk => column_ofb m fk
    | RelBackward fk => column_ofb o fk
    | RelM2M t c rc => forallb (λ m', negb (bool_decide (t = m_table m'))) (s_models S) && negb (bool_decide (c = "id")) && negb (bool_decide (rc = "id"))
    | RelGenForward ctc oidc => column_ofb o ctc && column_ofb o oidc
    | RelGenBackward ctc oidc => column_ofb m ctc && column_ofb m oidc
    end
  end.
Lemma wf_depb_spec m dp : wf_depb m dp = true → wf_dep S m dp.
Proof.
  unfold wf_depb, wf_dep. intros H o Ho. rewrite Ho in H. destruct (dep_rel dp); bsplit; try by apply column_ofb_spec.
  - split; [|done]. intros m' Hm'. allb H m' as B. by bsplit.
  - split; by apply column_ofb_spec.
  - split; by apply column_ofb_spec.
Qed.

(** All (model, field, dependency) triples. *)
Definition all_deps : list (model * field * dep) := m ← s_models S; f ← m_fields m; (λ dp, (m, f, dp)) <$> field_deps f.
Lemma all_deps_in m f dp : m ∈ s_models S → f ∈ m_fields m → dp ∈ field_deps f → (m, f, dp) ∈ all_deps.
Proof.
  intros Hm Hf Hd. unfold all_deps. apply elem_of_list_bind. exists m. split; [|done].
  apply elem_of_list_bind. exists f. split; [|done]. apply elem_of_list_fmap. by exists dp.
Qed.
Definition all_fields : list (model * field) := m ← s_models S; (λ f, (m, f)) <$> m_fields m.
Lemma all_fields_in m f : m ∈ s_models S → f ∈ m_fields m → (m, f) ∈ all_fields.
Proof.
  intros Hm Hf. unfold all_fields. apply elem_of_list_bind. exists m. split; [|done]. apply elem_of_list_fmap. by exists f.
Qed.

Definition wf_schemab : bool :=
  forallb wf_modelb (s_models S) && bool_decide (NoDup (m_name <$> s_models S)) &&
  bool_decide (NoDup (m_table <$> s_models S)) && bool_decide (NoDup (m_ct <$> s_models S)) &&
  forallb (λ x, wf_depb x.1.1 x.2) all_deps &&
  forallb (λ x, match f_kind x.2 with
                | KAgg a => match find_model S (ag_rel a) with Some rel => column_ofb rel (ag_fk a) | None => true end
                | _ => true end) all_fields.
Lemma wf_schemab_spec : wf_schemab = true → wf_schema S.
Proof.
  unfold wf_schemab. rewrite !andb_true_iff. intros (((((A1 & A2) & A3) & A4) & A5) & A6). bsplit. split; try done.
  - intros m Hm. allb A1 m as B. by apply wf_modelb_spec.
  - intros m f dp Hm Hf Hd. pose proof (all_deps_in _ _ _ Hm Hf Hd) as Hin. allb A5 (m, f, dp) as B. by apply wf_depb_spec.
  - intros m f a rel Hm Hf Hk Hr. pose proof (all_fields_in _ _ Hm Hf) as Hin. allb A6 (m, f) as B. rewrite Hk, Hr in B. by apply column_ofb_spec.
Qed.

Definition m2m_of (dp : dep) : option (string * string * string) := match dep_rel dp with RelM2M t c rc => Some (t, c, rc) | _ => None end.
Definition all_links : list (string * string * string) := omap (λ x, m2m_of x.2) all_deps.
Lemma all_links_in m f dp t c rc : m ∈ s_models S → f ∈ m_fields m → dp ∈ field_deps f → dep_rel dp = RelM2M t c rc → (t, c, rc) ∈ all_links.
Proof.
  intros Hm Hf Hd Hr. unfold all_links. apply elem_of_list_omap. exists (m, f, dp). split; [by apply all_deps_in|].
  unfold m2m_of. simpl. by rewrite Hr.
Qed.
Definition wf_linksb : bool := forallb (λ x, forallb (λ y : string * string * string,
  negb (bool_decide (x.1.1 = y.1.1)) || (bool_decide (x.1.2 = y.1.2) && bool_decide (x.2 = y.2)) || (bool_decide (x.1.2 = y.2) && bool_decide (x.2 = y.1.2))) all_links) all_links.
Lemma wf_linksb_spec : wf_linksb = true → wf_links S.
Proof.
  unfold wf_linksb. intros H m f dp m' f' dp' t c rc c' rc' Hm Hf Hd Hr Hm' Hf' Hd' Hr'.
  pose proof (all_links_in _ _ _ _ _ _ Hm Hf Hd Hr) as Hin. pose proof (all_links_in _ _ _ _ _ _ Hm' Hf' Hd' Hr') as Hin'.
  allb H (t, c, rc) as B. allb B (t, c', rc') as C. rewrite !orb_true_iff in C. destruct C as [[C|C]|C]; bsplit; [done|by left|by right].
Qed.

Definition no_m2m_depb : bool := bool_decide (all_links = []).
Lemma no_m2m_depb_spec : no_m2m_depb = true → no_m2m_dep S.
Proof.
  unfold no_m2m_depb. intros H m f dp t c rc Hm Hf Hd Hr. bsplit.
  pose proof (all_links_in _ _ _ _ _ _ Hm Hf Hd Hr) as Hin. rewrite H in Hin. by apply elem_of_nil in Hin.
Qed.
Lemma find_model_name n m : wf_schema S → m ∈ s_models S → m_name m = n → find_model S n = Some m.
Proof. intros W Hm <-. by apply find_model_self; [apply (wf_names _ W)|]. Qed.
Definition m2m_declaredb : bool := forallb (λ x,
  match m2m_of x.2 with
  | None => true
  | Some (t, c, rc) => existsb (λ m', existsb (λ mm, bool_decide (mm_table mm = t) &&
       ((bool_decide (mm_rev mm = rc) && bool_decide (mm_to mm = dep_other x.2)) ||
        (bool_decide (mm_col mm = rc) && bool_decide (m_name m' = dep_other x.2)))) (m_m2m m')) (s_models S)
  end) all_deps.
Lemma m2m_declaredb_spec : wf_schema S → m2m_declaredb = true → m2m_declared S.
Proof.
  unfold m2m_declaredb. intros W H m f dp t c rc o Hm Hf Hd Hr Ho. pose proof (all_deps_in _ _ _ Hm Hf Hd) as Hin.
  allb H (m, f, dp) as B. unfold m2m_of in B. simpl in B. rewrite Hr in B. apply exb_spec in B as (m' & Hm' & B).
  apply exb_spec in B as (mm & Hmm & B). exists m', mm. apply andb_true_iff in B as [B C]. bsplit. split_and!; [done..|].
  apply orb_true_iff in C as [C|C]; apply andb_true_iff in C as [C D]; bsplit; [left; split; [done|by rewrite D]|right; split; [done|]].
  rewrite <- D in Ho. rewrite (find_model_name _ m' W Hm' eq_refl) in Ho. by injection Ho.
Qed.

(** Sources of trigger updates. *)
Definition upd_sources (m : model) : list string :=
  f ← m_fields m;
  match f_kind f with
  | KAgg a => match find_model S (ag_rel a) with Some rel => [m_table rel] | None => [] end
  | KCacheKey ds => dp ← ds; match find_model S (dep_other dp) with
      | Some o => m_table o :: match dep_rel dp with RelM2M t _ _ => [t] | RelGenBackward _ _ => [m_table m] | _ => [] end
      | None => [] end
  | _ => []
  end.
Lemma upd_sources_in m t : upd_source S m t → t ∈ upd_sources m.
Proof.
  intros H. unfold upd_sources. apply elem_of_list_bind. destruct H as [f a rel Hf Hk Ho|f ds dp o Hf Hk Hd Ho|f ds dp o t c rc Hf Hk Hd Ho Hr|f ds dp o ctc oidc Hf Hk Hd Ho Hr];
    exists f; (split; [|done]); rewrite Hk.
  - rewrite Ho. by left.
  - apply elem_of_list_bind. exists dp. split; [|done]. rewrite Ho. by left.
  - apply elem_of_list_bind. exists dp. split; [|done]. rewrite Ho, Hr. right. by left.
  - apply elem_of_list_bind. exists dp. split; [|done]. rewrite Ho, Hr. right. by left.
Qed.
Definition upd_acyclicb (rank : string → nat) : bool :=
  forallb (λ m, forallb (λ t, bool_decide (rank (m_table m) < rank t)%nat) (upd_sources m)) (s_models S).
Lemma upd_acyclicb_spec rank : upd_acyclicb rank = true → upd_acyclic S rank.
Proof.
  intros H m t Hm Hu. allb H m as B. apply upd_sources_in in Hu. allb B t as C. by bsplit.
Qed.

(** Names. *)
Definition gens : list (string * string * Z) := omap (λ x,
  match find_model S (dep_other x.2), dep_rel x.2 with
  | Some o, RelGenForward cf _ => Some (m_table o, cf, m_ct x.1.1)
  | Some o, RelGenBackward cf _ => Some (m_table x.1.1, cf, m_ct x.1.1)
  | _, _ => None
  end) all_deps.
Lemma gens_in t cf ct : gen_on S t cf ct → (t, cf, ct) ∈ gens.
Proof.
  intros H. apply elem_of_list_omap. destruct H as [m f dp o cf oc Hm Hf Hd Ho Hr|m f dp o cf oc Hm Hf Hd Ho Hr];
    exists (m, f, dp); (split; [by apply all_deps_in|]); simpl; by rewrite Ho, Hr.
Qed.
Definition ttables : list string := (m_table <$> s_models S) ++ ((λ x : string * string * string, x.1.1) <$> all_links).
Lemma ttables_in t : trigger_table S t → t ∈ ttables.
Proof.
  intros H. unfold ttables. apply elem_of_app. destruct H as [m Hm|m f dp t c rc Hm Hf Hd Hr].
  - left. apply elem_of_list_fmap. by exists m.
  - right. apply elem_of_list_fmap. exists (t, c, rc). split; [done|]. by eapply all_links_in.
Qed.
Definition names_apartb : bool :=
  forallb (λ x, forallb (λ t', negb (bool_decide (t' = x.1.1 +:+ "_" +:+ pretty x.2))) ttables) gens &&
  forallb (λ x, forallb (λ y : string * string * Z, negb (bool_decide (x.1.1 = y.1.1 ∧ x.2 = y.2)) || bool_decide (x.1.2 = y.1.2)) gens) gens.
Lemma names_apartb_spec : names_apartb = true → names_apart S.
Proof.
  unfold names_apartb. rewrite andb_true_iff. intros [A1 A2]. split.
  - intros t cf ct t' Hg Ht. apply gens_in in Hg. apply ttables_in in Ht. allb A1 (t, cf, ct) as B. allb B t' as C. by bsplit.
  - intros t cf cf' ct Hg Hg'. apply gens_in in Hg, Hg'. allb A2 (t, cf, ct) as B. allb B (t, cf', ct) as C.
    apply orb_true_iff in C as [C|C]; bsplit; [|done]. exfalso. by apply C.
Qed.

Definition trackableb (rank : string → nat) (imm : bool) : bool :=
  wf_schemab && wf_linksb && names_apartb && negb (s_bulk_unsafe S) &&
  (no_m2m_depb || (imm && m2m_declaredb)) && upd_acyclicb rank.
Lemma trackableb_spec rank imm b : trackableb rank imm = true → trackable S rank imm b.
Proof.
  unfold trackableb. rewrite !andb_true_iff. intros (((((A1 & A2) & A3) & A4) & A5) & A6). pose proof (wf_schemab_spec A1) as W. bsplit.
  split; eauto using wf_linksb_spec, names_apartb_spec, upd_acyclicb_spec.
  apply orb_true_iff in A5 as [A5|A5]; [left; by apply no_m2m_depb_spec|right]. bsplit.
  split; [done|by apply m2m_declaredb_spec].
Qed.

Definition self_deps_plainb : bool := forallb (λ x,
  negb (bool_decide (dep_other x.2 = m_name x.1.1)) ||
  match dep_rel x.2 with
  | RelForward fk | RelBackward fk => plain_colb x.1.1 fk
  | RelGenForward ctc oidc => plain_colb x.1.1 ctc && plain_colb x.1.1 oidc
  | _ => true
  end) all_deps.
Lemma self_deps_plainb_spec : self_deps_plainb = true → self_deps_plain S.
Proof.
  intros H m f fn ds sk dp Hm Hf Hk Hd Ho. assert (Hd' : dp ∈ field_deps f) by (unfold field_deps; by rewrite Hk).
  pose proof (all_deps_in _ _ _ Hm Hf Hd') as Hin. allb H (m, f, dp) as B. apply orb_true_iff in B as [B|B]; bsplit; [done|].
  destruct (dep_rel dp); bsplit; try done; try split; by apply plain_colb_spec.
Qed.
Definition no_self_depb : bool := forallb (λ x, negb (bool_decide (dep_other x.2 = m_name x.1.1))) all_deps.
Lemma no_self_depb_spec : no_self_depb = true → no_self_dep S.
Proof.
  intros H m f fn ds sk dp Hm Hf Hk Hd. assert (Hd' : dp ∈ field_deps f) by (unfold field_deps; by rewrite Hk).
  pose proof (all_deps_in _ _ _ Hm Hf Hd') as Hin. allb H (m, f, dp) as B. by bsplit.
Qed.
Definition no_m2m_denormb : bool := forallb (λ m, forallb (λ mm, match mm_denorm mm with None => true | _ => false end) (m_m2m m)) (s_models S).
Lemma no_m2m_denormb_spec : no_m2m_denormb = true → no_m2m_denorm S.
Proof. intros H m mm Hm Hmm. allb H m as B. allb B mm as C. by destruct (mm_denorm mm). Qed.

(** Tracked columns. *)
Definition skips (m : model) : list (list string) :=
  (f ← m_fields m; match f_kind f with KCallback _ _ sk => [sk] | _ => [] end) ++
  (x ← all_deps; if decide (is_gen (dep_rel x.2) = false ∧ dep_other x.2 = m_name m) then [dep_skip x.2] else []) ++
  (x ← all_fields; match f_kind x.2 with KAgg a => if decide (ag_rel a = m_name m) then [ag_skip a] else [] | _ => [] end).
Lemma skips_in m sk : skip_on S m sk → sk ∈ skips m.
Proof.
  intros H. unfold skips. rewrite !elem_of_app. destruct H as [f fn ds sk Hf Hk|m' f dp Hm Hf Hd Hg Ho|m' f a Hm Hf Hk Ho].
  - left. apply elem_of_list_bind. exists f. split; [|done]. rewrite Hk. by left.
  - right. left. apply elem_of_list_bind. exists (m', f, dp). split; [|by apply all_deps_in]. simpl.
    apply find_model_in in Ho as [_ Ho]. rewrite decide_True by done. by left.
  - right. right. apply elem_of_list_bind. exists (m', f). split; [|by apply all_fields_in]. simpl. rewrite Hk.
    apply find_model_in in Ho as [_ Ho]. rewrite decide_True by done. by left.
Qed.
Definition trackedb (m : model) (c : string) : bool :=
  existsb (λ f, bool_decide (f_col f = c)) (m_fields m) &&
  forallb (λ sk, bool_decide (c ∉ (if decide (sk = []) then m_always_skip m else sk))) (skips m).
Lemma trackedb_spec m c : trackedb m c = true → tracked S m c.
Proof.
  unfold trackedb. rewrite andb_true_iff. intros [A1 A2]. split.
  - apply exb_spec in A1 as (f & Hf & A1). bsplit. by exists f.
  - intros sk Hsk. apply skips_in in Hsk. allb A2 sk as B. by bsplit.
Qed.

Definition watchedb (t c : string) : bool :=
  existsb (λ m, bool_decide (m_table m = t) && bool_decide (c ∈ f_col <$> m_fields m) &&
     (existsb (λ sk, bool_decide (c ∉ (if decide (sk = []) then m_always_skip m else sk))) (skips m) ||
      existsb (λ g : string * string * Z, bool_decide (g.1.1 = t)) gens)) (s_models S) ||
  existsb (λ x : string * string * string, bool_decide (x.1.1 = t) && bool_decide (c ∈ [x.1.2; x.2])) all_links.
Lemma exb_intro {A} (p : A → bool) l x : x ∈ l → p x = true → existsb p l = true.
Proof. intros Hin Hp. apply existsb_exists. exists x. by rewrite <- elem_of_list_In. Qed.
Lemma watchedb_spec t c : watched S t c → watchedb t c = true.
Proof.
  unfold watchedb. intros [m sk f Hm Hso Hf Hn|m cf ct f Hm Hg Hf|m f dp t' c' rc x Hm Hf Hd Hr Hx]; apply orb_true_iff.
  - left. eapply exb_intro; [exact Hm|]. rewrite !bool_decide_true by (try done; apply elem_of_list_fmap; by exists f). simpl.
    apply orb_true_iff. left. eapply exb_intro; [by apply skips_in|]. by apply bool_decide_true.
  - left. eapply exb_intro; [exact Hm|]. rewrite !bool_decide_true by (try done; apply elem_of_list_fmap; by exists f). simpl.
    apply orb_true_iff. right. eapply exb_intro; [by apply gens_in|]. by apply bool_decide_true.
  - right. eapply exb_intro; [by eapply all_links_in|]. simpl. by rewrite !bool_decide_true.
Qed.
Lemma unwatched t c : watchedb t c = false → ¬ watched S t c.
Proof. intros H Hw. apply watchedb_spec in Hw. congruence. Qed.

Definition declaredb (m : model) (ds : list dep) (rd : reads) : bool :=
  forallb (trackedb m) (rd_own rd) &&
  forallb (λ x : dep * list string, bool_decide (x.1 ∈ ds) &&
    match find_model S (dep_other x.1) with
    | None => true
    | Some o => forallb (trackedb o) x.2 &&
      match dep_rel x.1 with
      | RelForward fk => bool_decide (fk ∈ rd_own rd)
      | RelBackward fk => trackedb o fk
      | RelM2M _ _ _ => true
      | RelGenForward ctc oidc => trackedb o ctc && trackedb o oidc
      | RelGenBackward _ _ => false
      end
    end) (rd_via rd).
Lemma declaredb_spec m ds rd : declaredb m ds rd = true → declared_reads S m ds rd.
Proof.
  unfold declaredb. rewrite andb_true_iff. intros [A1 A2]. split.
  - intros c Hc. allb A1 c as B. by apply trackedb_spec.
  - intros dp cs Hin. allb A2 (dp, cs) as B. by bsplit.
  - intros dp cs o c Hin Ho Hc. allb A2 (dp, cs) as B. rewrite Ho, !andb_true_iff in B. destruct B as (_ & B & _). allb B c as C. by apply trackedb_spec.
  - intros dp cs o Hin Ho. allb A2 (dp, cs) as B. rewrite Ho, !andb_true_iff in B. destruct B as (_ & _ & B). destruct (dep_rel dp); bsplit; try done.
    + by apply trackedb_spec.
    + split; by apply trackedb_spec.
Qed.

(** The fields declared before column [c]. *)
Fixpoint before (l : list field) (c : string) : list string :=
  match l with [] => [] | g :: l' => if decide (f_col g = c) then [] else f_col g :: before l' c end.
Lemma before_spec l f c : f ∈ l → c ∈ before l (f_col f) → NoDup (f_col <$> l) →
  ∀ g, g ∈ l → f_col g = c → ∃ l1 l2 l3, l = l1 ++ g :: l2 ++ f :: l3.
Proof.
  induction l as [|x l IH]; intros Hf Hc Hnd g Hg Hgc; [by apply elem_of_nil in Hf|]. simpl in Hc.
  case_decide as Hx; [by apply elem_of_nil in Hc|]. csimpl in Hnd. apply NoDup_cons in Hnd as [Hn Hnd].
  apply elem_of_cons in Hf as [->|Hf]; [done|].
  apply elem_of_cons in Hc as [->|Hc].
  - assert (g = x) as ->.
    { apply elem_of_cons in Hg as [->|Hg]; [done|]. exfalso. apply Hn. rewrite <- Hgc. apply elem_of_list_fmap. by exists g. }
    apply elem_of_list_split in Hf as (l2 & l3 & ->). by exists [], l2, l3.
  - assert (g ∈ l) as Hg'.
    { apply elem_of_cons in Hg as [->|Hg]; [|done]. exfalso. apply Hn. rewrite Hgc. clear -Hc. induction l as [|y l IH]; [done|].
      simpl in Hc. csimpl. case_decide; [by apply elem_of_nil in Hc|]. apply elem_of_cons in Hc as [->|Hc]; [left|right; auto]. }
    destruct (IH Hf Hc Hnd g Hg' Hgc) as (l1 & l2 & l3 & ->). by exists (x :: l1), l2, l3.
Qed.
Definition reads_beforeb (m : model) (f : field) (rd : reads) : bool := forallb (λ g,
  negb (bool_decide (f_col g ∈ rd_own rd)) ||
  match f_kind g with KPlain | KAgg _ => true | _ => bool_decide (f_col g ∈ before (m_fields m) (f_col f)) end) (m_fields m).
Lemma reads_beforeb_spec m f rd : NoDup (f_col <$> m_fields m) → f ∈ m_fields m → reads_beforeb m f rd = true → reads_before m f rd.
Proof.
  intros Hnd Hf H g Hg Hc. allb H g as B. apply orb_true_iff in B as [B|B]; bsplit; [done|].
  destruct (f_kind g); try done; bsplit; by eapply before_spec.
Qed.

(** [rds m f]: what the callback of [f] reads. *)
Definition coverb (rds : model → field → reads) : bool := forallb (λ x,
  match f_kind x.2 with
  | KCallback fn ds sk => declaredb x.1 ds (rds x.1 x.2) && trackedb x.1 (f_col x.2)
  | _ => true
  end) all_fields.
Definition settleb (rank : string → nat) (rds : model → field → reads) : bool := forallb (λ x,
  match f_kind x.2 with
  | KCallback fn ds sk =>
      reads_beforeb x.1 x.2 (rds x.1 x.2) &&
      forallb (λ y, match find_model S (dep_other y.1) with
                    | Some o => negb (bool_decide (rank (m_table o) < rank (m_table x.1))%nat) || forallb (column_ofb o) y.2
                    | None => true end) (rd_via (rds x.1 x.2))
  | _ => true
  end) all_fields.
Definition reads_all (rds : model → field → reads) : Prop := ∀ m f fn ds sk,
  m ∈ s_models S → f ∈ m_fields m → f_kind f = KCallback fn ds sk → reads_only S m fn (rds m f).
Lemma coverb_spec rds : coverb rds = true → reads_all rds → ∀ m f fn ds sk,
  m ∈ s_models S → f ∈ m_fields m → f_kind f = KCallback fn ds sk → covered S m f fn ds (rds m f).
Proof.
  intros H Hr m f fn ds sk Hm Hf Hk. pose proof (all_fields_in _ _ Hm Hf) as Hin. allb H (m, f) as B. rewrite Hk in B. apply andb_true_iff in B as [B C].
  split; [by eapply Hr|by apply declaredb_spec|by apply trackedb_spec].
Qed.
Lemma coverb_all rds : coverb rds = true → reads_all rds → all_covered S.
Proof. intros H Hr m f fn ds sk Hm Hf Hk. exists (rds m f). by eapply coverb_spec. Qed.
Lemma settleb_all rank rds : wf_schema S → coverb rds = true → settleb rank rds = true → reads_all rds → all_settled S rank.
Proof.
  intros W Hc H Hr m f fn ds sk Hm Hf Hk. exists (rds m f). split; [by eapply coverb_spec|].
  pose proof (all_fields_in _ _ Hm Hf) as Hin. allb H (m, f) as B. rewrite Hk in B. apply andb_true_iff in B as [B C]. split.
  - apply reads_beforeb_spec; [apply (wf_cols _ _ (wf_models _ W _ Hm))|done|done].
  - intros dp cs o c Hd Ho Hlt Hin'. allb C (dp, cs) as D. rewrite Ho in D. apply orb_true_iff in D as [D|D]; bsplit; [done|].
    allb D c as F. by apply column_ofb_spec.
Qed.

Definition flushableb (rank : string → nat) (imm : bool) (rds : model → field → reads) : bool :=
  trackableb rank imm && self_deps_plainb && no_m2m_denormb && coverb rds && settleb rank rds.
Lemma flushableb_spec rank imm rds : flushableb rank imm rds = true → all_truthy S → reads_all rds → flushable S rank imm.
Proof.
  unfold flushableb. rewrite !andb_true_iff. intros ((((A1 & A2) & A3) & A4) & A5) Ht Hr. destruct (trackableb_spec _ _ SQLite A1) as [].
  split; eauto using self_deps_plainb_spec, no_m2m_denormb_spec, settleb_all.
Qed.
End check.

(** Refuting consistency at one cell. *)
#[global] Instance stores_dec f pv v : Decision (stores f pv v).
Proof. destruct pv; simpl; apply _. Defined.
Definition staleb (d : db) (m : model) (i : nat) (k : Z) : bool :=
  match m_fields m !! i, getrow d (m_table m) k with
  | Some f, Some r =>
      match f_kind f with
      | KCallback fn _ _ => match fn d (Some k) r with Ok pv => negb (bool_decide (stores f pv (col r (f_col f)))) | Err _ => true end
      | _ => false
      end
  | _, _ => false
  end.
Lemma staleb_spec S d m i k : m ∈ s_models S → staleb d m i k = true → ¬ consistent S d.
Proof.
  unfold staleb. intros Hm H Hc. destruct (m_fields m !! i) as [f|] eqn:Hf; [|done]. destruct (getrow d (m_table m) k) as [r|] eqn:Hr; [|done].
  specialize (Hc m k r f Hm (elem_of_list_lookup_2 _ _ _ Hf) Hr). unfold row_consistent in Hc. destruct (f_kind f); try done.
  destruct Hc as (pv & E & Hs). rewrite E in H. apply negb_true_iff, bool_decide_eq_false in H. done.
Qed.
Lemma flush_pair E S ord n d : (flush E S ord n d).2 = Done → flush E S ord n d = ((flush E S ord n d).1, Done).
Proof. intros H. rewrite <- H. apply surjective_pairing. Qed.
Lemma rebuild_pair E S ord n mn fn d : (rebuildall E S ord n mn fn d).2 = Done → rebuildall E S ord n mn fn d = ((rebuildall E S ord n mn fn d).1, Done).
Proof. intros H. rewrite <- H. apply surjective_pairing. Qed.
Lemma step_ok E S d o : match run_op E S o d with Ok _ => true | Err _ => false end = true → run_op E S o d = Ok (step E S d o).
Proof. unfold step. by destruct (run_op E S o d). Qed.
Definition saved (E : env) (S : schema) (mk : marker) (d : db) : db := match process_save E S mk d with Ok d' => d' | Err _ => d end.
Lemma saved_ok E S mk d : match process_save E S mk d with Ok _ => true | Err _ => false end = true → process_save E S mk d = Ok (saved E S mk d).
Proof. unfold saved. by destruct (process_save E S mk d). Qed.
Definition cellv (d : db) (t : string) (k : Z) (c : string) : option val := (λ r, col r c) <$> getrow d t k.
Lemma touched_upd S m d d' k c v v' : tracked S m c → cellv d (m_table m) k c = Some v → cellv d' (m_table m) k c = Some v' → v ≠ v' →
  touched S m d d' k.
Proof.
  unfold touched, cellv. intros Ht H1 H2 Hne. destruct (getrow d (m_table m) k) as [r|]; [|done]. destruct (getrow d' (m_table m) k) as [r'|]; [|done].
  exists c. split; [done|]. simpl in *. congruence.
Qed.
Lemma touched_new S m d d' k : getrow d (m_table m) k = None → is_Some (getrow d' (m_table m) k) → touched S m d d' k.
Proof. unfold touched. intros -> [? ->]. done. Qed.
Lemma touched_gone S m d d' k : is_Some (getrow d (m_table m) k) → getrow d' (m_table m) k = None → touched S m d d' k.
Proof. unfold touched. intros [? ->] ->. done. Qed.
