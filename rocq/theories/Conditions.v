(** * Specification-level conditions imply the generated triggers' conditions. *)
From Verif Require Import Base BaseLemmas Schema TrigSet Gen Exec Orm Spec Engine GenLemmas Marking.

(** ** Strings *)
Lemma str_app_assoc (a b c : string) : (a +:+ b) +:+ c = a +:+ (b +:+ c).
Proof. induction a as [|x a IH]; [done|]. exact (f_equal (String x) IH). Qed.
Lemma str_app_cons x (a b : string) : String x a +:+ b = String x (a +:+ b).
Proof. done. Qed.
Lemma str_app_nil (b : string) : "" +:+ b = b.
Proof. done. Qed.
Lemma str_app_inj_l (a b c : string) : a +:+ b = a +:+ c → b = c.
Proof. induction a as [|x a IH]; [done|]. rewrite !str_app_cons. intros [= H]. auto. Qed.
Fixpoint str_in (c : Ascii.ascii) (s : string) : Prop :=
  match s with EmptyString => False | String x s' => x = c ∨ str_in c s' end.
Lemma str_in_app c a b : str_in c (a +:+ b) ↔ str_in c a ∨ str_in c b.
Proof.
  induction a as [|x a IH]; [rewrite str_app_nil; simpl; naive_solver|].
  rewrite str_app_cons; simpl. rewrite IH. naive_solver.
Qed.

Lemma split_last c (a b a' b' : string) : ¬ str_in c b → ¬ str_in c b' →
  a +:+ String c b = a' +:+ String c b' → a = a' ∧ b = b'.
Proof.
  intros Hb Hb'. revert a'. induction a as [|x a IH]; intros [|x' a'];
    rewrite ?str_app_cons, ?str_app_nil.
  - by intros [= ->].
  - intros [= -> ->]. exfalso. apply Hb. rewrite str_in_app. right. by left.
  - intros [= -> <-]. exfalso. apply Hb'. rewrite str_in_app. right. by left.
  - intros [= -> H2]. apply IH in H2 as [-> ->]. done.
Qed.

Definition us : Ascii.ascii := Ascii.Ascii true true true true true false true false.
Lemma pretty_N_char_us n : pretty_N_char n ≠ us.
Proof. unfold pretty_N_char, us. repeat case_match; by intros [=]. Qed.
Lemma pretty_N_go_us n s : ¬ str_in us s → ¬ str_in us (pretty_N_go n s).
Proof.
  revert s. induction (N.lt_wf_0 n) as [n _ IH]; intros s Hs.
  destruct (decide (0 < n)%N) as [Hn|Hn].
  - rewrite pretty_N_go_step by done. apply IH.
    + apply N.div_lt; [done|]. by vm_compute.
    + intros [Hc|Hc]; [by eapply pretty_N_char_us|done].
  - assert (n = 0%N) as -> by lia. by rewrite pretty_N_go_0.
Qed.
Lemma pretty_N_us (n : N) : ¬ str_in us (pretty n).
Proof.
  unfold pretty, pretty_N. case_decide as Hz; [|apply pretty_N_go_us; by intros []].
  simpl. intros [H|[]]. by vm_compute in H.
Qed.
Lemma pretty_Z_us (z : Z) : ¬ str_in us (pretty z).
Proof.
  unfold pretty, pretty_Z. destruct z; simpl.
  - intros [H|[]]. by vm_compute in H.
  - apply (pretty_N_us (N.pos p)).
  - intros [H|H]; [by vm_compute in H|]. by apply (pretty_N_us (N.pos p)) in H.
Qed.

Lemma base_name_inj e e' t t' :
  "denorm_after_row_" +:+ ev_str e +:+ "_on_" +:+ t = "denorm_after_row_" +:+ ev_str e' +:+ "_on_" +:+ t' → e = e' ∧ t = t'.
Proof. destruct e, e'; simpl; intros [= H]; done. Qed.

Definition full_tab (b : backend) (tr : trigger) : string :=
  match b, t_ctf tr with
  | MySQL, _ | _, None => t_tab tr
  | _, Some _ => t_tab tr +:+ "_" +:+ pretty (t_ct tr)
  end.
Lemma trig_name_full b tr : trig_name b tr = "denorm_after_row_" +:+ ev_str (t_ev tr) +:+ "_on_" +:+ full_tab b tr.
Proof.
  unfold trig_name, full_tab, base_name. destruct b, (t_ctf tr); try done; by rewrite !str_app_assoc.
Qed.

Section cond.
Context (b : backend) (S : schema) (rand : nat → Z) (imm : bool) (depth : nat) (E : env) (l : list trigger).
Context (Hwf : wf_schema S) (HE : mk_env b S rand imm depth = Ok E) (Hl : gen_all S = Ok l).

Ltac cases_in H :=
  repeat (apply elem_of_cons in H as [->|H]); try (by apply elem_of_nil in H); simpl in *.

Lemma trigger_where tr : tr ∈ l → trigger_table S (t_tab tr) ∧
  ∀ cf, t_ctf tr = Some cf → gen_on S (t_tab tr) cf (t_ct tr).
Proof.
  intros Hin. eapply origin_spec in Hin; [|exact Hwf|exact Hl].
  destruct Hin as [m f fn ds sk Hm Hf Hk Hb Htr|m f fn ds sk dp o Hm Hf Hk Hdp Hfo Htr|m f ds dp o Hm Hf Hk Hdp Hfo Htr|m f a rel Hm Hf Hk Hfo Htr].
  - unfold cb_self_triggers in Htr. cases_in Htr; (split; [by apply tt_model|by intros cf [=]]).
  - destruct (find_model_in _ _ _ Hfo) as [Ho _].
    assert (Hdp' : dp ∈ field_deps f) by (by unfold field_deps; rewrite Hk).
    unfold cb_dep_triggers in Htr. destruct (dep_rel dp) eqn:Hr; cases_in Htr;
      (split; [first [by apply tt_model|exact (tt_link S m f dp _ _ _ Hm Hf Hdp' Hr)]|intros cf Hcf; simplify_eq]); first [exact (go_fwd S m f dp o _ _ Hm Hf Hdp' Hfo Hr)|exact (go_bwd S m f dp o _ _ Hm Hf Hdp' Hfo Hr)].
  - destruct (find_model_in _ _ _ Hfo) as [Ho _].
    assert (Hdp' : dp ∈ field_deps f) by (by unfold field_deps; rewrite Hk).
    unfold ck_dep_triggers in Htr. destruct (dep_rel dp) eqn:Hr; cases_in Htr;
      (split; [first [by apply tt_model|exact (tt_link S m f dp _ _ _ Hm Hf Hdp' Hr)]|intros cf Hcf; simplify_eq]); first [exact (go_fwd S m f dp o _ _ Hm Hf Hdp' Hfo Hr)|exact (go_bwd S m f dp o _ _ Hm Hf Hdp' Hfo Hr)].
  - destruct (find_model_in _ _ _ Hfo) as [Ho _].
    unfold agg_triggers in Htr. cases_in Htr; (split; [by apply tt_model|by intros cf [=]]).
Qed.

Lemma names_apart_ok : names_apart S → names_ok b l.
Proof.
  intros [Hna Hct] t1 t2 H1 H2 Hn. rewrite !trig_name_full in Hn. apply base_name_inj in Hn as [He Ht].
  destruct (trigger_where _ H1) as [T1 G1]. destruct (trigger_where _ H2) as [T2 G2].
  destruct (decide (b = MySQL)) as [->|Hb].
  { unfold full_tab in Ht. split_and!; done. }
  assert (Hgo : (match t_ctf t1 with None => t_tab t1 | Some _ => t_tab t1 +:+ "_" +:+ pretty (t_ct t1) end) =
                (match t_ctf t2 with None => t_tab t2 | Some _ => t_tab t2 +:+ "_" +:+ pretty (t_ct t2) end)).
  { unfold full_tab in Ht. destruct b; [done|done|done]. }
  clear Ht. destruct (t_ctf t1) as [c1|] eqn:C1, (t_ctf t2) as [c2|] eqn:C2.
  - apply (split_last us) in Hgo as [Htab Hp]; [|apply pretty_Z_us..]. apply pretty_Z_inj' in Hp.
    split_and!; [done|done|]. intros _. split; [|done]. f_equal.
    eapply Hct; [by eapply G1|]. rewrite Htab, Hp. by apply G2.
  - exfalso. by eapply Hna; [apply G1|exact T2|].
  - exfalso. by eapply Hna; [apply G2|exact T1|].
  - split_and!; [done|done|]. done.
Qed.

(** Immediate updates come from a declared aggregate or cache key. *)
Lemma aupd_source it t c x w : names_ok b l → it ∈ e_trigs E → AUpd t c x w ∈ i_acts it →
  ∃ m, m ∈ s_models S ∧ m_table m = t ∧ upd_source S m (i_tab it).
Proof.
  intros Hnames Hit Ha.
  destruct (io_sound _ _ _ (E_inst _ _ _ _ _ _ _ HE Hl) _ Hit) as (tr1 & Htr1 & _ & Htab & Hev & _ & _ & Hacts).
  destruct (Hacts _ Ha) as (tr2 & Htr2 & Hn & Hin).
  assert (Hsrc : ∃ m, m ∈ s_models S ∧ m_table m = t ∧ upd_source S m (t_tab tr2)).
  { eapply origin_spec in Htr2; [|exact Hwf|exact Hl].
    destruct Htr2 as [m f fn ds sk Hm Hf Hk Hb Htr|m f fn ds sk dp o Hm Hf Hk Hdp Hfo Htr|m f ds dp o Hm Hf Hk Hdp Hfo Htr|m f a rel Hm Hf Hk Hfo Htr].
    - exfalso. unfold cb_self_triggers in Htr. cases_in Htr; set_solver.
    - exfalso. unfold cb_dep_triggers in Htr. destruct (dep_rel dp); cases_in Htr; set_solver.
    - exists m. unfold ck_dep_triggers in Htr.
      destruct (dep_rel dp) eqn:Hr; cases_in Htr; (split_and!; [done|set_solver|]);
        first [exact (us_dep S m f ds dp o Hf Hk Hdp Hfo)|exact (us_link S m f ds dp o _ _ _ Hf Hk Hdp Hfo Hr)|exact (us_gen S m f ds dp o _ _ Hf Hk Hdp Hfo Hr)].
    - exists m. unfold agg_triggers in Htr. cases_in Htr; (split_and!; [done|set_solver|]); by eapply us_agg. }
  destruct Hsrc as (m & Hm & <- & Hs). exists m. rewrite Htab.
  destruct (Hnames _ _ Htr2 Htr1 Hn) as (<- & _). done.
Qed.
Lemma upd_acyclic_ok rank : names_ok b l → upd_acyclic S rank → acyclic E rank.
Proof.
  intros Hnames Hac it t c x w Hit Ha.
  destruct (aupd_source _ _ _ _ _ Hnames Hit Ha) as (m & Hm & <- & Hs). by apply Hac.
Qed.
End cond.
