(** * Boolean checks of the conditions on saving, for concrete schemas and databases. *)
From Verif Require Import Base BaseLemmas Schema TrigSet Gen Exec Spec SpecAgg SpecOrder SpecSave GenLemmas Orm Flush Check ExAgg CheckOrder.

Section check.
Context (S : schema).
Definition savableb (rank : string → nat) (imm : bool) (rds : model → field → reads) : bool :=
  wf_schemab S && wf_linksb S && names_apartb S && (no_m2m_depb S || (imm && m2m_declaredb S)) && upd_acyclicb S rank &&
  self_deps_plainb S && no_m2m_denormb S && coverb S rds && settleb S rank rds.
Lemma savableb_spec rank imm rds : savableb rank imm rds = true → all_truthy S → reads_all S rds → savable S rank imm.
Proof.
  unfold savableb. rewrite !andb_true_iff. intros ((((((((A1 & A2) & A3) & A4) & A5) & A6) & A7) & A8) & A9) Ht Hr.
  pose proof (wf_schemab_spec S A1) as W.
  split; eauto using wf_linksb_spec, names_apartb_spec, upd_acyclicb_spec, self_deps_plainb_spec, no_m2m_denormb_spec, settleb_all.
  apply orb_true_iff in A4 as [A4|A4]; [left; by apply no_m2m_depb_spec|right]. bsplit. split; [done|by apply m2m_declaredb_spec].
Qed.
Definition own_storedb (rds : model → field → reads) : bool := forallb (λ x,
  match f_kind x.2 with KCallback _ _ _ => forallb (column_ofb x.1) (rd_own (rds x.1 x.2)) | _ => true end) (all_fields S).
Lemma own_storedb_spec rank imm rds : savableb rank imm rds && own_storedb rds = true → reads_all S rds → own_stored S rank.
Proof.
  unfold savableb. rewrite !andb_true_iff. intros (((((((((A1 & _) & _) & _) & _) & _) & _) & A8) & A9) & A10) Hr m f fn ds sk Hm Hf Hk.
  pose proof (wf_schemab_spec S A1) as W. exists (rds m f). split; [by eapply coverb_spec|]. pose proof (all_fields_in S _ _ Hm Hf) as Hin. split.
  - unfold settleb in A9. allb A9 (m, f) as B. rewrite Hk in B. apply andb_true_iff in B as [B C]. split.
    + apply reads_beforeb_spec; [apply (wf_cols _ _ (wf_models _ W _ Hm))|done|done].
    + intros dp cs o c Hd Ho Hlt Hin'. allb C (dp, cs) as D. rewrite Ho in D. apply orb_true_iff in D as [D|D]; bsplit; [done|].
      allb D c as F. by apply column_ofb_spec.
  - intros c Hc. unfold own_storedb in A10. allb A10 (m, f) as B. rewrite Hk in B. allb B c as C. by apply column_ofb_spec.
Qed.

Definition clock_colb (m : model) (c : string) : bool := existsb (λ g,
  bool_decide (f_col g = c) && match f_kind g with KAutoNow | KCacheKey _ => true | _ => false end) (m_fields m).
Lemma clock_colb_complete m c : clock_col m c → clock_colb m c = true.
Proof.
  intros (g & Hg & <- & Hk). eapply exb_intro; [exact Hg|]. rewrite bool_decide_true by done. by destruct (f_kind g).
Qed.
Definition noclk (m : model) (cs : list string) : bool := forallb (λ c, negb (clock_colb m c)) cs.
Lemma noclk_spec m cs c : noclk m cs = true → c ∈ cs → ¬ clock_col m c.
Proof. intros H Hc Hk. pose proof (allb_spec _ _ H c Hc) as B. cbn beta in B. by rewrite (clock_colb_complete _ _ Hk) in B. Qed.
Definition no_clockb (rds : model → field → reads) : bool := forallb (λ x,
  match f_kind x.2 with
  | KCallback fn ds sk =>
      forallb (λ p : dep * list string, bool_decide (p.1 ∈ ds)) (rd_via (rds x.1 x.2)) &&
      noclk x.1 (own_cols (rds x.1 x.2)) &&
      forallb (λ p : dep * list string,
        match find_model S (dep_other p.1) with
        | None => true
        | Some o => noclk o (match dep_rel p.1 with
            | RelBackward fk => fk :: p.2 | RelGenForward ctc oidc => ctc :: oidc :: p.2 | _ => p.2 end)
        end) (rd_via (rds x.1 x.2))
  | _ => true
  end) (all_fields S).
Lemma no_clockb_spec rds : no_clockb rds = true → reads_all S rds → reads_no_clock S.
Proof.
  intros H Hr m f fn ds sk Hm Hf Hk. exists (rds m f). split; [by eapply Hr|]. pose proof (all_fields_in S _ _ Hm Hf) as Hin.
  unfold no_clockb in H. allb H (m, f) as B. rewrite Hk in B. apply andb_true_iff in B as [B B3]. apply andb_true_iff in B as [B1 B2]. split.
  - intros dp cs Hd. allb B1 (dp, cs) as C. by bsplit.
  - intros d k r o j c _ Hc. destruct Hc as [c Hc|dp cs o fk j c Hd Ho Hrel Hfk Hc|dp cs o fk j r' c Hd Ho Hrel Hr' Hfk Hc|
      dp cs o t lc rc l lr j c Hd Ho Hrel Hlr Hlc Hrc Hc|dp cs o ctc oidc j r' c Hd Ho Hrel Hr' Hct Hoid Hc]; [by eapply noclk_spec|..];
      pose proof (allb_spec _ _ B3 (dp, cs) Hd) as C; cbn beta iota delta [fst snd] in C; rewrite Ho, Hrel in C; by eapply noclk_spec.
Qed.

Definition consistentb (d : db) : bool := forallb (λ x,
  match f_kind x.2 with
  | KCallback fn _ _ => forallb (λ y : Z * row,
      match fn d (Some y.1) y.2 with Ok pv => bool_decide (stores x.2 pv (col y.2 (f_col x.2))) | Err _ => false end) (rows_of d (m_table x.1))
  | _ => true
  end) (all_fields S).
Lemma consistentb_spec d : consistentb d = true → consistent S d.
Proof.
  intros H m k r f Hm Hf Hr. unfold row_consistent. destruct (f_kind f) as [| |fn ds sk|a|ds] eqn:Hk; try done.
  pose proof (all_fields_in S _ _ Hm Hf) as Hin. unfold consistentb in H. allb H (m, f) as B. rewrite Hk in B. apply rows_of_in in Hr.
  pose proof (allb_spec _ _ B (k, r) Hr) as C. cbn beta iota delta [fst snd] in C. destruct (fn d (Some k) r) as [pv|]; [|done]. exists pv. split; [done|by bsplit].
Qed.
Lemma consistent_marked d : consistent S d → consistent_or_marked S d.
Proof. intros C m k r Hm Hr. right. intros f Hf. by apply C. Qed.
Definition not_self_relatedb (m : model) (d : db) (k : Z) (r : row) : bool := forallb (λ f,
  match f_kind f with
  | KCallback _ ds _ => forallb (λ dp, negb (bool_decide (dep_other dp = m_name m)) ||
      match dep_rel dp with
      | RelForward fk | RelBackward fk => negb (bool_decide (col r fk = VInt k))
      | RelGenBackward _ _ => true
      | _ => false
      end) ds
  | _ => true
  end) (m_fields m).
Lemma not_self_relatedb_spec m d k r : not_self_relatedb m d k r = true → not_self_related m d k r.
Proof.
  intros H f fn ds sk dp Hf Hk Hd [Ho Hrel]. unfold not_self_relatedb in H. allb H f as B. rewrite Hk in B.
  pose proof (allb_spec _ _ B dp Hd) as C. cbn beta in C. apply orb_true_iff in C as [C|C]; [by bsplit|]. destruct (dep_rel dp); bsplit; try done.
Qed.
Definition counts_currentb (m : model) (r stored : row) : bool := forallb (λ g,
  match f_kind g with KAgg _ => bool_decide (col r (f_col g) = col stored (f_col g)) | _ => true end) (m_fields m).
Lemma counts_currentb_spec m r stored : counts_currentb m r stored = true → counts_current m r stored.
Proof. intros H g a Hg Hk. unfold counts_currentb in H. allb H g as B. rewrite Hk in B. by bsplit. Qed.
End check.
Definition staleb3 (d : db) (k : Z) (r : row) (f : field) : bool :=
  match f_kind f with
  | KCallback fn _ _ => match fn d (Some k) r with Ok pv => negb (bool_decide (stores f pv (col r (f_col f)))) | Err _ => true end
  | _ => false
  end.
Lemma staleb3_spec m d k r f : staleb3 d k r f = true → ¬ row_consistent m d k r f.
Proof.
  unfold staleb3, row_consistent. destruct (f_kind f); try done. intros H (pv & Hp & Hs). rewrite Hp in H.
  apply negb_true_iff, bool_decide_eq_false in H. done.
Qed.
