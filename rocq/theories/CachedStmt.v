(** * @cached attributes after statements on related rows (fields.py:297-328, dependencies.py:97-235). *)
From Verif Require Import Base BaseLemmas Schema TrigSet Gen Exec Orm Flush Spec Engine GenLemmas Marking Conditions Invariant Settle Sessions Hist Check KeyDraw KeyObs KeyStmt SaveKey KeysApart Cached CachedDb Writes.

(** Spec: the columns the statement must leave alone in the row itself: the key and, for a
    dependency through a foreign key of the row, that key. *)
Definition own_key_cols (dp : dep) : list string := match dep_rel dp with RelForward fk => [fk] | _ => [] end.
(** Spec: the function looks only at columns of rows reached through dependencies of the key
    ([key_view], KeyObs.v): through [dp] it reads the columns [cs]. *)
Definition reads_related (S : schema) (m : model) (fn : db → Z → val) (via : list (dep * list string)) : Prop :=
  ∀ d d' k r r', getrow d (m_table m) k = Some r → getrow d' (m_table m) k = Some r' →
    (∀ dp cs, (dp, cs) ∈ via → key_view S m d' k r' dp cs = key_view S m d k r dp cs) → fn d' k = fn d k.
(** Spec: the dependencies are declared and the columns are those that triggers watch. *)
Definition declared_related (S : schema) (ds : list dep) (via : list (dep * list string)) : Prop :=
  ∀ dp cs, (dp, cs) ∈ via → dp ∈ ds ∧ ∃ om, find_model S (dep_other dp) = Some om ∧ (∀ c, c ∈ cs → tracked S om c) ∧
    match dep_rel dp with
    | RelBackward fk => tracked S om fk
    | RelGenForward ctc oidc => tracked S om ctc ∧ tracked S om oidc
    | RelGenBackward _ _ => False
    | _ => True
    end.
(** Spec: a statement (not a save) that leaves the row in place, its key, and its foreign keys
    that the function follows. *)
Definition leaves_row (S : schema) (m : model) (f : field) (via : list (dep * list string)) (k : Z) (o : op) : Prop :=
  leaves_keys S (HOp o) ∧ spares o (m_table m) k [f_col f] ∧ ∀ dp cs, (dp, cs) ∈ via → spares o (m_table m) k (f_col f :: own_key_cols dp).

Section stmts.
Context (b : backend) (S : schema) (rand : nat → Z) (imm : bool) (depth : nat) (E : env) (rank : string → nat).
Context (HE : mk_env b S rand imm depth = Ok E) (Htk : trackable S rank imm b) (Hinj : ∀ i j, rand i = rand j → i = j).
Context (m : model) (f : field) (ds : list dep).
Context (Hm : m ∈ s_models S) (Hf : f ∈ m_fields m) (Hk : f_kind f = KCacheKey ds).
Context (fn : string → string → db → Z → val) (via : list (dep * list string)).
Context (Hrd : reads_related S m (fn (m_table m) (f_col f)) via) (Hdecl : declared_related S ds via).
Context (k : Z).
Notation tm := (m_table m).
Notation fc := (f_col f).

Lemma key_is_cell : key_cell S tm fc. Proof. exists m, f, ds. done. Qed.
Lemma row_stays o d d' : spares o tm k [fc] → run_op E S o d = Ok d' → is_Some (getrow d tm k) → is_Some (getrow d' tm k).
Proof.
  intros Hsp H [r Hr]. pose proof (tk_wf _ _ _ _ Htk) as Hwf. pose proof (tw_kept b S rand imm depth E Hwf HE) as Htw.
  assert (Hsame : same_row S tm (getrow d tm k) (getrow d' tm k) → is_Some (getrow d' tm k)).
  { rewrite Hr. destruct (getrow d' tm k); [by eexists|done]. }
  destruct o as [mn pk r0|t rows|t ks g|t ks]; [done|..]; simpl in Hsp.
  - destruct (insert_did E S Htw t rows d d' H) as (_ & H2 & H3). apply Hsame, H3. intros [<- Hin].
    apply elem_of_list_fmap in Hin as ([k' r'] & Heq & Hin). simpl in Heq. subst k'. destruct (H2 _ _ Hin) as [Hn _]. congruence.
  - destruct (update_did E S Htw t ks g d d' H) as (H1 & H2). destruct (decide (t = tm ∧ k ∈ ks)) as [[-> Hin]|Hn].
    + specialize (H1 k Hin). rewrite Hr in H1. destruct H1 as (o' & _ & Hs). destruct (getrow d' tm k); [by eexists|done].
    + apply Hsame, H2. intros [<- ?]. by apply Hn.
  - destruct (delete_did E S Htw t ks d d' H) as (_ & H2). apply Hsame, H2. intros [<- ?]. by apply Hsp.
Qed.
Lemma stmt_follows o d d' : leaves_row S m f via k o → run_op E S o d = Ok d' → links_ok S d → keys_apart S rand d → is_Some (getrow d tm k) →
  cellv d' tm k fc = cellv d tm k fc → fn tm fc d' k = fn tm fc d k.
Proof.
  intros (_ & Hs & Hsp) H HL [no [N1 _]] [r Hr] Hkey. destruct (row_stays _ _ _ Hs H (mk_is_Some _ _ Hr)) as [r' Hr'].
  eapply Hrd; [done|done|]. intros dp cs Hin. destruct (Hdecl _ _ Hin) as (Hdp & om & Hfo & Hcs & Hrel).
  destruct (decide (key_view S m d' k r' dp cs = key_view S m d k r dp cs)) as [|Hne]; [done|]. exfalso.
  assert (Hd : redrawn rand (d_rnd d) tm fc k d').
  { apply (key_via b S rand imm depth E rank HE Htk m f ds Hm Hf Hk o d d' H HL k r Hr dp om Hdp Hfo cs Hcs Hrel (Hsp _ _ Hin)).
    intros r2 Hr2 _. rewrite Hr' in Hr2. injection Hr2 as <-. done. }
  destruct Hd as (r2 & n & Hr2 & Hn & Hc). rewrite Hr' in Hr2. injection Hr2 as <-.
  destruct (N1 _ _ _ _ key_is_cell Hr) as [Hlt Hc0]. unfold cellv in Hkey. rewrite Hr, Hr' in Hkey. simpl in Hkey.
  assert (n = no tm fc k) by (apply Hinj; congruence). lia.
Qed.
Lemma stmts_current os : ∀ d vs ca, Forall (leaves_row S m f via k) os → xrun S rand E fn (d :: vs) ca → links_ok S d → is_Some (getrow d tm k) →
  key_follows fn tm fc k (d :: vs) → let d' := foldl (hstep E S) d (HOp <$> os) in
  (cached_read fn ca d' tm fc k).1 = Some (fn tm fc d' k).
Proof.
  pose proof (tk_wf _ _ _ _ Htk) as Hwf. pose proof (tk_names _ _ _ _ Htk) as Hna.
  induction os as [|o os IH]; intros d vs ca Hos Hr HL Hg Hf'.
  - simpl. assert (Hw : is_Some (cached_read fn ca d tm fc k).1).
    { pose proof (xrun_inv S rand E fn b imm depth HE Hwf Hna Hinj _ _ Hr) as [[no [N1 _]] _]. destruct Hg as [r Hg].
      destruct (N1 _ _ _ _ key_is_cell Hg) as [_ Hc]. unfold cached_read, cellv. rewrite Hg. simpl. rewrite Hc.
      destruct (ca !! _) as [w|]; [destruct (falsy w)|]; by eexists. }
    destruct Hw as [w Hw]. rewrite Hw. f_equal.
    destruct (read_since S rand E fn b imm depth HE Hwf Hna Hinj d vs ca tm fc k w Hr key_is_cell Hw) as (z & _ & Hs). by eapply since_current.
  - apply Forall_cons in Hos as [Ho Hos]. simpl. apply (IH _ (d :: vs)); [done| | | |].
    + apply (x_step S rand E fn d vs ca (HOp o) []); [done|by destruct Ho|by apply Forall_nil].
    + simpl. unfold step. destruct (run_op E S o d) as [d1|] eqn:H; [|done]. destruct (mk_env_gen _ _ _ _ _ _ HE) as [l Hl].
      eapply (run_op_lgood b S rand imm depth E l Hwf HE Hl (tk_m2m _ _ _ _ Htk)); done.
    + simpl. unfold step. destruct (run_op E S o d) as [d1|] eqn:H; [|done]. destruct Ho as (_ & Hsp & _). by eapply row_stays.
    + split; [|done]. intros Hkey. simpl in Hkey |- *. unfold step in *. destruct (run_op E S o d) as [d1|] eqn:H; [|done].
      eapply stmt_follows; [done|done|done| |done|done].
      by destruct (xrun_inv S rand E fn b imm depth HE Hwf Hna Hinj _ _ Hr) as [Hn _].
Qed.
End stmts.
