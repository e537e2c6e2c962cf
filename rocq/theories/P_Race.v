(** * Property theorems: concurrent sessions. *)
From stdpp Require Import relations.
From Verif Require Import Base BaseLemmas Schema TrigSet Gen Exec Orm Flush Machine Spec GenLemmas Invariant Settle Sessions Frame Hist Races Apart Check ExForum ExRich ExBad.

(** A table with a computed copy, and a second one reading the copy through its key. *)
Definition cb_far : callback := λ d _ r,
  Ok (PVal (match col r "a_id" with VInt j => match getrow d "a" j with Some x => col x "y" | None => VNull end | _ => VNull end)).
Definition ra_a : model := mkmodel "A" "a" 20 [plain "x" "A"; plain "n" "A"; cbf "y" "A" (cb_copy "x") [] []] [].
Definition ra_b : model := mkmodel "B" "b" 21 [fkf "a" "A" "B"; cbf "z" "B" cb_far [Dep "A" (RelForward "a_id") []] []] [].
Definition RA : schema := Schema [ra_a; ra_b] false.
Lemma cb_far_reads : reads_only RA ra_b cb_far (Reads ["a_id"] [(Dep "A" (RelForward "a_id") [], ["y"])]).
Proof.
  intros d d' k r r' Ho Hv. specialize (Ho "a_id"). specialize (Hv _ _ (elem_of_list_here _ _)). unfold cb_far. unfold dep_view in Hv. simpl in Hv.
  rewrite <- Ho in * by by left. destruct (col r "a_id") as [|j|]; [done| |done]. injection Hv as Hv.
  destruct (getrow d "a" j), (getrow d' "a" j); simpl in Hv; try done. by injection Hv as ->.
Qed.
Lemma RA_ok b : mk_env b RA rand0 true 10 = Ok (env_of b RA true).
Proof. destruct b; vm_compute; reflexivity. Qed.
Definition ra_rds (m : model) (f : field) : reads :=
  if decide (m_name m = "A") then Reads ["x"] [] else Reads ["a_id"] [(Dep "A" (RelForward "a_id") [], ["y"])].
Lemma RA_flushable : flushable RA (λ _, 0%nat) true.
Proof.
  apply (flushableb_spec _ _ _ ra_rds); [by vm_compute| |].
  - intros m r Hm. repeat (apply elem_of_cons in Hm as [->|Hm]; [done|]). by apply elem_of_nil in Hm.
  - intros m f fn ds sk Hm Hf Hk.
    repeat (apply elem_of_cons in Hm as [->|Hm]); [..|by apply elem_of_nil in Hm];
    (repeat (apply elem_of_cons in Hf as [->|Hf]); [..|by apply elem_of_nil in Hf]); try discriminate Hk;
      injection Hk as <- <- <-; [apply cb_copy_reads|exact cb_far_reads].
Qed.
Lemma RA_nsd : no_self_dep RA.
Proof. apply no_self_depb_spec. vm_compute. reflexivity. Qed.
Definition ra_ops : list op := [OInsert "a" [(1, rowof [("x", VInt 1)])]; OInsert "b" [(1, rowof [("a_id", VInt 1)])]].
Definition ra_d (b : backend) : db := foldl (step (env_of b RA true) RA) d0 ra_ops.
Definition mkA : marker := (20, Some "1").
Definition mkB : marker := (21, Some "1").
Definition set_col (k : Z) (c : string) (v : val) : op := OUpdate "a" [k] (λ r, <[c := v]> r).

Lemma stale_unmarked S d : d_dirty d = [] → ¬ consistent S d → ¬ consistent_or_marked S d.
Proof.
  intros Hd Hc Hm. apply Hc. intros m k r f HM Hf Hr. destruct (Hm m k r HM Hr) as [Hin|Hall]; [|by apply Hall].
  rewrite Hd in Hin. by apply elem_of_nil in Hin.
Qed.
Definition all_ended (n : nat) (ps : list fphase) : bool :=
  Nat.eqb (length ps) n && forallb (λ ph, match ph with PEnd => true | _ => false end) ps.
Lemma all_ended_spec n ps : all_ended n ps = true → ps = replicate n PEnd.
Proof.
  unfold all_ended. intros [<-%Nat.eqb_eq H]%andb_true_iff. induction ps as [|ph ps IH]; [done|]. simpl in *.
  apply andb_true_iff in H as [H1 H2]. destruct ph; try done. f_equal. by apply IH.
Qed.

(** ** C25 (refuted as stated) *)
(** The marker set by a writer between the save of a row and the deletion of its
    markers is deleted along with them. *)
Definition c25_l : list sact :=
  [SStart 0; SFetch 0 mkA; SSave 0; SOp (set_col 1 "x" (VInt 2)); SDel 0; SFetch 0 mkB; SSave 0; SDel 0; SPass 0; SDone 0].
Theorem writer_during_flush_refuted : ∀ b, ∃ S rank d d' l,
  mk_env b S rand0 true 10 = Ok (env_of b S true) ∧ flushable S rank true ∧ no_self_dep S ∧
  (∃ ops, d = foldl (step (env_of b S true) S) d0 ops) ∧
  srun (env_of b S true) S l (d, [PTop]) (d', [PEnd]) ∧ ¬ consistent_or_marked S d'.
Proof.
  intros b. exists RA, (λ _, 0%nat), (ra_d b).
  destruct (sexec_ex (env_of b RA true) RA c25_l (ra_d b, [PTop])
    (λ d ps, all_ended 1 ps && bool_decide (d_dirty d = []) && staleb d ra_a 2 1)) as (d' & ps & Hr & HP); [destruct b; vm_compute; reflexivity|].
  apply andb_true_iff in HP as [[He%all_ended_spec Hd%bool_decide_eq_true]%andb_true_iff Hs]. subst ps.
  exists d', c25_l. split; [apply RA_ok|]. split; [exact RA_flushable|]. split; [exact RA_nsd|]. split; [by exists ra_ops|]. split; [exact Hr|].
  apply stale_unmarked; [done|]. eapply staleb_spec; [by left|exact Hs].
Qed.
Print Assumptions writer_during_flush_refuted.

(** ** C26 (refuted as stated) *)
(** One run has saved the second row, the other one refreshes the first row, which marks
    the second again; the first run deletes this marker. *)
Definition c26_run : list sact :=
  [SStart 0; SStart 1; SFetch 0 mkB; SSave 0; SFetch 1 mkA; SSave 1; SDel 0; SDel 1; SPass 0; SPass 1; SDone 0; SDone 1].
Theorem two_flushes_refuted : ∀ b, ∃ S rank d d' l,
  mk_env b S rand0 true 10 = Ok (env_of b S true) ∧ flushable S rank true ∧ no_self_dep S ∧
  (∃ ops, d = foldl (step (env_of b S true) S) d0 ops) ∧
  srun (env_of b S true) S l (d, [PTop; PTop]) (d', [PEnd; PEnd]) ∧ existsb is_op l = false ∧
  ¬ consistent_or_marked S d'.
Proof.
  intros b. exists RA, (λ _, 0%nat), (ra_d b).
  destruct (sexec_ex (env_of b RA true) RA c26_run (ra_d b, [PTop; PTop])
    (λ d ps, all_ended 2 ps && bool_decide (d_dirty d = []) && staleb d ra_b 1 1)) as (d' & ps & Hr & HP); [destruct b; vm_compute; reflexivity|].
  apply andb_true_iff in HP as [[He%all_ended_spec Hd%bool_decide_eq_true]%andb_true_iff Hs]. subst ps.
  exists d', c26_run. split; [apply RA_ok|]. split; [exact RA_flushable|]. split; [exact RA_nsd|]. split; [by exists ra_ops|]. split; [exact Hr|].
  split; [done|]. apply stale_unmarked; [done|]. eapply staleb_spec; [by right; left|exact Hs].
Qed.
Print Assumptions two_flushes_refuted.
(** Loop bodies that do not overlap with each other or with a writer are safe. *)
Theorem atomic_bodies_safe b S rand imm depth E rank d d' ps ps' :
  mk_env b S rand imm depth = Ok E → flushable S rank imm → no_self_dep S →
  links_ok S d → consistent_or_marked S d → Forall (λ ph, ph = PTop) ps →
  rtc (atomic_step S E) (d, ps) (d', ps') → links_ok S d' ∧ consistent_or_marked S d'.
Proof.
  exact (λ HE Hfl Hns HL HC Hp Hr,
    match proj1 (atomic_inv b S rand imm depth E HE rank Hfl Hns (d, ps) (d', ps') Hr (conj HL (conj HC (no_self_dep_rel S d Hns)))
      (Forall_impl _ _ ps Hp (λ ph (Hph : ph = PTop), eq_ind_r (λ p, phase_inv S d p) (I : phase_inv S d PTop) Hph))) with conj L (conj C _) => conj L C end).
Qed.
Print Assumptions atomic_bodies_safe.
Example atomic_bodies_ex : ∃ d' ph', rtc (atomic_step RA (env_of SQLite RA true)) (ra_d SQLite, [PTop; PTop]) (d', [ph'; PTop]) ∧
  cellv d' "b" 1 "z" = Some (VInt 1) ∧ cellv (ra_d SQLite) "b" 1 "z" = Some VNull.
Proof.
  destruct (flush_steps (env_of SQLite RA true) RA id_ord 5 (ra_d SQLite) _ _ (surjective_pairing _)) as (ph & Hr & _).
  eexists _, ph. split; [by apply lone_atomic|]. split; vm_compute; reflexivity.
Qed.

(** ** C25 and C26, positive part *)
(** Statements may fall anywhere, also into the loop bodies of other runs, as long as no
    statement changes a row that a run has loaded and not yet saved, and none marks a row
    that a run has saved and whose markers it has not yet deleted.  The two refutations
    break the second condition. *)
Theorem apart_runs_safe b S rand imm depth E rank d d' ps ps' :
  mk_env b S rand imm depth = Ok E → flushable S rank imm → no_self_dep S →
  links_ok S d → consistent_or_marked S d → Forall (λ ph, ph = PTop) ps →
  rtc (apart_step E S) (d, ps) (d', ps') →
  links_ok S d' ∧ consistent_or_marked S d' ∧
  ∀ ord n d'', flush E S ord n d' = (d'', Done) → consistent S d'' ∧ d_dirty d'' = [].
Proof. exact (λ HE Hfl Hns HL HC Hp Hr, apart_flush b S rand imm depth E rank HE Hfl Hns d d' ps ps' HL HC Hp Hr). Qed.
Print Assumptions apart_runs_safe.
(** Two runs and a writer, all in the middle of loop bodies. *)
Definition mkA2 : marker := (20, Some "2").
Definition apart_l : list sact :=
  [SStart 0; SStart 1; SFetch 0 mkA; SOp (OInsert "a" [(2, rowof [("x", VInt 3)])]); SFetch 1 mkA2; SSave 0;
   SOp (OInsert "b" [(2, rowof [("a_id", VInt 2)])]); SSave 1; SDel 0; SDel 1].
Example apart_runs_ex b : ∃ d' ps', rtc (apart_step (env_of b RA true) RA) (ra_d b, [PTop; PTop]) (d', ps') ∧
  cellv d' "a" 1 "y" = Some (VInt 1) ∧ cellv d' "a" 2 "y" = Some (VInt 3) ∧ mkB ∈ d_dirty d'.
Proof.
  destruct (aexec_ex (env_of b RA true) RA apart_l (ra_d b, [PTop; PTop])
    (λ d ps, bool_decide (cellv d "a" 1 "y" = Some (VInt 1)) && bool_decide (cellv d "a" 2 "y" = Some (VInt 3)) && bool_decide (mkB ∈ d_dirty d)))
    as (d' & ps & Hr & HP); [destruct b; vm_compute; reflexivity|].
  apply andb_true_iff in HP as [[H1%bool_decide_eq_true H2%bool_decide_eq_true]%andb_true_iff H3%bool_decide_eq_true]. by exists d', ps.
Qed.

(** ** C27 (refuted as stated) *)
(** The run has read the row; its save writes all columns, including the old value of a
    column the user has changed in the meantime. *)
Definition c27_l1 : list sact := [SStart 0; SFetch 0 mkA].
Definition c27_l2 : list sact := [SSave 0; SDel 0; SFetch 0 mkB; SSave 0; SDel 0; SPass 0; SDone 0].
Theorem concurrent_update_kept_refuted : ∀ b, ∃ S rank m c k v d d' l1 l2,
  mk_env b S rand0 true 10 = Ok (env_of b S true) ∧ flushable S rank true ∧ m ∈ s_models S ∧ plain_col m c ∧
  srun (env_of b S true) S (l1 ++ SOp (OUpdate (m_table m) [k] (λ r, <[c := v]> r)) :: l2) (d, [PTop]) (d', [PEnd]) ∧
  existsb is_op l1 = false ∧ existsb is_op l2 = false ∧ is_Some (getrow d' (m_table m) k) ∧ cellv d' (m_table m) k c ≠ Some v.
Proof.
  intros b. exists RA, (λ _, 0%nat), ra_a, "n", 1, (VInt 5), (ra_d b).
  destruct (sexec_ex (env_of b RA true) RA (c27_l1 ++ SOp (set_col 1 "n" (VInt 5)) :: c27_l2) (ra_d b, [PTop])
    (λ d ps, all_ended 1 ps && bool_decide (cellv d "a" 1 "n" = Some VNull))) as (d' & ps & Hr & HP); [destruct b; vm_compute; reflexivity|].
  apply andb_true_iff in HP as [He%all_ended_spec Hd%bool_decide_eq_true]. subst ps.
  exists d', c27_l1, c27_l2. split; [apply RA_ok|]. split; [exact RA_flushable|]. split; [by left|].
  split; [exists (plain "n" "A"); split_and!; [set_solver|done|done]|]. split; [exact Hr|]. split; [done|]. split; [done|].
  change (m_table ra_a) with "a". rewrite Hd. split; [|done]. unfold cellv in Hd. by destruct (getrow d' "a" 1).
Qed.
Print Assumptions concurrent_update_kept_refuted.
(** What a user wrote is kept by any number of overlapping runs, provided that the
    instances that some run has loaded and not yet saved already contain it. *)
Theorem flushes_keep_user_data b S rand imm depth E d ps d' ps' :
  mk_env b S rand imm depth = Ok E → wf_schema S →
  (∀ mk m k r, PFetched mk (Some (m, k, r)) ∈ ps →
     m ∈ s_models S ∧ ∃ r0, getrow d (m_table m) k = Some r0 ∧ ∀ c, plain_col m c → col r c = col r0 c) →
  rtc (flush_only S E) (d, ps) (d', ps') → user_data_kept S d d'.
Proof. exact (λ HE Hwf Hp Hr, flush_only_kept_all b S rand imm depth E HE Hwf d ps d' ps' Hp Hr). Qed.
Print Assumptions flushes_keep_user_data.
Example flushes_keep_user_data_ex b : ∃ d' ps', rtc (flush_only RA (env_of b RA true)) (ra_d b, [PTop; PTop]) (d', ps') ∧
  cellv d' "a" 1 "y" = Some (VInt 1) ∧ cellv (ra_d b) "a" 1 "y" = Some VNull ∧ cellv d' "a" 1 "x" = Some (VInt 1).
Proof.
  destruct (sexec_ex (env_of b RA true) RA c26_run (ra_d b, [PTop; PTop])
    (λ d ps, bool_decide (cellv d "a" 1 "y" = Some (VInt 1)) && bool_decide (cellv d "a" 1 "x" = Some (VInt 1)))) as (d' & ps & Hr & HP); [destruct b; vm_compute; reflexivity|].
  apply andb_true_iff in HP as [H1%bool_decide_eq_true H2%bool_decide_eq_true]. exists d', ps. split; [by apply srun_only in Hr|].
  split; [done|]. split; [destruct b; vm_compute; reflexivity|done].
Qed.

(** ** C80 (refuted as stated) *)
(** The run has read the row; saving it finds no row to update and inserts it. *)
Definition c80_d (b : backend) : db := step (env_of b RA true) RA (ra_d b) (OInsert "a" [(2, rowof [("x", VInt 3)])]).
Definition c80_l1 : list sact := [SStart 0; SFetch 0 mkA2].
Definition c80_l2 : list sact := [SSave 0; SDel 0; SFetch 0 mkA; SSave 0; SDel 0; SFetch 0 mkB; SSave 0; SDel 0; SPass 0; SDone 0].
Theorem deleted_during_flush_refuted : ∀ b, ∃ S rank m k d d' l1 l2,
  mk_env b S rand0 true 10 = Ok (env_of b S true) ∧ flushable S rank true ∧ m ∈ s_models S ∧
  is_Some (getrow d (m_table m) k) ∧
  srun (env_of b S true) S (l1 ++ SOp (ODelete (m_table m) [k]) :: l2) (d, [PTop]) (d', [PEnd]) ∧
  existsb is_op l1 = false ∧ existsb is_op l2 = false ∧ is_Some (getrow d' (m_table m) k).
Proof.
  intros b. exists RA, (λ _, 0%nat), ra_a, 2, (c80_d b).
  destruct (sexec_ex (env_of b RA true) RA (c80_l1 ++ SOp (ODelete "a" [2]) :: c80_l2) (c80_d b, [PTop])
    (λ d ps, all_ended 1 ps && bool_decide (is_Some (getrow d "a" 2)))) as (d' & ps & Hr & HP); [destruct b; vm_compute; reflexivity|].
  apply andb_true_iff in HP as [He%all_ended_spec Hd%bool_decide_eq_true]. subst ps.
  exists d', c80_l1, c80_l2. split; [apply RA_ok|]. split; [exact RA_flushable|]. split; [by left|].
  split; [apply (bool_decide_eq_true (is_Some (getrow (c80_d b) "a" 2))); destruct b; vm_compute; reflexivity|].
  split; [exact Hr|]. split; [done|]. split; [done|]. exact Hd.
Qed.
Print Assumptions deleted_during_flush_refuted.
(** Rows that no run has loaded stay deleted, and no other row comes into being. *)
Theorem deleted_stays_deleted b S rand imm depth E d ps d' ps' m k :
  mk_env b S rand imm depth = Ok E → wf_schema S →
  (∀ mk m k r, PFetched mk (Some (m, k, r)) ∈ ps →
     m ∈ s_models S ∧ ∃ r0, getrow d (m_table m) k = Some r0 ∧ ∀ c, plain_col m c → col r c = col r0 c) →
  m ∈ s_models S → getrow d (m_table m) k = None →
  rtc (flush_only S E) (d, ps) (d', ps') → getrow d' (m_table m) k = None.
Proof. exact (λ HE Hwf Hp Hm Hn Hr, flush_only_gone b S rand imm depth E HE Hwf d ps d' ps' m k Hp Hm Hn Hr). Qed.
Print Assumptions deleted_stays_deleted.
(** The row is deleted before the run reads it; its marker is still there. *)
Example deleted_stays_deleted_ex b : ∃ d d' ps', step (env_of b RA true) RA (c80_d b) (ODelete "a" [2]) = d ∧ is_Some (getrow (c80_d b) "a" 2) ∧ getrow d "a" 2 = None ∧
  rtc (flush_only RA (env_of b RA true)) (d, [PTop; PTop]) (d', ps') ∧ length (d_dirty d') ≠ length (d_dirty d) ∧ getrow d' "a" 2 = None.
Proof.
  destruct (sexec_ex (env_of b RA true) RA [SStart 0; SFetch 0 mkA2; SSave 0; SDel 0] (step (env_of b RA true) RA (c80_d b) (ODelete "a" [2]), [PTop; PTop])
    (λ d ps, bool_decide (getrow d "a" 2 = None) && negb (Nat.eqb (length (d_dirty d)) (length (d_dirty (step (env_of b RA true) RA (c80_d b) (ODelete "a" [2])))))))
    as (d' & ps & Hr & HP); [destruct b; vm_compute; reflexivity|].
  apply andb_true_iff in HP as [H1%bool_decide_eq_true H2%negb_true_iff]. apply Nat.eqb_neq in H2.
  eexists _, d', ps. split; [reflexivity|].
  split; [apply (bool_decide_eq_true (is_Some (getrow (c80_d b) "a" 2))); destruct b; vm_compute; reflexivity|].
  split; [apply (bool_decide_eq_true (getrow (step (env_of b RA true) RA (c80_d b) (ODelete "a" [2])) "a" 2 = None)); destruct b; vm_compute; reflexivity|].
  split; [by apply srun_only in Hr|]. done.
Qed.
