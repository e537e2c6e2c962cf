(** * Claims on what statements write (C144). *)
From Verif Require Import Base BaseLemmas Schema Exec Orm Flush Spec Writes SpecAgg Check ExForum ExAgg.

(** ** C144 *)
(** An INSERT adds its rows, which were not there, and leaves all others. *)
Theorem insert_writes b S rand imm depth E t rows d d' : wf_schema S → mk_env b S rand imm depth = Ok E → run_op E S (OInsert t rows) d = Ok d' →
  NoDup rows.*1 ∧ (∀ k r, (k, r) ∈ rows → getrow d t k = None ∧ ∃ r', getrow d' t k = Some r' ∧ agree S t r r') ∧
  ∀ t' k, ¬ (t' = t ∧ k ∈ rows.*1) → same_row S t' (getrow d t' k) (getrow d' t' k).
Proof.
  intros Hwf HE H. destruct (insert_did E S (tw_kept b S rand imm depth E Hwf HE) t rows d d' H) as (H1 & H2 & H3). split_and!; [done| |done].
  intros k r Hr. destruct (H2 k r Hr) as [Hn Hs]. split; [done|]. destruct (getrow d' t k) as [r'|]; [|done]. by exists r'.
Qed.
Print Assumptions insert_writes.
(** An UPDATE changes the rows it names; the columns kept up may have changed before, by the triggers of its other rows. *)
Theorem update_writes b S rand imm depth E t ks g d d' : wf_schema S → mk_env b S rand imm depth = Ok E → run_op E S (OUpdate t ks g) d = Ok d' →
  (∀ k, k ∈ ks → match getrow d t k with
    | None => getrow d' t k = None
    | Some o => ∃ o' r', agree S t o o' ∧ getrow d' t k = Some r' ∧ agree S t (g o') r'
    end) ∧
  ∀ t' k, ¬ (t' = t ∧ k ∈ ks) → same_row S t' (getrow d t' k) (getrow d' t' k).
Proof.
  intros Hwf HE H. destruct (update_did E S (tw_kept b S rand imm depth E Hwf HE) t ks g d d' H) as (H1 & H2). split; [|done].
  intros k Hk. specialize (H1 k Hk). destruct (getrow d t k) as [o|]; [|done]. destruct H1 as (o' & Ha & Hs). destruct (getrow d' t k) as [r'|]; [|done]. by exists o', r'.
Qed.
Print Assumptions update_writes.
(** A DELETE removes the rows it names. *)
Theorem delete_writes b S rand imm depth E t ks d d' : wf_schema S → mk_env b S rand imm depth = Ok E → run_op E S (ODelete t ks) d = Ok d' →
  (∀ k, k ∈ ks → getrow d' t k = None) ∧ ∀ t' k, ¬ (t' = t ∧ k ∈ ks) → same_row S t' (getrow d t' k) (getrow d' t' k).
Proof. intros Hwf HE. apply (delete_did E S (tw_kept b S rand imm depth E Hwf HE)). Qed.
Print Assumptions delete_writes.
(** So a table without aggregates and cache keys is just as the statement says. *)
Theorem plain_table_writes b S rand imm depth E t d d' : wf_schema S → mk_env b S rand imm depth = Ok E → (∀ c, ¬ kept_up S t c) →
  (∀ rows k r c, run_op E S (OInsert t rows) d = Ok d' → (k, r) ∈ rows → cellv d' t k c = Some (col r c)) ∧
  (∀ ks g k o, (∀ r r', (∀ c, col r c = col r' c) → ∀ c, col (g r) c = col (g r') c) → run_op E S (OUpdate t ks g) d = Ok d' → k ∈ ks → getrow d t k = Some o →
     ∀ c, cellv d' t k c = Some (col (g o) c)) ∧
  (∀ o t' ks k c, match o with OInsert t0 rows => t0 = t' ∧ ks = rows.*1 | OUpdate t0 ks0 _ | ODelete t0 ks0 => t0 = t' ∧ ks = ks0 | OSave _ _ _ => False end →
     run_op E S o d = Ok d' → ¬ (t = t' ∧ k ∈ ks) → cellv d' t k c = cellv d t k c).
Proof.
  intros Hwf HE Hn. unfold cellv. split; [|split].
  - intros rows k r c H Hr. destruct (insert_writes b S rand imm depth E t rows d d' Hwf HE H) as (_ & H1 & _). destruct (H1 k r Hr) as (_ & r' & -> & Ha).
    cbn. f_equal. symmetry. by apply Ha.
  - intros ks g k o Hg H Hk Ho c. destruct (update_writes b S rand imm depth E t ks g d d' Hwf HE H) as [H1 _]. specialize (H1 k Hk). rewrite Ho in H1.
    destruct H1 as (o' & r' & H1 & -> & H2). cbn. f_equal. rewrite <- (H2 c (Hn c)). apply Hg. intros c'. symmetry. by apply H1.
  - assert (Hs : ∀ x y c, same_row S t x y → (λ r : row, col r c) <$> y = (λ r : row, col r c) <$> x).
    { intros [r|] [r'|] c Hs; try done. cbn. f_equal. symmetry. by apply Hs. }
    intros o t' ks k c Ht H Hk. apply Hs. destruct o as [mn pk r|t0 rows|t0 ks0 g|t0 ks0]; [done|destruct Ht as [-> ->]..].
    + by apply (insert_writes b S rand imm depth E t' rows d d' Hwf HE H).
    + by apply (update_writes b S rand imm depth E t' ks0 g d d' Hwf HE H).
    + by apply (delete_writes b S rand imm depth E t' ks0 d d' Hwf HE H).
Qed.
Print Assumptions plain_table_writes.
(** Parents with counts, and items; two items are deleted, which changes the counts. *)
Example writes_ex b : b ≠ SQLite → mk_env b GS rand0 true 10 = Ok (GE b) ∧ wf_schema GS ∧ kept_up GS "parent" "n_open" ∧ ¬ kept_up GS "item" "score".
Proof.
  intros Hb. split; [by apply GE_ok|]. split; [apply GS_wf|]. split.
  - exists GParent, g_open. split_and!; try done; [left|right; left].
  - intros (m & f & Hm & Hf & Ht & Hn & Hk). apply elem_of_cons in Hm as [->|Hm]; [done|]. apply elem_of_list_singleton in Hm as ->. unfold GItem in Hf. cbn in Hf.
    repeat (apply elem_of_cons in Hf as [->|Hf]; [done|]). by apply elem_of_nil in Hf.
Qed.
Example writes_run_ex b : b ≠ SQLite → match run_op (GE b) GS (ODelete "item" [1; 3; 9]) (gd b) with
  | Ok d' => cellv (gd b) "item" 3 "score" = Some (VInt 6) ∧ cellv d' "item" 3 "score" = None ∧ cellv d' "item" 2 "score" = Some (VInt 1) ∧
      cellv d' "parent" 1 "n_open" = Some (VInt 1) ∧ cellv d' "parent" 2 "n_open" = Some (VInt 0) ∧ cellv d' "parent" 1 "title" = Some (VText "a")
  | Err _ => False
  end.
Proof. intros Hb. destruct b; [exfalso; by apply Hb|..]; vm_compute; repeat split; reflexivity. Qed.
