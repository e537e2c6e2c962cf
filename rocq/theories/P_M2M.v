(** * Property theorems: denormalized ManyToManyFields. *)
From Verif Require Import Base BaseLemmas Schema TrigSet Gen Exec Orm Flush Spec GenLemmas Check ExForum ExBad ExLimits Links.

(** ** C39 *)
(** Saving a stored row: the linked keys are exactly those the function returned; the
    function saw the database before any link of this field changed, and exactly the
    initial database if no other denormalized ManyToManyField is declared before it.
    The links of all other rows stay. *)
Theorem m2m_links_exact b S rand imm depth E m l1 mm l2 fn ds k r d p :
  mk_env b S rand imm depth = Ok E → wf_schema S → m ∈ s_models S →
  m_m2m m = l1 ++ mm :: l2 → NoDup (mm_table <$> m_m2m m) → mm_denorm mm = Some (fn, ds) → mm_col mm ≠ mm_rev mm →
  k ≠ 0 → save_existing E m k r d = Ok p →
  ∃ d1 keys, user_data_kept S d d1 ∧ tab d1 (mm_table mm) = tab d (mm_table mm) ∧ ((∀ mm', mm' ∈ l1 → mm_denorm mm' = None) → d1 = d) ∧
    fn d1 (Some k) r = Ok keys ∧
    (∀ x, linked_to p.1 mm k x ↔ ∃ v, v ∈ keys ∧ x = VInt v) ∧
    (∀ i lr, col lr (mm_col mm) ≠ VInt k → getrow p.1 (mm_table mm) i = Some lr ↔ getrow d (mm_table mm) i = Some lr).
Proof. exact (λ HE Hwf Hm, save_links b S rand imm depth E Hwf HE m Hm l1 mm l2 fn ds k r d p). Qed.
Print Assumptions m2m_links_exact.
Definition mx_d (b : backend) : db := foldl (step (env_of b MM true) MM) d0 mm_ops.
Example m2m_links_ex b : wf_schema MM ∧ NoDup (mm_table <$> m_m2m mm_team) ∧ mm_col mm_members ≠ mm_rev mm_members ∧
  linked (mx_d b) mm_members 1 = [VInt 1] ∧
  match save_existing (env_of b MM true) mm_team 1 (rowof [("name", VText "t")]) (mx_d b) with Ok p => linked p.1 mm_members 1 ≡ₚ [VInt 1; VInt 2] | Err _ => False end.
Proof.
  split; [apply wf_schemab_spec; vm_compute; reflexivity|]. split; [apply (bool_decide_unpack _); vm_compute; exact I|]. split; [done|].
  split; [destruct b; vm_compute; reflexivity|]. destruct b; vm_compute; reflexivity || apply Permutation_swap.
Qed.
(** A new row is inserted and saved once more, which sets its links. *)
Theorem m2m_new_row_links b S rand imm depth E m l1 mm l2 fn ds r d d' k r' :
  mk_env b S rand imm depth = Ok E → wf_schema S → m ∈ s_models S →
  m_m2m m = l1 ++ mm :: l2 → NoDup (mm_table <$> m_m2m m) → mm_denorm mm = Some (fn, ds) → mm_col mm ≠ mm_rev mm →
  save E m None r d = Ok (d', k, r') →
  getrow d (m_table m) k = None ∧ is_Some (getrow d' (m_table m) k) ∧
  (∃ d0 d2 r2, d_tabs d0 = d_tabs d ∧ exec E (m_table m) [CIns k r2] d0 = Ok d2 ∧ save_existing E m k r2 d2 = Ok (d', r')) ∧
  ∃ d1 r1 keys, fn d1 (Some k) r1 = Ok keys ∧
    (∀ x, linked_to d' mm k x ↔ ∃ v, v ∈ keys ∧ x = VInt v) ∧
    (∀ i lr, col lr (mm_col mm) ≠ VInt k → getrow d' (mm_table mm) i = Some lr ↔ getrow d (mm_table mm) i = Some lr).
Proof. exact (λ HE Hwf Hm, new_row_links b S rand imm depth E Hwf HE m Hm l1 mm l2 fn ds r d d' k r'). Qed.
Print Assumptions m2m_new_row_links.
(** A team every person belongs to. *)
Definition fn_all : m2m_callback := λ d _ _, Ok (map_to_list (tab d "person")).*1.
Definition mn_all : m2m := M2M "all" "Person" "team_all" "team_id" "person_id" (Some (fn_all, [])).
Definition mn_team : model := mkmodel "Team" "team" 20 [plain "name" "Team"] [mn_all].
Definition MN : schema := Schema [mn_team; mm_person] false.
Definition mn_d (b : backend) : db := foldl (step (env_of b MN true) MN) d0 [OInsert "person" [(4, rowof [("active", VInt 1)])]].
Example m2m_new_row_ex b :
  match save (env_of b MN true) mn_team None (rowof [("name", VText "t")]) (mn_d b) with Ok (d', k, _) => k = 1 ∧ linked d' mn_all 1 = [VInt 4] | Err _ => False end.
Proof. destruct b; vm_compute; split; reflexivity. Qed.
(** The primary key 0 is falsy: its links are never set. *)
Theorem m2m_links_zero_key_refuted : ∀ b, ∃ S m mm fn ds r d p keys,
  mk_env b S rand0 true 10 = Ok (env_of b S true) ∧ wf_schema S ∧ m ∈ s_models S ∧ mm ∈ m_m2m m ∧ mm_denorm mm = Some (fn, ds) ∧
  getrow d (m_table m) 0 = Some r ∧ save_existing (env_of b S true) m 0 r d = Ok p ∧
  fn d (Some 0) r = Ok keys ∧ ¬ ∀ x, linked_to p.1 mm 0 x ↔ ∃ v, v ∈ keys ∧ x = VInt v.
Proof.
  intros b. exists MN, mn_team, mn_all, fn_all, [], (rowof [("name", VText "t")]).
  exists (step (env_of b MN true) MN (mn_d b) (OInsert "team" [(0, rowof [("name", VText "t")])])).
  set (d := step _ _ _ _).
  assert (Hs : match save_existing (env_of b MN true) mn_team 0 (rowof [("name", VText "t")]) d with Ok p => linked p.1 mn_all 0 = [] | Err _ => False end) by (destruct b; vm_compute; reflexivity).
  destruct (save_existing (env_of b MN true) mn_team 0 (rowof [("name", VText "t")]) d) as [p|] eqn:Hp; [|done]. exists p, [4].
  split; [destruct b; vm_compute; reflexivity|]. split; [apply wf_schemab_spec; vm_compute; reflexivity|]. split; [by left|]. split; [by left|]. split; [done|].
  split; [destruct b; vm_compute; reflexivity|]. split; [done|]. split; [destruct b; vm_compute; reflexivity|].
  intros H. destruct (proj2 (H (VInt 4))) as (i & lr & H1 & H2 & H3); [exists 4; split; [by left|done]|].
  assert (Hin : (i, VInt 4) ∈ links p.1 mn_all 0) by (apply links_spec; by exists lr).
  unfold linked in Hs. destruct (links p.1 mn_all 0); [by apply elem_of_nil in Hin|done].
Qed.
Print Assumptions m2m_links_zero_key_refuted.
