(** * Fields declared in the wrong order, and how to live with them (C03). *)
From Verif Require Import Base BaseLemmas Schema TrigSet Gen Exec Orm Flush Spec SpecAgg SpecOrder Check ExForum ExBad CheckOrder Seen Repeat.

(** ** C03 *)
(** What a function is given when a stored row is saved, whatever instance is saved: the new
    values of the fields declared before its own and the instance's old values of all others. *)
Theorem save_sees_earlier_fields_only E m k l1 f fn ds sk l2 d r r0 d' k' r' :
  m_fields m = l1 ++ f :: l2 → NoDup (f_col <$> m_fields m) → f_kind f = KCallback fn ds sk → has_m2m_denorm m = false →
  getrow d (m_table m) k = Some r0 → save E m (Some k) r d = Ok (d', k', r') →
  ∃ di ri pv, d_tabs di = d_tabs d ∧ fn di (Some k) ri = Ok pv ∧ stores f pv (col r' (f_col f)) ∧
    (∀ c, c ∈ f_col <$> l1 → col ri c = col r' c) ∧ (∀ c, c ∉ f_col <$> l1 → col ri c = col r c).
Proof.
  intros Hl Hnd Hk Hno Hr0 H. destruct (save_seen E m k l1 f fn ds sk l2 d r r0 d' k' r' Hl Hnd Hk Hno Hr0 H) as (di & ri & pv & H1 & H2 & H3 & H4).
  exists di, ri, pv. split; [done|]. split; [done|]. split; [by apply Update.store_value_spec|done].
Qed.
Print Assumptions save_sees_earlier_fields_only.
(** f copies g, which is declared after it: the old g is stored. *)
Example save_sees_ex b : m_fields OoA = [plain "x" "A"] ++ oo_f :: [oo_g] ∧ has_m2m_denorm OoA = false ∧
  match getrow (oo_d b) "a" 1 with
  | Some r0 => match save (env_of b OO true) OoA (Some 1) (<["x" := VInt 5]> (<["g" := VInt 8]> r0)) (oo_d b) with
               | Ok (_, _, r') => bool_decide (col r' "f" = VInt 8 ∧ col r' "g" = VInt 5)
               | Err _ => false
               end
  | None => false
  end = true.
Proof. split; [done|]. split; [done|]. destruct b; vm_compute; reflexivity. Qed.

(** Rebuilding repeatedly helps: if no value depends on itself, through any chain of fields and
    rows, then as many complete rebuilds as there are ranks make everything right.  The order
    of declaration, rows related to themselves and the triggers play no part. *)
Theorem repeated_rebuild_repairs b S rand imm depth E ρ n d d' :
  mk_env b S rand imm depth = Ok E → wf_schema S → names_apart S → no_m2m_denorm S → all_truthy S →
  value_acyclic S ρ d → (∀ m k r c, m ∈ s_models S → getrow d (m_table m) k = Some r → callback_col m c → (ρ (m_table m) k c < n)%nat) →
  rebuilds E S n d d' → consistent S d' ∧ (n ≠ 0%nat → d_dirty d' = []).
Proof. exact (rebuilds_settle_ok b S rand imm depth E ρ n d d'). Qed.
Print Assumptions repeated_rebuild_repairs.
(** Two ranks: one rebuild is not enough, two are. *)
Definition oo_ρ (t : string) (k : Z) (c : string) : nat := if decide (c = "f") then 1%nat else 0%nat.
Definition oo_d1 (b : backend) : db := (rebuildall (env_of b OO true) OO id_ord 5 None None (set_dirty (oo_d b) [])).1.
Definition oo_d2 (b : backend) : db := (rebuildall (env_of b OO true) OO id_ord 5 None None (oo_d1 b)).1.
Lemma OO_reads : reads_all OO oo_rds.
Proof.
  intros m f fn ds sk Hm Hf Hk. simpl in Hm. apply elem_of_list_singleton in Hm as ->. simpl in Hf.
  repeat (apply elem_of_cons in Hf as [->|Hf]); [..|by apply elem_of_nil in Hf]; simpl in Hk; try discriminate Hk;
    injection Hk as <- <- <-; apply cb_copy_reads.
Qed.
Example repeated_rebuild_ex b : mk_env b OO rand0 true 10 = Ok (env_of b OO true) ∧ wf_schema OO ∧ names_apart OO ∧ no_m2m_denorm OO ∧ all_truthy OO ∧
  value_acyclic OO oo_ρ (set_dirty (oo_d b) []) ∧ (∀ t k c, (oo_ρ t k c < 2)%nat) ∧
  rebuilds (env_of b OO true) OO 1 (set_dirty (oo_d b) []) (oo_d1 b) ∧ rebuilds (env_of b OO true) OO 2 (set_dirty (oo_d b) []) (oo_d2 b) ∧
  ¬ consistent OO (oo_d1 b) ∧ cellv (oo_d1 b) "a" 1 "f" = Some (VInt 1) ∧ cellv (oo_d2 b) "a" 1 "f" = Some (VInt 2).
Proof.
  assert (Hvis : ∀ d m k r, m ∈ s_models OO → getrow d (m_table m) k = Some r → m_visible m r = true).
  { intros d m k r Hm _. by apply elem_of_list_singleton in Hm as ->. }
  assert (H1 : rebuildall (env_of b OO true) OO id_ord 5 None None (set_dirty (oo_d b) []) = (oo_d1 b, Done)).
  { apply rebuild_pair. destruct b; vm_compute; reflexivity. }
  assert (H2 : rebuildall (env_of b OO true) OO id_ord 5 None None (oo_d1 b) = (oo_d2 b, Done)).
  { apply rebuild_pair. destruct b; vm_compute; reflexivity. }
  destruct (OO_trackable b) as [Hwf Hna].
  split; [destruct b; vm_compute; reflexivity|]. split; [done|]. split; [done|].
  split; [apply no_m2m_denormb_spec; by vm_compute|]. split; [intros m r Hm; by apply elem_of_list_singleton in Hm as ->|].
  split; [apply (value_acyclicb_spec _ _ oo_rds); [destruct b; vm_compute; reflexivity|exact OO_reads]|].
  split; [intros t k c; unfold oo_ρ; case_decide; lia|].
  split; [eapply rebuilds_S; [apply Hvis|exact H1|apply rebuilds_0]|].
  split; [eapply rebuilds_S; [apply Hvis|exact H1|]; eapply rebuilds_S; [apply Hvis|exact H2|apply rebuilds_0]|].
  split; [apply (staleb_spec _ _ OoA 1 1); [by left|]; destruct b; vm_compute; reflexivity|].
  split; destruct b; vm_compute; reflexivity.
Qed.
