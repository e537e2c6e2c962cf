(** * Flush with any cursor: the markers of a pass need not be known when it starts. *)
From stdpp Require Import relations.
From Verif Require Import Base BaseLemmas Schema TrigSet Gen Exec Orm Flush Machine Spec SpecOrder Engine GenLemmas Marking Conditions Invariant Settle Sessions Frame Hist Terminate.

(** One pass of the loop (denorms.py:625-635) whose cursor is still reading while rows
    are saved and markers deleted: it may return any marker that has existed since the
    pass began ([seen]), in any order and more than once. *)
Inductive cursor_pass (E : env) (S : schema) : list marker → db → list marker → db → Prop :=
  | cp_end seen d : cursor_pass E S seen d [] d
  | cp_row seen d mk d1 l d' : mk ∈ seen → process E S mk d = Ok d1 →
      cursor_pass E S (seen ++ d_dirty d1) d1 l d' → cursor_pass E S seen d (mk :: l) d'.
(** A complete pass returns every marker it found at its beginning. *)
Definition round (E : env) (S : schema) (d d' : db) : Prop :=
  d_dirty d ≠ [] ∧ ∃ l, cursor_pass E S (d_dirty d) d l d' ∧ ∀ mk, mk ∈ d_dirty d → mk ∈ l.

Lemma cursor_pass_flush E S seen d l d' : cursor_pass E S seen d l d' → flush_pass E S l d = (d', Done).
Proof. induction 1 as [|seen d mk d1 l d' _ Hp _ IH]; simpl; [done|]. by rewrite Hp. Qed.
Lemma flush_pass_cursor E S l : ∀ seen d d', (∀ mk, mk ∈ l → mk ∈ seen) → flush_pass E S l d = (d', Done) → cursor_pass E S seen d l d'.
Proof.
  induction l as [|mk l IH]; intros seen d d' Hs H; simpl in H; [injection H as <-; constructor|].
  destruct (process E S mk d) as [d1|] eqn:Hp; [|done]. econstructor; [apply Hs; left|exact Hp|].
  apply IH; [|done]. intros x Hx. apply elem_of_app. left. apply Hs. by right.
Qed.
(** The passes of Flush.v are such passes. *)
Lemma flush_pass_round E S ord d d' : (∀ x l mk, mk ∈ ord x l ↔ mk ∈ l) → d_dirty d ≠ [] →
  flush_pass E S (snapshot E ord d) d = (d', Done) → round E S d d'.
Proof.
  intros Ho Hd H. split; [done|]. exists (snapshot E ord d). split.
  - eapply flush_pass_cursor; [|exact H]. intros mk. by apply snapshot_elem.
  - intros mk. by apply snapshot_elem.
Qed.

Lemma rounds_end_ok b S rand imm depth E ρ σ d :
  mk_env b S rand imm depth = Ok E → wf_schema S → names_apart S → no_m2m_denorm S →
  value_acyclic S ρ d → calm b S σ → Acc (λ y x, round E S x y) d.
Proof.
  intros HE Hwf Hna Hnod Hac Hcalm. destruct (mk_env_gen _ _ _ _ _ _ HE) as [l0 Hl].
  assert (Hn : names_ok b l0) by (by eapply names_apart_ok).
  destruct (max_bound (rk ρ) (all_cells S d)) as [R HR].
  assert (Hv : ∀ x, x ∈ all_cells S d → valid S d x) by (intros [[m f] k] Hx; by apply all_cells_spec in Hx).
  assert (Ha : ∀ m f fn ds sk k, m ∈ s_models S → f ∈ m_fields m → f_kind f = KCallback fn ds sk → is_Some (getrow d (m_table m) k) →
    (m, f, k) ∈ all_cells S d) by (intros m f fn ds sk k Hm Hf Hk Hr; apply all_cells_spec; split_and!; [done|done|eauto|done]).
  pose proof (process_step b S rand imm depth E l0 Hwf HE Hl Hn Hnod ρ d Hac _ Hv Ha R HR σ Hcalm) as PS.
  pose proof (pass_step b S rand imm depth E l0 Hwf HE Hl Hn Hnod ρ d Hac _ Hv Ha R HR σ Hcalm) as PP.
  pose proof (λ mk x y, inv_process b S rand imm depth E l0 Hwf HE Hl Hn d mk x y) as IP.
  set (mu := mu ρ (all_cells S d) R) in *. set (inv := inv S d) in *.
  (* the markers returned are bounded like those at the beginning, or the measure drops *)
  assert (CB : ∀ B seen x ms y, cursor_pass E S seen x ms y → inv x → (∀ mk, mk ∈ seen → σ mk.1 < B)%nat → (∀ mk, mk ∈ d_dirty x → σ mk.1 < B)%nat →
    (mu y < mu x)%nat ∨ (mu y = mu x ∧ ∀ mk, mk ∈ ms → σ mk.1 < B)%nat).
  { intros B seen x ms y Hc. induction Hc as [seen x|seen x mk x1 ms y Hmk Hp Hc IH]; intros Hi Hs Hd0.
    { right. split; [done|]. by intros mk ?%elem_of_nil. }
    pose proof (IP _ _ _ Hi Hp) as Hi1. pose proof (cursor_pass_flush _ _ _ _ _ _ Hc) as Hf.
    destruct (PP _ _ _ Hi1 Hf) as [_ Hle]. destruct (PS _ _ _ Hi Hp) as [Hlt|[Heq Hx]].
    { left. destruct Hle as [?|[? _]]; lia. }
    assert (Hd1 : ∀ mk', mk' ∈ d_dirty x1 → (σ mk'.1 < B)%nat).
    { intros mk' Hin. destruct (Hx _ Hin) as [_ [Hd|Hd]]; [by apply Hd0|]. specialize (Hs _ Hmk). lia. }
    destruct IH as [Hlt|[Heq2 Hms]]; [done| |done|left; lia|].
    { intros mk' [?|Hin]%elem_of_app; [by apply Hs|by apply Hd1]. }
    right. split; [lia|]. intros mk' [->|?]%elem_of_cons; [by apply Hs|by apply Hms]. }
  assert (HA : ∀ N B x, inv x → (mu x ≤ N)%nat → (∀ mk, mk ∈ d_dirty x → σ mk.1 < B)%nat → Acc (λ y x, round E S x y) x).
  { induction N as [N IHN] using lt_wf_ind. induction B as [|B IHB]; intros x Hi HN HB; constructor; intros y [Hne (ms & Hc & Hall)].
    { exfalso. destruct (d_dirty x) as [|mk ?]; [done|]. specialize (HB mk ltac:(left)). lia. }
    pose proof (cursor_pass_flush _ _ _ _ _ _ Hc) as Hf. destruct (PP _ _ _ Hi Hf) as [Hiy Hle].
    destruct (CB (Datatypes.S B) _ _ _ _ Hc Hi HB HB) as [Hlt|[Heq Hms]].
    { destruct (max_bound (λ mk : marker, σ mk.1) (d_dirty y)) as [M HM].
      eapply (IHN (mu y) ltac:(lia) (Datatypes.S M)); [done|done|]. intros mk Hin. specialize (HM mk Hin). simpl in HM. lia. }
    apply IHB; [done|lia|]. destruct Hle as [?|[_ Hx]]; [lia|]. intros mk Hin.
    destruct (Hx mk Hin) as [[Hd Hn']|(mk' & Hmk' & Hlt)]; [by destruct Hn'; apply Hall|]. specialize (Hms mk' Hmk'). lia. }
  destruct (max_bound (λ mk : marker, σ mk.1) (d_dirty d)) as [M HM].
  eapply (HA (mu d) (Datatypes.S M)); [apply inv_start|done|]. intros mk Hin. specialize (HM mk Hin). simpl in HM. lia.
Qed.

(** Executing a pass that returns the given markers. *)
Fixpoint cursor_exec (E : env) (S : schema) (seen : list marker) (l : list marker) (d : db) : option db :=
  match l with
  | [] => Some d
  | mk :: l' =>
      if decide (mk ∈ seen) then
        match process E S mk d with Ok d1 => cursor_exec E S (seen ++ d_dirty d1) l' d1 | Err _ => None end
      else None
  end.
Lemma cursor_exec_sound E S l : ∀ seen d d', cursor_exec E S seen l d = Some d' → cursor_pass E S seen d l d'.
Proof.
  induction l as [|mk l IH]; intros seen d d' H; simpl in H; [injection H as <-; constructor|].
  case_decide; [|done]. destruct (process E S mk d) as [d1|] eqn:Hp; [|done]. econstructor; [done|exact Hp|by apply IH].
Qed.
Lemma cursor_exec_round E S l d (P : db → bool) :
  match cursor_exec E S (d_dirty d) l d with Some y => P y | None => false end && bool_decide (d_dirty d ≠ []) && bool_decide (d_dirty d ⊆ l) = true →
  ∃ d', round E S d d' ∧ P d' = true.
Proof.
  intros [[H1 H2%bool_decide_eq_true]%andb_true_iff H3%bool_decide_eq_true]%andb_true_iff.
  destruct (cursor_exec E S (d_dirty d) l d) as [d'|] eqn:H; [|done]. exists d'. split; [|done]. split; [done|]. exists l.
  split; [by apply cursor_exec_sound|]. intros mk. apply H3.
Qed.
