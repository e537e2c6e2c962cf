(** * A cache key that was given up never comes back (C148). *)
From Verif Require Import Base BaseLemmas Schema TrigSet Gen Exec Orm Flush Spec Sessions Hist Check ExForum KeyDraw SaveKey KeysApart P_Key P_KeysApart.

(** A database is filled by [h1]; then cell ([t], [c], [k]) holds the key [v]. *)
(** Whatever happens then ([h2]): a cell that holds [v] is this one.  So what is cached under [v]
    is never shown for another row, even when this one has been deleted. *)
Theorem key_belongs_to_row b S rand imm depth E h1 h2 t c k t' c' k' v :
  mk_env b S rand imm depth = Ok E → wf_schema S → names_apart S → (∀ i j, rand i = rand j → i = j) →
  Forall (leaves_keys S) (h1 ++ h2) → let d1 := foldl (hstep E S) d0 h1 in let d2 := foldl (hstep E S) d1 h2 in
  key_cell S t c → key_cell S t' c' → cellv d1 t k c = Some v → cellv d2 t' k' c' = Some v →
  t' = t ∧ c' = c ∧ k' = k.
Proof.
  intros HE Hwf Hna Hinj Hf d1 d2 Hc Hc' H1 H2. apply Forall_app in Hf as [F1 F2].
  destruct (hists_K b S rand imm depth E Hwf Hna HE h1 d0 F1 (λ _ _ _, 0%nat)) as (no & [A1 A2] & _); [split; by intros|].
  destruct (hists_K b S rand imm depth E Hwf Hna HE h2 d1 F2 no (conj A1 A2)) as (no2 & [B1 B2] & L & C).
  fold d1 in A1, A2. fold d2 in B1, B2, L, C. clearbody d1 d2. unfold cellv in H1, H2.
  apply fmap_Some in H1 as (r & Hr & Hv). apply fmap_Some in H2 as (r' & Hr' & Hv').
  destruct (A1 _ _ _ _ Hc Hr) as [N1 E1]. destruct (B1 _ _ _ _ Hc' Hr') as [N2 E2].
  assert (no2 t' c' k' = no t c k) as Hno by (apply Hinj; congruence).
  destruct (C _ _ _ _ Hc' Hr') as [[[o Ho] He]|Hle]; [|lia].
  destruct (A2 _ _ _ _ _ _ _ _ Hc Hr Hc' Ho) as (-> & -> & ->); [congruence|done].
Qed.
Print Assumptions key_belongs_to_row.
(** If the cell does not hold [v] after [h2] (it was redrawn, or the row was deleted), no cell
    holds [v] after any [h3]: what is cached under [v] is never shown again. *)
Theorem given_up_key_is_gone b S rand imm depth E h1 h2 h3 t c k t' c' k' v :
  mk_env b S rand imm depth = Ok E → wf_schema S → names_apart S → (∀ i j, rand i = rand j → i = j) →
  Forall (leaves_keys S) (h1 ++ h2 ++ h3) →
  let d1 := foldl (hstep E S) d0 h1 in let d2 := foldl (hstep E S) d1 h2 in let d3 := foldl (hstep E S) d2 h3 in
  key_cell S t c → key_cell S t' c' → cellv d1 t k c = Some v → cellv d2 t k c ≠ Some v → cellv d3 t' k' c' ≠ Some v.
Proof.
  intros HE Hwf Hna Hinj Hf d1 d2 d3 Hc Hc' H1 H2 H3. apply Forall_app in Hf as [F1 [F2 F3]%Forall_app].
  destruct (hists_K b S rand imm depth E Hwf Hna HE h1 d0 F1 (λ _ _ _, 0%nat)) as (no & [A1 A2] & _); [split; by intros|].
  destruct (hists_K b S rand imm depth E Hwf Hna HE h2 d1 F2 no (conj A1 A2)) as (no2 & [B1 B2] & L2 & C2).
  destruct (hists_K b S rand imm depth E Hwf Hna HE h3 d2 F3 no2 (conj B1 B2)) as (no3 & [G1 _] & L3 & C3).
  fold d1 in A1, A2. fold d2 in B1, B2, L2, C2. fold d3 in G1, L3, C3. clearbody d1 d2 d3. unfold cellv in H1, H2, H3.
  apply fmap_Some in H1 as (r & Hr & Hv). apply fmap_Some in H3 as (r' & Hr' & Hv').
  destruct (A1 _ _ _ _ Hc Hr) as [N1 E1]. destruct (G1 _ _ _ _ Hc' Hr') as [N2 E2].
  assert (no3 t' c' k' = no t c k) as Hno by (apply Hinj; congruence).
  destruct (C3 _ _ _ _ Hc' Hr') as [[[o Ho] He]|Hle]; [|lia].
  destruct (C2 _ _ _ _ Hc' Ho) as [[[o1 Ho1] He1]|Hle]; [|lia].
  destruct (A2 _ _ _ _ _ _ _ _ Hc Hr Hc' Ho1) as (-> & -> & ->); [congruence|].
  apply H2. rewrite Ho. simpl. destruct (B1 _ _ _ _ Hc' Ho) as [_ E3]. congruence.
Qed.
Print Assumptions given_up_key_is_gone.

(** The documents: key of document 1, redrawn by an update of its author, then deleted,
    created again under the same primary key, and rebuilt. *)
Definition ko_h1 : list hop := HOp <$> kops.
Definition ko_h2 : list hop := [HOp op_author].
Definition ko_h3 : list hop := [HOp (ODelete "doc" [1]); HOp (OSave "Doc" (Some 1) (rowof [("title", VText "q"); ("author_id", VInt 1)])); HFlush id_ord 3].
Example key_once_ex b : mk_env b KS rand0 true 10 = Ok (KE b) ∧ wf_schema KS ∧ names_apart KS ∧ (∀ i j, rand0 i = rand0 j → i = j) ∧
  Forall (leaves_keys KS) (ko_h1 ++ ko_h2 ++ ko_h3) ∧ key_cell KS "doc" "ck" ∧
  (let d1 := foldl (hstep (KE b) KS) d0 ko_h1 in let d2 := foldl (hstep (KE b) KS) d1 ko_h2 in let d3 := foldl (hstep (KE b) KS) d2 ko_h3 in
   bool_decide (is_Some (cellv d1 "doc" 1 "ck")) = true ∧ bool_decide (cellv d2 "doc" 1 "ck" = cellv d1 "doc" 1 "ck") = false ∧ cellv d3 "doc" 1 "title" = Some (VText "q") ∧
   bool_decide (cellv d1 "doc" 2 "ck" = cellv d3 "doc" 2 "ck") = true).
Proof.
  split; [apply KE_ok|]. split; [exact (tk_wf _ _ _ _ (KS_trackable b))|]. split; [exact (tk_names _ _ _ _ (KS_trackable b))|]. split; [unfold rand0; intros; lia|].
  split; [|split; [|split; [comp|split; [comp|split; comp]]]].
  - repeat (apply Forall_cons; split); [..|by apply Forall_nil]; simpl; try done; try (intros c Hc; apply KS_cells in Hc as [Hc _]; done).
    all: intros r c Hc; apply KS_cells in Hc as [Ht ->]; first [discriminate Ht|by rewrite col_insert_ne].
  - exists KDoc, f_key, kdeps. split; [by left|]. split; [do 2 right; left|]. done.
Qed.
