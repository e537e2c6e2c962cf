(** * Cache keys of different rows are different draws (C146). *)
From Verif Require Import Base BaseLemmas Schema TrigSet Gen Exec Orm Flush Spec Sessions Hist Check ExForum KeyDraw SaveKey KeysApart P_Key.

(** [keys_apart]: every key is a number the random source gave, and no two cells (of
    whatever rows, columns and tables) hold the same draw.  [leaves_keys]: nobody assigns to
    keys, and rows of models with keys are created by save(). *)
Theorem keys_stay_apart b S rand imm depth E hs d :
  mk_env b S rand imm depth = Ok E → wf_schema S → names_apart S →
  Forall (leaves_keys S) hs → keys_apart S rand d → keys_apart S rand (foldl (hstep E S) d hs).
Proof. exact (λ HE Hwf Hna Hf, K_apart S rand _ _ (hists_K b S rand imm depth E Hwf Hna HE hs d Hf)). Qed.
Print Assumptions keys_stay_apart.
(** If the random numbers do not repeat: after any such history of an empty database two rows,
    of the same or of different models, have different keys, none of which is NULL. *)
Theorem different_rows_different_keys b S rand imm depth E hs t c k t' c' k' v :
  mk_env b S rand imm depth = Ok E → wf_schema S → names_apart S → (∀ i j, rand i = rand j → i = j) →
  Forall (leaves_keys S) hs → let d := foldl (hstep E S) d0 hs in
  key_cell S t c → key_cell S t' c' → cellv d t k c = Some v → cellv d t' k' c' = Some v →
  t = t' ∧ c = c' ∧ k = k' ∧ v ≠ VNull.
Proof.
  intros HE Hwf Hna Hinj Hf d Hc Hc' H1 H2.
  assert (keys_apart S rand d) as [no [N1 N2]].
  { apply (K_apart S rand _ _ (hists_K b S rand imm depth E Hwf Hna HE hs d0 Hf)). exists (λ _ _ _, 0%nat). split; [by intros|by intros]. }
  clearbody d. unfold cellv in H1, H2. apply fmap_Some in H1 as (r & Hr & Hv). apply fmap_Some in H2 as (r' & Hr' & Hv').
  destruct (N1 _ _ _ _ Hc Hr) as [_ E1]. destruct (N1 _ _ _ _ Hc' Hr') as [_ E2].
  assert (no t c k = no t' c' k') as Hno by (apply Hinj; congruence).
  destruct (N2 _ _ _ _ _ _ _ _ Hc Hr Hc' Hr' Hno) as (-> & -> & ->). split; [done|]. split; [done|]. split; [done|]. by rewrite Hv, E1.
Qed.
Print Assumptions different_rows_different_keys.

(** The documents: created by save(), redrawn by triggers, a save, a deletion and an update. *)
Definition ka_hist : list hop := (HOp <$> kops) ++ [HOp op_author; HOp (OSave "Doc" (Some 2) (rowof [("title", VText "q"); ("author_id", VInt 1)]));
  HOp (OUpdate "doc" [1; 2] (λ r, <["title" := VText "u"]> r)); HFlush id_ord 3; HOp (ODelete "section" [2])].
Lemma KS_cells t c : key_cell KS t c → t = "doc" ∧ c = "ck".
Proof.
  intros (m & f & ds & Hm & Hf & Hk & -> & ->). simpl in Hm.
  repeat (apply elem_of_cons in Hm as [->|Hm]; [simpl in Hf; repeat (apply elem_of_cons in Hf as [->|Hf]; [by try discriminate Hk|]); by apply elem_of_nil in Hf|]).
  by apply elem_of_nil in Hm.
Qed.
Example keys_apart_ex b : mk_env b KS rand0 true 10 = Ok (KE b) ∧ wf_schema KS ∧ names_apart KS ∧ (∀ i j, rand0 i = rand0 j → i = j) ∧
  Forall (leaves_keys KS) ka_hist ∧ key_cell KS "doc" "ck" ∧
  (let d := foldl (hstep (KE b) KS) d0 ka_hist in bool_decide (cellv d "doc" 1 "ck" = cellv d "doc" 2 "ck") = false ∧ cellv d "doc" 2 "title" = Some (VText "u")).
Proof.
  split; [apply KE_ok|]. split; [exact (tk_wf _ _ _ _ (KS_trackable b))|]. split; [exact (tk_names _ _ _ _ (KS_trackable b))|]. split; [unfold rand0; intros; lia|].
  split; [|split; [|split; comp]].
  - repeat (apply Forall_cons; split); [..|by apply Forall_nil]; simpl; try done; try (intros c Hc; apply KS_cells in Hc as [Hc _]; done).
    all: intros r c Hc; apply KS_cells in Hc as [Ht ->]; first [discriminate Ht|by rewrite col_insert_ne].
  - exists KDoc, f_key, kdeps. split; [by left|]. split; [do 2 right; left|]. done.
Qed.
(** Rows created otherwise share the default, and with it the cached values. *)
Definition ka_bulk : hop := HOp (OInsert "doc" [(8, rowof [("title", VText "x"); ("author_id", VInt 1); ("ck", VInt 0)]); (9, rowof [("title", VText "y"); ("author_id", VInt 1); ("ck", VInt 0)])]).
Theorem inserted_keys_apart_refuted : ∀ b, ∃ S E hs t c k k' v, mk_env b S rand0 true 10 = Ok E ∧ wf_schema S ∧ key_cell S t c ∧ k ≠ k' ∧
  cellv (foldl (hstep E S) d0 hs) t k c = Some v ∧ cellv (foldl (hstep E S) d0 hs) t k' c = Some v.
Proof.
  intros b. exists KS, (KE b), ((HOp <$> kops) ++ [ka_bulk]), "doc", "ck", 8, 9, (VInt 0). split; [apply KE_ok|].
  split; [exact (tk_wf _ _ _ _ (KS_trackable b))|]. split; [exists KDoc, f_key, kdeps; split; [by left|]; split; [do 2 right; left|done]|]. split; [done|]. split; comp.
Qed.
Print Assumptions inserted_keys_apart_refuted.
