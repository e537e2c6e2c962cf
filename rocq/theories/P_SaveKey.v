(** * Saving draws the cache key anew (C145). *)
From Verif Require Import Base BaseLemmas Schema TrigSet Gen Exec Orm Flush Spec Sessions Hist Check ExForum KeyDraw SaveModes SaveKey P_Key.

(** [redrawn rand n0 t c k d]: the cell holds a random value drawn after the first [n0] ones
    (KeyDraw.v).  [x.1.2] is the primary key of the saved instance and [x.1.1] the database
    afterwards; new and stored instances, with and without a key of their own, whatever links
    and functions the model has. *)
Theorem save_draws_key b S rand imm depth E m f ds pk r d x :
  mk_env b S rand imm depth = Ok E → wf_schema S → names_apart S →
  m ∈ s_models S → f ∈ m_fields m → f_kind f = KCacheKey ds →
  save E m pk r d = Ok x → redrawn rand (d_rnd d) (m_table m) (f_col f) x.1.2 x.1.1.
Proof. exact (λ HE Hwf Hna Hm Hf Hk, save_draws b S rand imm depth E Hwf Hna HE m f ds Hm Hf Hk pk r d x). Qed.
Print Assumptions save_draws_key.
(** Saving only some fields does so if the key is among them (not otherwise:
    cache_key_set_by_every_save_refuted). *)
Theorem save_fields_draws_key b S rand imm depth E m f ds k names r d p :
  mk_env b S rand imm depth = Ok E → wf_schema S → names_apart S →
  m ∈ s_models S → f ∈ m_fields m → f_kind f = KCacheKey ds → named names f = true → names ≠ [] →
  save_fields E m k names r d = Ok p → redrawn rand (d_rnd d) (m_table m) (f_col f) k p.1.
Proof. exact (λ HE Hwf Hna Hm Hf Hk, save_fields_draws b S rand imm depth E Hwf Hna HE m f ds Hm Hf Hk k names r d p). Qed.
Print Assumptions save_fields_draws_key.
(** If the random numbers do not repeat, the key is none that was drawn before the save: a
    value cached under an earlier key of any row is not found under it. *)
Theorem saved_key_is_new b S rand imm depth E m f ds pk r d x n :
  mk_env b S rand imm depth = Ok E → wf_schema S → names_apart S →
  m ∈ s_models S → f ∈ m_fields m → f_kind f = KCacheKey ds → (∀ i j, rand i = rand j → i = j) →
  save E m pk r d = Ok x → (n < d_rnd d)%nat → cellv x.1.1 (m_table m) x.1.2 (f_col f) ≠ Some (VInt (rand n)).
Proof.
  intros HE Hwf Hna Hm Hf Hk Hinj Hs Hn.
  destruct (save_draws b S rand imm depth E Hwf Hna HE m f ds Hm Hf Hk pk r d x Hs) as (r' & n' & Hr & Hle & Hc).
  unfold cellv. rewrite Hr. simpl. rewrite Hc. intros [= Heq]. apply Hinj in Heq. lia.
Qed.
Print Assumptions saved_key_is_new.

(** Saving document 1 with its stored key, a new document, and only the key of document 2. *)
Definition sk_row (b : backend) (k : Z) : row := default ∅ (getrow (kd b) "doc" k).
Definition sk_all (b : backend) (pk : option Z) (r : row) : db * Z * row := match save (KE b) KDoc pk r (kd b) with Ok x => x | Err _ => (d0, 0, ∅) end.
Definition sk_some (b : backend) (names : list string) : db * row := match save_fields (KE b) KDoc 2 names (sk_row b 2) (kd b) with Ok x => x | Err _ => (d0, ∅) end.
Lemma sk_all_ok b pk r : match save (KE b) KDoc pk r (kd b) with Ok _ => true | Err _ => false end = true → save (KE b) KDoc pk r (kd b) = Ok (sk_all b pk r).
Proof. unfold sk_all. destruct (save _ _ _ _ _); [done|discriminate]. Qed.
Lemma sk_some_ok b names : match save_fields (KE b) KDoc 2 names (sk_row b 2) (kd b) with Ok _ => true | Err _ => false end = true →
  save_fields (KE b) KDoc 2 names (sk_row b 2) (kd b) = Ok (sk_some b names).
Proof. unfold sk_some. destruct (save_fields _ _ _ _ _ _); [done|discriminate]. Qed.
Example save_draws_ex b : wf_schema KS ∧ names_apart KS ∧ KDoc ∈ s_models KS ∧ f_key ∈ m_fields KDoc ∧ f_kind f_key = KCacheKey kdeps ∧
  (∀ i j, rand0 i = rand0 j → i = j) ∧
  save (KE b) KDoc (Some 1) (sk_row b 1) (kd b) = Ok (sk_all b (Some 1) (sk_row b 1)) ∧
  bool_decide (cellv (sk_all b (Some 1) (sk_row b 1)).1.1 "doc" 1 "ck" = cellv (kd b) "doc" 1 "ck") = false ∧
  save (KE b) KDoc None (rowof [("title", VText "n"); ("author_id", VInt 1)]) (kd b) = Ok (sk_all b None (rowof [("title", VText "n"); ("author_id", VInt 1)])) ∧
  (sk_all b None (rowof [("title", VText "n"); ("author_id", VInt 1)])).1.2 = 3 ∧
  named ["ck"] f_key = true ∧ save_fields (KE b) KDoc 2 ["ck"] (sk_row b 2) (kd b) = Ok (sk_some b ["ck"]) ∧
  bool_decide (cellv (sk_some b ["ck"]).1 "doc" 2 "ck" = cellv (kd b) "doc" 2 "ck") = false ∧
  bool_decide (cellv (sk_some b ["title"]).1 "doc" 2 "ck" = cellv (kd b) "doc" 2 "ck") = true.
Proof.
  split; [exact (tk_wf _ _ _ _ (KS_trackable b))|]. split; [exact (tk_names _ _ _ _ (KS_trackable b))|]. split; [by left|]. split; [do 2 right; left|]. split; [done|].
  split; [unfold rand0; intros; lia|]. split; [apply sk_all_ok; comp|]. split; [comp|]. split; [apply sk_all_ok; comp|]. split; [comp|]. split; [done|].
  split; [apply sk_some_ok; comp|]. split; comp.
Qed.
