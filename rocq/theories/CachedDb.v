(** * @cached attributes over the database model (fields.py:297-328).
    The single steps of concurrent readers are in Cached.v; here reads are atomic, and the keys
    are those that saves and triggers draw. *)
From Verif Require Import Base BaseLemmas Schema TrigSet Gen Exec Orm Flush Spec Sessions Hist Check KeyDraw SaveKey KeysApart Cached.

Section cached.
(** [fn t c d k]: what the decorated function returns for row [k] of [t] when the database is
    [d] (column [c] holds the key, CachedField, fields.py:310-321). *)
Context (S : schema) (rand : nat → Z) (E : env) (fn : string → string → db → Z → val).
(** The row is loaded; assigning its key runs CacheWrapper.__set__ (fields.py:301-307): the value
    found under the key, unless there is none or a falsy one; then func is called and its result
    stored. *)
Definition cached_read (ca : gmap Z val) (d : db) (t c : string) (k : Z) : option val * gmap Z val :=
  match cellv d t k c with
  | Some (VInt z) =>
      let new := (Some (fn t c d k), <[z := fn t c d k]> ca) in
      match ca !! z with Some w => if falsy w then new else (Some w, ca) | None => new end
  | _ => (None, ca)
  end.
(** pre_save assigns the key it draws (fields.py:282-285), which runs __set__ too: during a step
    values are stored under keys drawn in it.  Assumed: for the instance being saved the function
    returns what it returns for the stored row once the step is done.  (Keys drawn in a step that
    is rolled back are left out: nothing holds them.) *)
Definition stored_in (d d' : db) (p : Z * val) : Prop :=
  (∃ n, (d_rnd d ≤ n < d_rnd d')%nat ∧ p.1 = rand n) ∧
  ∀ t c k, key_cell S t c → cellv d' t k c = Some (VInt p.1) → p.2 = fn t c d' k.
(** The databases so far, the latest first, and the cache.  Entries expire or are evicted at any
    time (fields.py:306). *)
Inductive xrun : list db → gmap Z val → Prop :=
  | x_start d : (∀ t k, getrow d t k = None) → xrun [d] ∅
  | x_step d vs ca h ps : xrun (d :: vs) ca → leaves_keys S h → Forall (stored_in d (hstep E S d h)) ps →
      xrun (hstep E S d h :: d :: vs) (foldr (λ p ca, <[p.1 := p.2]> ca) ca ps)
  | x_read d vs ca t c k : xrun (d :: vs) ca → key_cell S t c → xrun (d :: vs) (cached_read ca d t c k).2
  | x_evict vs ca z : xrun vs ca → xrun vs (delete z ca).
(** Spec: [w] is what the function returned for the row in one of the databases, [d1]; since then
    the row has had its present key. *)
Definition computed_since (vs : list db) (t c : string) (k : Z) (z : Z) (w : val) : Prop :=
  ∃ l1 d1 l2, vs = l1 ++ d1 :: l2 ∧ w = fn t c d1 k ∧ Forall (λ d, cellv d t k c = Some (VInt z)) (l1 ++ [d1]).
(** Spec: a step that keeps the key of the row keeps what the function returns for it (C35). *)
Fixpoint key_follows (t c : string) (k : Z) (vs : list db) : Prop :=
  match vs with
  | d' :: (d :: _) as rest => (cellv d' t k c = cellv d t k c → fn t c d' k = fn t c d k) ∧ key_follows t c k rest
  | _ => True
  end.

Context (b : backend) (imm : bool) (depth : nat).
Context (HE : mk_env b S rand imm depth = Ok E) (Hwf : wf_schema S) (Hna : names_apart S) (Hinj : ∀ i j, rand i = rand j → i = j).
Definition xinv (vs : list db) (ca : gmap Z val) : Prop :=
  match vs with
  | [] => False
  | d :: _ => (∃ no, numbered S rand no d) ∧
      ∀ z w, ca !! z = Some w → (∃ n, (n < d_rnd d)%nat ∧ z = rand n) ∧
        ∀ t c k, key_cell S t c → cellv d t k c = Some (VInt z) → computed_since vs t c k z w
  end.
Lemma now_since d vs t c k z : cellv d t k c = Some (VInt z) → computed_since (d :: vs) t c k z (fn t c d k).
Proof. intros H. exists [], d, vs. split; [done|]. split; [done|]. by constructor. Qed.
Lemma xrun_inv vs ca : xrun vs ca → xinv vs ca.
Proof.
  induction 1 as [d Hd|d vs ca h ps Hr IH Hl Hps|d vs ca t c k Hr IH Hc|vs ca z Hr IH].
  - split; [exists (λ _ _ _, 0%nat); split; [by intros t c k r _; rewrite Hd|by intros t c k r t' c' k' r' _; rewrite Hd]|]. intros z w Hz. by rewrite lookup_empty in Hz.
  - destruct IH as [[no Hno] Hca]. destruct (hist_K b S rand imm depth E Hwf Hna HE h d Hl no Hno) as (no' & Hno' & L & C).
    split; [by exists no'|]. intros z w Hz.
    assert (Hor : (∃ p, p ∈ ps ∧ p.1 = z ∧ p.2 = w) ∨ ca !! z = Some w).
    { clear Hps. induction ps as [|p ps IH]; simpl in Hz; [by right|]. apply lookup_insert_Some in Hz as [[<- <-]|[_ Hz]].
      - left. exists p. split; [left|done].
      - destruct (IH Hz) as [(p' & Hp' & Q)|Hz']; [left; exists p'; split; [by right|done]|by right]. }
    destruct Hor as [(p & Hp & <- & <-)|Hz'].
    + eapply Forall_forall in Hps as [(n & Hn & Hz1) Hval]; [|exact Hp]. split; [exists n; split; [lia|done]|].
      intros t c k Hc Hcell. rewrite (Hval _ _ _ Hc Hcell). by apply now_since.
    + destruct (Hca _ _ Hz') as [(n & Hn & ->) Hsince]. split; [exists n; split; [lia|done]|].
      intros t c k Hc Hcell. destruct Hno as [A1 _], Hno' as [B1 _].
      pose proof Hcell as Hcell'. unfold cellv in Hcell'. apply fmap_Some in Hcell' as (r' & Hr' & Hv').
      destruct (B1 _ _ _ _ Hc Hr') as [N2 E2]. assert (no' t c k = n) as Hn' by (apply Hinj; congruence).
      destruct (C _ _ _ _ Hc Hr') as [[[o Ho] He]|Hle]; [|lia].
      destruct (A1 _ _ _ _ Hc Ho) as [_ E1].
      assert (Hd : cellv d t k c = Some (VInt (rand n))) by (unfold cellv; rewrite Ho; simpl; congruence).
      destruct (Hsince _ _ _ Hc Hd) as (l1 & d1 & l2 & Hvs & Hw & Hall). exists (hstep E S d h :: l1), d1, l2.
      split; [by rewrite Hvs|]. split; [done|]. simpl. by constructor.
  - destruct IH as [[no Hno] Hca]. split; [by exists no|]. intros z w. unfold cached_read.
    destruct (cellv d t k c) as [[|z'|]|] eqn:Hcell; try (apply Hca).
    assert (Hnew : <[z' := fn t c d k]> ca !! z = Some w → (∃ n, (n < d_rnd d)%nat ∧ z = rand n) ∧
      ∀ t c k, key_cell S t c → cellv d t k c = Some (VInt z) → computed_since (d :: vs) t c k z w).
    { intros [[<- <-]|[_ Hz]]%lookup_insert_Some; [|by apply Hca]. destruct Hno as [A1 A2].
      pose proof Hcell as Hcell'. unfold cellv in Hcell'. apply fmap_Some in Hcell' as (r & Hg & Hv). destruct (A1 _ _ _ _ Hc Hg) as [N1 E1].
      split; [exists (no t c k); split; [done|congruence]|]. intros t2 c2 k2 Hc2 Hcell2.
      pose proof Hcell2 as Hcell2'. unfold cellv in Hcell2'. apply fmap_Some in Hcell2' as (r2 & Hg2 & Hv2). destruct (A1 _ _ _ _ Hc2 Hg2) as [N2 E2].
      destruct (A2 _ _ _ _ _ _ _ _ Hc Hg Hc2 Hg2) as (-> & -> & ->); [apply Hinj; congruence|]. by apply now_since. }
    destruct (ca !! z') as [w'|]; [destruct (falsy w')|]; simpl; auto.
  - destruct vs as [|d vs]; [done|]. destruct IH as [Hno Hca]. split; [done|]. intros z' w [_ Hz]%lookup_delete_Some. by apply Hca.
Qed.
Lemma read_since d vs ca t c k w : xrun (d :: vs) ca → key_cell S t c → (cached_read ca d t c k).1 = Some w →
  ∃ z, cellv d t k c = Some (VInt z) ∧ computed_since (d :: vs) t c k z w.
Proof.
  intros [_ Hca]%xrun_inv Hc. unfold cached_read. destruct (cellv d t k c) as [[|z|]|] eqn:Hcell; try done. intros H. exists z. split; [done|].
  destruct (ca !! z) as [w'|] eqn:Hz; [destruct (falsy w')|]; simpl in H; injection H as <-; [by apply now_since| |by apply now_since].
  apply (Hca _ _ Hz); done.
Qed.
Lemma since_current d vs t c k z w : key_follows t c k (d :: vs) → computed_since (d :: vs) t c k z w → w = fn t c d k.
Proof.
  intros Hf (l1 & d1 & l2 & Hvs & -> & Hall). revert d vs Hf Hvs. induction l1 as [|x l1 IH]; intros d vs Hf Hvs; simpl in Hvs; [by injection Hvs as -> _|].
  injection Hvs as -> ->. simpl in Hall. apply Forall_cons in Hall as [Hx Hall]. destruct l1 as [|y l1].
  - simpl in *. destruct Hf as [Hf _]. apply Forall_cons in Hall as [H1 _]. symmetry. apply Hf. congruence.
  - simpl in Hf, Hall. destruct Hf as [H1 Hf]. etransitivity; [by eapply (IH Hall y)|]. symmetry. apply H1. apply Forall_cons in Hall as [H2 _]. congruence.
Qed.
End cached.
