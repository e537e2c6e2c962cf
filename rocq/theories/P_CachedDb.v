(** * What @cached attributes show (C149). *)
From Verif Require Import Base BaseLemmas Schema TrigSet Gen Exec Orm Flush Spec Sessions Hist Check ExForum KeyDraw SaveKey KeysApart CachedDb P_Key P_KeysApart.

(** [xrun S rand E fn (d :: vs) ca]: some history of saves, statements, flushes, rebuilds, reads of
    cached attributes and evictions has led to database [d] (with the databases [vs] before) and
    cache [ca].  [computed_since]: the value was returned by the function for this very row in one
    of these databases, and the row has had its present key ever since. *)
Theorem cached_shows_own_value b S rand imm depth E fn d vs ca t c k w :
  mk_env b S rand imm depth = Ok E → wf_schema S → names_apart S → (∀ i j, rand i = rand j → i = j) →
  xrun S rand E fn (d :: vs) ca → key_cell S t c → (cached_read fn ca d t c k).1 = Some w →
  ∃ z, cellv d t k c = Some (VInt z) ∧ computed_since fn (d :: vs) t c k z w.
Proof. exact (λ HE Hwf Hna Hinj, read_since S rand E fn b imm depth HE Hwf Hna Hinj d vs ca t c k w). Qed.
Print Assumptions cached_shows_own_value.
(** If every step that changes what the function returns for the row also redraws its key (C35
    says of which statements this holds), the value is the current one. *)
Theorem cached_shows_current_value b S rand imm depth E fn d vs ca t c k w :
  mk_env b S rand imm depth = Ok E → wf_schema S → names_apart S → (∀ i j, rand i = rand j → i = j) →
  xrun S rand E fn (d :: vs) ca → key_cell S t c → key_follows fn t c k (d :: vs) →
  (cached_read fn ca d t c k).1 = Some w → w = fn t c d k.
Proof.
  intros HE Hwf Hna Hinj Hr Hc Hf H. destruct (read_since S rand E fn b imm depth HE Hwf Hna Hinj d vs ca t c k w Hr Hc H) as (z & _ & Hs).
  by eapply since_current.
Qed.
Print Assumptions cached_shows_current_value.

(** Documents show something computed from the name of their author; document 1 is read, the
    author is renamed, which redraws the key, and it is read again. *)
Definition cd_fn (t c : string) (d : db) (k : Z) : Z :=
  match cellv d "doc" k "author_id" with
  | Some (VInt j) => if bool_decide (cellv d "author" j "name" = Some (VText "z")) then 2 else 1
  | _ => 0
  end.
Fixpoint visited (E : env) (S : schema) (d : db) (vs : list db) (hs : list hop) : list db :=
  match hs with [] => d :: vs | h :: hs => visited E S (hstep E S d h) (d :: vs) hs end.
Lemma xrun_visited S rand E fn hs : ∀ d vs ca, Forall (leaves_keys S) hs → xrun S rand E fn (d :: vs) ca → xrun S rand E fn (visited E S d vs hs) ca.
Proof.
  induction hs as [|h hs IH]; intros d vs ca Hf Hr; simpl; [done|]. apply Forall_cons in Hf as [Hh Hf]. apply IH; [done|].
  apply (x_step S rand E fn d vs ca h []); [done|done|by apply Forall_nil].
Qed.
Lemma visited_hd E S hs : ∀ d vs, ∃ vs', visited E S d vs hs = foldl (hstep E S) d hs :: vs'.
Proof. induction hs as [|h hs IH]; intros d vs; simpl; [by exists vs|apply IH]. Qed.
Definition cd_vs (b : backend) : list db := tail (visited (KE b) KS d0 [] (HOp <$> kops)).
Lemma kd_run b fn : xrun KS rand0 (KE b) fn (kd b :: cd_vs b) ∅.
Proof.
  destruct (visited_hd (KE b) KS (HOp <$> kops) d0 []) as [vs' Hv].
  assert (Hvs : visited (KE b) KS d0 [] (HOp <$> kops) = kd b :: cd_vs b) by (unfold cd_vs; rewrite Hv; reflexivity).
  rewrite <- Hvs. apply xrun_visited.
  - repeat (apply Forall_cons; split); [..|by apply Forall_nil]; simpl; try done; intros c Hc; apply KS_cells in Hc as [Hc _]; done.
  - apply x_start. intros t k. unfold getrow, tab. simpl. by rewrite lookup_empty.
Qed.
Definition cd_ca (b : backend) : gmap Z Z := (cached_read cd_fn ∅ (kd b) "doc" "ck" 1).2.
Definition cd_end (b : backend) : db := hstep (KE b) KS (kd b) (HOp op_author).
Fixpoint key_followsb (fn : string → string → db → Z → Z) (t c : string) (k : Z) (vs : list db) : bool :=
  match vs with
  | d' :: (d :: _) as rest => (negb (bool_decide (cellv d' t k c = cellv d t k c)) || bool_decide (fn t c d' k = fn t c d k)) && key_followsb fn t c k rest
  | _ => true
  end.
Lemma key_followsb_spec fn t c k vs : key_followsb fn t c k vs = true → key_follows fn t c k vs.
Proof.
  induction vs as [|d' [|d vs] IH]; [done|done|]. cbn [key_followsb key_follows]. intros [H1 H2]%andb_true_iff. split; [|by apply IH].
  intros Heq. rewrite bool_decide_eq_true_2 in H1 by done. by apply bool_decide_eq_true in H1.
Qed.
Example cached_db_ex b : xrun KS rand0 (KE b) cd_fn (cd_end b :: kd b :: cd_vs b) (cd_ca b) ∧ key_cell KS "doc" "ck" ∧
  (cached_read cd_fn ∅ (kd b) "doc" "ck" 1).1 = Some 1 ∧ (cached_read cd_fn (cd_ca b) (kd b) "doc" "ck" 1) = (Some 1, cd_ca b) ∧
  (cached_read cd_fn (cd_ca b) (cd_end b) "doc" "ck" 1).1 = Some 2 ∧ bool_decide (cd_ca b = ∅) = false ∧
  key_follows cd_fn "doc" "ck" 1 (cd_end b :: kd b :: cd_vs b).
Proof.
  assert (Hck : key_cell KS "doc" "ck") by (exists KDoc, f_key, kdeps; split; [by left|]; split; [do 2 right; left|done]).
  split; [|split; [done|split; [comp|split; [|split; [comp|split; [comp|]]]]]].
  - apply (x_step KS rand0 (KE b) cd_fn (kd b) (cd_vs b) (cd_ca b) (HOp op_author) []); [| |by apply Forall_nil].
    + apply (x_read KS rand0 (KE b) cd_fn (kd b) (cd_vs b) ∅ "doc" "ck" 1); [|done].
      apply kd_run.
    + simpl. intros r c Hc. apply KS_cells in Hc as [Ht _]. discriminate Ht.
  - destruct b; vm_compute; reflexivity.
  - apply key_followsb_spec. comp.
Qed.
(** A statement on the row itself keeps the key until the flush saves the row: the attribute
    shows the old title. *)
Definition ct_fn (t c : string) (d : db) (k : Z) : Z :=
  if bool_decide (cellv d "doc" k "title" = Some (VText "u")) then 2 else 1.
Definition ct_op : hop := HOp (OUpdate "doc" [1] (λ r, <["title" := VText "u"]> r)).
Theorem cached_current_refuted : ∀ b, ∃ S E fn d vs ca t c k w, mk_env b S rand0 true 10 = Ok E ∧ wf_schema S ∧ names_apart S ∧
  xrun S rand0 E fn (d :: vs) ca ∧ key_cell S t c ∧ (cached_read fn ca d t c k).1 = Some w ∧ w ≠ fn t c d k.
Proof.
  intros b. exists KS, (KE b), ct_fn, (hstep (KE b) KS (kd b) ct_op), (kd b :: cd_vs b), (cached_read ct_fn ∅ (kd b) "doc" "ck" 1).2, "doc", "ck", 1, 1.
  split; [apply KE_ok|]. split; [exact (tk_wf _ _ _ _ (KS_trackable b))|]. split; [exact (tk_names _ _ _ _ (KS_trackable b))|].
  assert (Hck : key_cell KS "doc" "ck") by (exists KDoc, f_key, kdeps; split; [by left|]; split; [do 2 right; left|done]).
  split; [|split; [done|split; [comp|]]].
  - apply (x_step KS rand0 (KE b) ct_fn (kd b) (cd_vs b) _ ct_op []); [| |by apply Forall_nil].
    + apply (x_read KS rand0 (KE b) ct_fn (kd b) (cd_vs b) ∅ "doc" "ck" 1); [|done]. apply kd_run.
    + simpl. intros r c Hc. apply KS_cells in Hc as [_ ->]. by rewrite col_insert_ne.
  - assert (H : bool_decide (ct_fn "doc" "ck" (hstep (KE b) KS (kd b) ct_op) 1 = 2) = true) by comp.
    apply bool_decide_eq_true in H. by rewrite H.
Qed.
Print Assumptions cached_current_refuted.
