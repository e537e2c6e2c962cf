(** * Runs of interleaved saves, on the schema [QS] of ExSave.v. *)
From stdpp Require Import relations.
From Verif Require Import Base BaseLemmas Schema TrigSet Gen Exec Orm Flush Spec SpecAgg SpecOrder SpecSave GenLemmas Conditions Settle Hist AggOps AggDrift AggProps Check ExForum ExBad ExAgg CheckOrder ExTree CheckSave ExSave SaveModes SaveModesAgg ExModes SaveRace.

Notation rstate := (db * list (option hold))%type.
(** The steps of SaveRace.v as a function. *)
Inductive act := AOp (o : op) | ABody (mk : marker) | ABegin (i : nat) (m : string) (k : Z) (r : row) | AField (i : nat) | AWrite (i : nat).
Definition act_step (E : env) (S : schema) (s : rstate) (x : act) : res rstate :=
  match x with
  | AOp o => let* d := run_op E S o s.1 in Ok (d, s.2)
  | ABody mk => let* d := process E S mk s.1 in Ok (d, s.2)
  | ABegin i mn k r =>
      match find_model S mn, s.2 !! i with
      | Some m, Some None => let* d := m2m_pre_save E m (Some k) r s.1 in Ok (d, <[i := Some (Hold m k r (m_fields m))]> s.2)
      | _, _ => Err EValue
      end
  | AField i =>
      match s.2 !! i with
      | Some (Some (Hold m k r (f :: fs))) =>
          let* p := presave_field E m false (Some k) (s.1, r) f in Ok (p.1, <[i := Some (Hold m k p.2 fs)]> s.2)
      | _ => Err EValue
      end
  | AWrite i =>
      match s.2 !! i with
      | Some (Some (Hold m k r [])) =>
          match getrow s.1 (m_table m) k with
          | Some _ => let* d := exec E (m_table m) [upd_all k r] s.1 in Ok (d, <[i := None]> s.2)
          | None => Err EValue
          end
      | _ => Err EValue
      end
  end.
Definition act_ok (P : op → Prop) (x : act) : Prop := match x with AOp o => P o | _ => True end.
Lemma act_sound E S P s x s' : act_ok P x → act_step E S s x = Ok s' → race_step E S P s s'.
Proof.
  destruct s as [d hs]. destruct x as [o|mk|i mn k r|i|i]; simpl act_step; intros Hx H.
  - inv_bind H. injection H as <-. by eapply rs_op.
  - inv_bind H. injection H as <-. by eapply rs_body.
  - destruct (find_model S mn) as [m|] eqn:Hm; [|done]. destruct (hs !! i) as [[|]|] eqn:Hi; [done| |done]. inv_bind H. injection H as <-.
    eapply rs_begin; [by eapply find_model_in|done|done].
  - destruct (hs !! i) as [[[m k r [|f fs]]|]|] eqn:Hi; try done. inv_bind H. injection H as <-. by eapply rs_field.
  - destruct (hs !! i) as [[[m k r [|]]|]|] eqn:Hi; try done. destruct (getrow d (m_table m) k) eqn:Hr; [|done]. inv_bind H. injection H as <-.
    eapply rs_write; [done|eauto|done].
Qed.
(** A run, checked along the way. *)
Definition act_next (E : env) (S : schema) (s : rstate) (x : act) : rstate := match act_step E S s x with Ok s' => s' | Err _ => s end.
Definition acts_run (E : env) (S : schema) (s : rstate) (xs : list act) : rstate := foldl (act_next E S) s xs.
Fixpoint acts_check (E : env) (S : schema) (Q : rstate → rstate → bool) (s : rstate) (xs : list act) : bool :=
  match xs with
  | [] => true
  | x :: xs' => okb (act_step E S s x) && Q s (act_next E S s x) && acts_check E S Q (act_next E S s x) xs'
  end.
Lemma acts_sound E S P Q (R : rstate → rstate → Prop) xs : (∀ s s', Q s s' = true → R s s') → ∀ s, Forall (act_ok P) xs → acts_check E S Q s xs = true →
  rtc (λ s s', race_step E S P s s' ∧ R s s') s (acts_run E S s xs).
Proof.
  intros HQ. induction xs as [|x xs IH]; intros s Hxs H; [done|]. apply Forall_cons in Hxs as [Hx Hxs].
  cbn [acts_check] in H. apply andb_prop in H as [[H1 H2]%andb_prop H3]. eapply rtc_l; [|apply IH; [done|exact H3]]. split; [|by apply HQ].
  unfold act_next. destruct (act_step E S s x) eqn:Hs; [|done]. by eapply act_sound.
Qed.
Definition apartb (m : model) (a : agg) (rel : model) (s s' : rstate) : bool :=
  forallb (λ h : option hold, match h with
    | Some h => negb (bool_decide (m_name (h_model h) = m_name m)) || bool_decide (agg_value s'.1 rel a (h_key h) = agg_value s.1 rel a (h_key h))
    | None => true end) s'.2.
Lemma apartb_spec m a rel s s' : apartb m a rel s s' = true → apart m a rel s s'.
Proof.
  intros H i k r fs Hi. unfold apartb in H. rewrite forallb_forall in H. specialize (H (Some (Hold m k r fs))). simpl in H.
  rewrite bool_decide_true in H by done. apply (bool_decide_eq_true_1 _). apply H. apply elem_of_list_In. by eapply elem_of_list_lookup_2.
Qed.
Lemma rtc_fst {A} (R Q : A → A → Prop) x y : rtc (λ s s', R s s' ∧ Q s s') x y → rtc R x y.
Proof. induction 1 as [|a b c [H _] _ IH]; [done|]. by eapply rtc_l. Qed.

Definition QX (b : backend) : env := env_of b (QS false) true.
Definition q_post (j : Z) : op := OSave "Post" None (rowof [("forum_id", VInt j); ("text", VText "n")]).
Definition q_start (b : backend) : rstate := (qd b false, [None; None]).
Definition q_loads (b : backend) (k : Z) : row := <["title" := VText "w"]> (default ∅ (getrow (qd b false) "forum" k)).
(** A post is added to forum 2 while forum 2 is being saved. *)
Definition q_race (b : backend) : list act :=
  [ABegin 0 "Forum" 2 (q_loads b 2); AField 0; AField 0; AField 0; AField 0; AOp (q_post 2); AWrite 0].
(** Two saves interleaved with each other, with new posts in a third forum and with a body of flush. *)
Definition q_apart (b : backend) : list act :=
  [ABegin 0 "Forum" 2 (q_loads b 2); ABegin 1 "Forum" 1 (q_loads b 1); AField 0; AField 1; AField 1; AField 0; AField 0; AOp (q_post 3); AField 1; AField 0;
   AWrite 0; AOp (q_post 2); ABody (marker_of QPost 5); AField 1; AOp (q_post 3); AWrite 1].
Lemma q_race_ops b (P : op → Prop) : P (q_post 2) → Forall (act_ok P) (q_race b).
Proof. intros. repeat constructor. done. Qed.
Lemma q_apart_ops b (P : op → Prop) : P (q_post 2) → P (q_post 3) → Forall (act_ok P) (q_apart b).
Proof. intros. repeat constructor; done. Qed.
Lemma q_race_run b : acts_check (QX b) (QS false) (λ _ _, true) (q_start b) (q_race b) = true.
Proof. destruct b; vm_compute; reflexivity. Qed.
Lemma q_apart_run b : acts_check (QX b) (QS false) (λ s s', apartb QForum q_count QPost s s' && no_self_relationb (QS false) s'.1) (q_start b) (q_apart b) = true.
Proof. destruct b; vm_compute; reflexivity. Qed.
Lemma q_start_db b : (q_start b).1 = qd b false. Proof. reflexivity. Qed.
Lemma q_start_marked b : consistent_or_marked (QS false) (q_start b).1.
Proof. rewrite q_start_db. intros m k r Hm Hr. right. intros f Hf. exact (qd_consistent b false m k r f Hm Hf Hr). Qed.
Lemma q_start_noself b : no_self_relation (QS false) (q_start b).1.
Proof. rewrite q_start_db. apply qd_noself. Qed.
Lemma q_start_exact b : agg_exact QForum q_cf q_count QPost (q_start b).1.
Proof. apply agg_exactb_spec. destruct b; vm_compute; reflexivity. Qed.
Lemma q_start_fk b : fk_valid QForum q_count QPost (q_start b).1.
Proof.
  assert (H : forallb (λ p : Z * row, match col p.2 "forum_id" with VInt k => bool_decide (is_Some (getrow (q_start b).1 "forum" k)) | _ => true end)
    (map_to_list (tab (q_start b).1 "post")) = true) by (destruct b; vm_compute; reflexivity).
  rewrite forallb_forall in H. intros j r k Hr Hc. specialize (H (j, r)). cbn [snd] in H.
  change (ag_fk q_count) with "forum_id" in Hc. rewrite Hc in H.
  apply (bool_decide_eq_true_1 _). apply H. apply elem_of_list_In. by apply elem_of_map_to_list.
Qed.
Lemma q_start_idle b i h : (q_start b).2 !! i = Some h → h = None.
Proof. unfold q_start. cbn [snd]. intros Hi. by destruct i as [|[|]]; simpl in Hi; simplify_eq. Qed.
Definition q_after (b : backend) : rstate := acts_run (QX b) (QS false) (q_start b) (q_apart b).
Lemma q_after_steps b (P : op → Prop) : P (q_post 2) → P (q_post 3) →
  rtc (λ x y, race_step (QX b) (QS false) P x y ∧ (apart QForum q_count QPost x y ∧ no_self_relation (QS false) y.1)) (q_start b) (q_after b).
Proof.
  intros H2 H3. unfold q_after. eapply acts_sound; [|by apply q_apart_ops|apply q_apart_run].
  intros x y [Ha Hn]%andb_prop. split; [by apply apartb_spec|by apply no_self_relationb_spec].
Qed.
Definition q_raced (b : backend) : rstate := acts_run (QX b) (QS false) (q_start b) (q_race b).
Lemma q_raced_steps b (P : op → Prop) : P (q_post 2) → rtc (race_step (QX b) (QS false) P) (q_start b) (q_raced b).
Proof. intros H. eapply rtc_fst. unfold q_raced. eapply (acts_sound _ _ _ _ (λ _ _, True)); [done|by apply q_race_ops|apply q_race_run]. Qed.
Lemma q_raced_idle b i h : (q_raced b).2 !! i = Some h → h = None.
Proof.
  assert (Hn : forallb (λ h : option hold, match h with None => true | _ => false end) (q_raced b).2 = true) by (destruct b; vm_compute; reflexivity).
  intros Hi. rewrite forallb_forall in Hn. specialize (Hn h). destruct h; [|done]. exfalso. discriminate Hn.
  apply elem_of_list_In. by eapply elem_of_list_lookup_2.
Qed.
Lemma q_raced_wrong b : ¬ agg_exact QForum q_cf q_count QPost (q_raced b).1.
Proof.
  intros H%agg_exactb_spec. assert (Hn : agg_exactb QForum q_cf q_count QPost (q_raced b).1 = false) by (destruct b; vm_compute; reflexivity).
  rewrite Hn in H. discriminate H.
Qed.
Lemma q_raced_low b : ∃ r, getrow (q_raced b).1 (m_table QForum) 2 = Some r ∧ col r (f_col q_cf) = VInt 2.
Proof.
  assert (Hv : cellv (q_raced b).1 "forum" 2 "post_count" = Some (VInt 2)) by (destruct b; vm_compute; reflexivity).
  unfold cellv in Hv. change (m_table QForum) with "forum". change (f_col q_cf) with "post_count". generalize dependent (getrow (q_raced b).1 "forum" 2). intros [r|] Hv; [|done].
  exists r. split; [done|]. by injection Hv.
Qed.
Lemma q_raced_true b : agg_value (q_raced b).1 QPost q_count 2 = 3.
Proof. destruct b; vm_compute; reflexivity. Qed.
Lemma off_by_one b hs (d : db) : (∃ r, getrow d (m_table QForum) 2 = Some r ∧ col r (f_col q_cf) = VInt 2) → agg_value d QPost q_count 2 = 3 →
  Forall (leaves_agg QForum q_cf 2) hs → ∃ r', getrow (foldl (hstep (QX b) (QS false)) d hs) (m_table QForum) 2 = Some r' ∧
    col r' (f_col q_cf) = VInt (agg_value (foldl (hstep (QX b) (QS false)) d hs) QPost q_count 2 - 1).
Proof.
  intros (r & Hr & Hv) Ha Hhs. destruct (QS_flushable).
  destruct (hist_error b (QS false) rand0 10 (QX b) fl_wf fl_names true QForum q_cf q_count QPost 2 hs d r 2 (QE_ok b false) (QS_count false) Hhs Hr Hv) as (r' & Hr' & Hv').
  exists r'. split; [exact Hr'|]. rewrite Hv', Ha. f_equal. lia.
Qed.
Definition q_read (b : backend) : db * row := ok_pair (presave_all (QX b) QForum false (Some 2) (qd b false) (q_loads b 2)).
Lemma q_read_ok b : presave_all (QX b) QForum false (Some 2) (qd b false) (q_loads b 2) = Ok (q_read b).
Proof. apply ok_pair_ok. destruct b; vm_compute; reflexivity. Qed.
Definition q_late (b : backend) : db := step (QX b) (QS false) (q_read b).1 (q_post 2).
Definition q_written (b : backend) : db := ok_db (exec (QX b) (m_table QForum) [upd_all 2 (q_read b).2] (q_late b)).
Lemma q_written_ok b : exec (QX b) (m_table QForum) [upd_all 2 (q_read b).2] (q_late b) = Ok (q_written b).
Proof. apply ok_db_ok. destruct b; vm_compute; reflexivity. Qed.
