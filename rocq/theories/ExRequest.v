(** * Cases for the claims on requests, on the schemas [QS] and [RA] of ExSave.v. *)
From stdpp Require Import relations.
From Verif Require Import Base BaseLemmas Schema TrigSet Gen Exec Orm Flush Machine Spec SpecAgg SpecOrder SpecSave GenLemmas Conditions Settle Hist Sessions Check ExForum ExBad ExAgg CheckOrder ExTree CheckSave ExSave ExModes DaemonData ExDaemonData Request.

Definition rename (k : Z) (s : string) : op := OUpdate "forum" [k] (λ r, <["title" := VText s]> r).
Definition mw_only : reqconf := Conf true false false.
Definition signal_only : reqconf := Conf false true false.
Definition no_served : served := Served d0 d0 d0 d0 (Reply None None None None None).
(** The view renames forum 3, the streamed response forum 2, its parent. *)
Definition rq (b : backend) (cf : reqconf) : served := default no_served (request (QY b) (QS false) cf id_ord 10 [rename 3 "n"] [rename 2 "w"] (qd b false)).
Lemma rq_ok b cf : cf ∈ [mw_only; signal_only] → request (QY b) (QS false) cf id_ord 10 [rename 3 "n"] [rename 2 "w"] (qd b false) = Some (rq b cf).
Proof.
  intros Hcf. assert (H : match request (QY b) (QS false) cf id_ord 10 [rename 3 "n"] [rename 2 "w"] (qd b false) with Some _ => true | None => false end = true).
  { apply elem_of_cons in Hcf as [->|Hcf]; [|apply elem_of_list_singleton in Hcf as ->]; destruct b; vm_compute; reflexivity. }
  unfold rq. by destruct (request (QY b) (QS false) cf id_ord 10 [rename 3 "n"] [rename 2 "w"] (qd b false)).
Qed.
Definition reply_ok (rp : reply) : bool := match rp with Reply None None None None None => true | _ => false end.
Lemma reply_ok_spec rp : reply_ok rp = true → rp = Reply None None None None None.
Proof. by destruct rp as [[] [] [] [] []]. Qed.
Lemma rq_reply b cf : cf ∈ [mw_only; signal_only] → sv_reply (rq b cf) = Reply None None None None None.
Proof.
  intros Hcf. apply reply_ok_spec. apply elem_of_cons in Hcf as [->|Hcf]; [|apply elem_of_list_singleton in Hcf as ->]; destruct b; vm_compute; reflexivity.
Qed.
Lemma rq_noself b cf : cf ∈ [mw_only; signal_only] → no_self_relation (QS false) (sv_view (rq b cf)) ∧ no_self_relation (QS false) (sv_late (rq b cf)).
Proof.
  intros Hcf. split; apply no_self_relationb_spec; (apply elem_of_cons in Hcf as [->|Hcf]; [|apply elem_of_list_singleton in Hcf as ->]; destruct b; vm_compute; reflexivity).
Qed.
(** With the middleware forum 2 does not have its new path at the end. *)
Definition rq_row (b : backend) : row := default ∅ (getrow (sv_end (rq b mw_only)) "forum" 2).
Lemma rq_row_ok b : getrow (sv_end (rq b mw_only)) (m_table QForum) 2 = Some (rq_row b).
Proof.
  assert (H : match getrow (sv_end (rq b mw_only)) "forum" 2 with Some _ => true | None => false end = true) by (destruct b; vm_compute; reflexivity).
  change (m_table QForum) with "forum". unfold rq_row. by destruct (getrow (sv_end (rq b mw_only)) "forum" 2).
Qed.
Lemma rq_stale b : ¬ row_consistent QForum (sv_end (rq b mw_only)) 2 (rq_row b) (cbf "path" "Forum" cb_path [t_parent] []).
Proof. apply staleb3_spec. destruct b; vm_compute; reflexivity. Qed.
Lemma rq_wrong b : ¬ consistent (QS false) (sv_end (rq b mw_only)).
Proof. intros H. apply (rq_stale b). apply H; [by left|do 3 right; by left|exact (rq_row_ok b)]. Qed.

Lemma qd_clean b : d_dirty (qd b false) = [].
Proof. destruct b; vm_compute; reflexivity. Qed.

(** A view that only reads, with a marked row whose function raises: status 500. *)
Definition ra_rq (b : backend) : served := default no_served (request (RE b) RA mw_only rev_ord 5 [] [] (ra_d b)).
Lemma ra_rq_ok b : request (RE b) RA mw_only rev_ord 5 [] [] (ra_d b) = Some (ra_rq b).
Proof.
  assert (H : match request (RE b) RA mw_only rev_ord 5 [] [] (ra_d b) with Some _ => true | None => false end = true) by (destruct b; vm_compute; reflexivity).
  unfold ra_rq. by destruct (request (RE b) RA mw_only rev_ord 5 [] [] (ra_d b)).
Qed.
Lemma ra_rq_reply b : sv_reply (ra_rq b) = Reply None None (Some (EUser 7)) None None.
Proof. destruct b; vm_compute; reflexivity. Qed.
