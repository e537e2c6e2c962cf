(** * Claims on requests (C90). *)
From stdpp Require Import relations.
From Verif Require Import Base BaseLemmas Schema TrigSet Gen Exec Orm Flush Machine Spec SpecAgg SpecOrder SpecSave GenLemmas Conditions Settle Hist Sessions Check ExForum ExBad ExAgg CheckOrder ExTree CheckSave ExSave ExModes DaemonData ExDaemonData Request ExRequest.

(** Whatever the requests do, with the middleware, the setting, both or none of them, and
    however they end: every row is right or marked afterwards. *)
Theorem requests_lose_nothing b S rand imm depth E rank cf d d' :
  mk_env b S rand imm depth = Ok E → flushable S rank imm →
  links_ok S d → consistent_or_marked S d → no_self_relation S d →
  rtc (serves E S cf) d d' → consistent_or_marked S d'.
Proof. exact (λ HE Hfl L C N Hs, proj1 (proj2 (serves_inv b S rand imm depth E rank HE Hfl cf d d' Hs (conj L (conj C N))))). Qed.
Print Assumptions requests_lose_nothing.
Example requests_lose_nothing_ex b : mk_env b (QS false) rand0 true 10 = Ok (QY b) ∧ flushable (QS false) q_rank true ∧ finv (QS false) (qd b false) ∧
  serves (QY b) (QS false) mw_only (qd b false) (sv_end (rq b mw_only)) ∧ ¬ consistent (QS false) (sv_end (rq b mw_only)).
Proof.
  split; [apply QE_ok|]. split; [apply QS_flushable|]. split; [apply qd_inv|]. split; [|apply rq_wrong].
  eexists _, _, _, _, (rq b mw_only). split; [apply rq_ok; by left|]. split; [apply rq_noself; by left|]. split; [apply rq_noself; by left|reflexivity].
Qed.

(** If the middleware neither logs nor raises anything, everything is right when it is done;
    with the setting and nothing raised everything is right at the end of the request,
    what is written after the middleware included. *)
Theorem request_leaves_all_right b S rand imm depth E rank cf ord n view late d sv :
  mk_env b S rand imm depth = Ok E → flushable S rank imm → request E S cf ord n view late d = Some sv →
  links_ok S d → consistent_or_marked S d → no_self_relation S d → no_self_relation S (sv_view sv) → no_self_relation S (sv_late sv) →
  (rc_mw cf = true → rp_log (sv_reply sv) = None → rp_mw (sv_reply sv) = None → consistent S (sv_mw sv) ∧ d_dirty (sv_mw sv) = []) ∧
  (rc_signal cf = true → rp_close (sv_reply sv) = None → consistent S (sv_end sv) ∧ d_dirty (sv_end sv) = []).
Proof. exact (λ HE Hfl H L C N, request_right b S rand imm depth E rank HE Hfl cf ord n view late d sv H (conj L (conj C N))). Qed.
Print Assumptions request_leaves_all_right.
Example request_leaves_all_right_ex b cf : cf ∈ [mw_only; signal_only] →
  mk_env b (QS false) rand0 true 10 = Ok (QY b) ∧ flushable (QS false) q_rank true ∧ finv (QS false) (qd b false) ∧
  request (QY b) (QS false) cf id_ord 10 [rename 3 "n"] [rename 2 "w"] (qd b false) = Some (rq b cf) ∧
  no_self_relation (QS false) (sv_view (rq b cf)) ∧ no_self_relation (QS false) (sv_late (rq b cf)) ∧
  sv_reply (rq b cf) = Reply None None None None None ∧
  cellv (qd b false) "forum" 3 "path" = Some (VText "/a/b/c/") ∧ cellv (sv_mw (rq b mw_only)) "forum" 3 "path" = Some (VText "/a/b/n/") ∧
  cellv (sv_end (rq b signal_only)) "forum" 3 "path" = Some (VText "/a/w/n/").
Proof.
  intros Hcf. split; [apply QE_ok|]. split; [apply QS_flushable|]. split; [apply qd_inv|]. split; [by apply rq_ok|].
  split; [by apply rq_noself|]. split; [by apply rq_noself|]. split; [by apply rq_reply|]. destruct b; vm_compute; split_and!; reflexivity.
Qed.

(** "With the middleware the data are right after every request": refuted.  What is written
    after process_response - by a middleware listed before it or by a streaming response -
    waits for the next request, although nothing failed. *)
Theorem middleware_request_right_refuted : ∀ b, ∃ S rank cf ord n view late d sv,
  mk_env b S rand0 true 10 = Ok (env_of b S true) ∧ flushable S rank true ∧ consistent S d ∧ d_dirty d = [] ∧ no_self_relation S d ∧
  rc_mw cf = true ∧ request (env_of b S true) S cf ord n view late d = Some sv ∧
  no_self_relation S (sv_view sv) ∧ no_self_relation S (sv_late sv) ∧ sv_reply sv = Reply None None None None None ∧ ¬ consistent S (sv_end sv).
Proof.
  exact (λ b, ex_intro _ (QS false) (ex_intro _ q_rank (ex_intro _ mw_only (ex_intro _ id_ord (ex_intro _ 10%nat (ex_intro _ [rename 3 "n"] (ex_intro _ [rename 2 "w"]
    (ex_intro _ (qd b false) (ex_intro _ (rq b mw_only) (conj (QE_ok b false) (conj QS_flushable (conj (qd_consistent b false) (conj (qd_clean b) (conj (qd_noself b false) (conj eq_refl
    (conj (rq_ok b mw_only (elem_of_list_here _ _)) (conj (proj1 (rq_noself b mw_only (elem_of_list_here _ _))) (conj (proj2 (rq_noself b mw_only (elem_of_list_here _ _)))
    (conj (rq_reply b mw_only (elem_of_list_here _ _)) (rq_wrong b)))))))))))))))))))).
Qed.
Print Assumptions middleware_request_right_refuted.

(** The client gets the response of the view unless the view raised, or the middleware is
    listed and flush raised something else than a DatabaseError.  The setting never
    changes the response.  A failing view in a transaction leaves nothing behind. *)
Theorem request_answer E S cf ord n view late d sv : request E S cf ord n view late d = Some sv →
  (answered (sv_reply sv) ↔ (run_ops E S view d).2 = None ∧
     (rc_mw cf = true → ∀ d' e, flush E S ord n (sv_view sv) = (d', Raised e) → is_database_error e = true)) ∧
  (rc_atomic cf = true → rp_view (sv_reply sv) ≠ None → sv_view sv = d) ∧
  (rp_view (sv_reply sv) = None → sv_view sv = (run_ops E S view d).1).
Proof. exact (request_answered E S cf ord n view late d sv). Qed.
Print Assumptions request_answer.
Example request_answer_ex b : request (RE b) RA mw_only rev_ord 5 [] [] (ra_d b) = Some (ra_rq b) ∧ sv_reply (ra_rq b) = Reply None None (Some (EUser 7)) None None ∧
  request (QY b) (QS false) mw_only id_ord 10 [rename 3 "n"] [rename 2 "w"] (qd b false) = Some (rq b mw_only) ∧ answered (sv_reply (rq b mw_only)).
Proof.
  split; [apply ra_rq_ok|]. split; [apply ra_rq_reply|]. split; [apply rq_ok; by left|]. rewrite (rq_reply b mw_only (elem_of_list_here _ _)). done.
Qed.

(** One marked row whose function raises spoils all later requests that write nothing: with
    the middleware each of them logs an error or fails, with the setting closing fails, and
    the row stays as it is. *)
Theorem raising_row_spoils_requests b S rand imm depth E cf m k r0 d d' sv :
  wf_schema S → mk_env b S rand imm depth = Ok E → m ∈ s_models S → (∀ r, m_truthy m r = true) →
  poison m k r0 → poisoned m k r0 d → rtc (λ x y, ∃ sv, reading E S cf x sv ∧ sv_end sv = y) d d' → reading E S cf d' sv →
  poisoned m k r0 (sv_end sv) ∧ (rc_mw cf = true → rp_log (sv_reply sv) ≠ None ∨ rp_mw (sv_reply sv) ≠ None) ∧
  (rc_signal cf = true → rp_close (sv_reply sv) ≠ None).
Proof.
  exact (λ Hwf HE Hm Ht Hp Hd Hs, reading_poison b S rand imm depth E Hwf HE m k r0 Hm Ht Hp cf d' sv
    (readings_poison b S rand imm depth E Hwf HE m k r0 Hm Ht Hp cf d d' Hd Hs)).
Qed.
Print Assumptions raising_row_spoils_requests.
Example raising_row_spoils_requests_ex b : wf_schema RA ∧ mk_env b RA rand0 true 10 = Ok (RE b) ∧ RaA ∈ s_models RA ∧
  poison RaA 1 (ra_row b) ∧ poisoned RaA 1 (ra_row b) (ra_d b) ∧ reading (RE b) RA mw_only (ra_d b) (ra_rq b) ∧
  sv_reply (ra_rq b) = Reply None None (Some (EUser 7)) None None.
Proof.
  split; [apply RA_flushable|]. split; [apply RE_ok|]. split; [by left|]. split; [apply ra_poison|]. split; [apply ra_poisoned|].
  split; [exists rev_ord, 5%nat; apply ra_rq_ok|apply ra_rq_reply].
Qed.
