(** * A request: the view, the middleware, what is written after it, and the end of the request.

    Models denorm/middleware.py:21-26 and denorm/__init__.py:5-15 inside Django's request
    cycle: the view; [process_response] of DenormMiddleware; what runs after it, that is
    [process_response] of the middlewares listed before it and the iterator of a streaming
    response; [response.close()], which sends request_finished. *)
From stdpp Require Import relations.
From Verif Require Import Base BaseLemmas Schema TrigSet Gen Exec Orm Flush Machine Spec Engine GenLemmas Marking Conditions Invariant Settle Sessions Frame Hist Passes DaemonData.

(** The settings: whether DenormMiddleware is listed, DENORM_FLUSH_AFTER_REQUEST, and whether the
    view runs in one transaction (ATOMIC_REQUESTS). *)
Record reqconf := Conf { rc_mw : bool; rc_signal : bool; rc_atomic : bool }.
(** What became of it: the exceptions that left the view, process_response, the late writes and
    [close()], and what the middleware wrote into the log.  Django turns an exception of the
    view or of a middleware into a response with status 500 and goes on. *)
Record reply := Reply {
  rp_view : option exn;
  rp_log : option exn;
  rp_mw : option exn;
  rp_late : option exn;
  rp_close : option exn
}.
(** The client gets the response of the view. *)
Definition answered (rp : reply) : Prop := rp_view rp = None ∧ rp_mw rp = None.
(** The database after the view, after the middleware, after the late writes and at the end. *)
Record served := Served { sv_view : db; sv_mw : db; sv_late : db; sv_end : db; sv_reply : reply }.

(** Operations up to the first one that raises. *)
Fixpoint run_ops (E : env) (S : schema) (os : list op) (d : db) : db * option exn :=
  match os with
  | [] => (d, None)
  | o :: os' => match run_op E S o d with Ok d' => run_ops E S os' d' | Err e => (d, Some e) end
  end.
(** The view: in one transaction its exception undoes everything it wrote. *)
Definition run_view (E : env) (S : schema) (cf : reqconf) (os : list op) (d : db) : db * option exn :=
  match run_ops E S os d with
  | (d', Some e) => (if rc_atomic cf then d else d', Some e)
  | p => p
  end.
(** process_response, middleware.py:21-26: the database, the line in the log, the exception.
    Nothing if the middleware is not listed; [None]: flush is still running. *)
Definition run_mw (E : env) (S : schema) (cf : reqconf) (ord : db → list marker → list marker) (n : nat) (d : db) : option (db * option exn * option exn) :=
  if rc_mw cf then
    match flush E S ord n d with
    | (d', Done) => Some (d', None, None)
    | (d', Raised e) => Some (if is_database_error e then (d', Some e, None) else (d', None, Some e))
    | (_, Running) => None
    end
  else Some (d, None, None).
(** do_flush, __init__.py:10-15: connected only if the setting is there and true; an exception
    leaves [close()] ([Signal.send] catches nothing). *)
Definition run_close (E : env) (S : schema) (cf : reqconf) (ord : db → list marker → list marker) (n : nat) (d : db) : option (db * option exn) :=
  if rc_signal cf then
    match flush E S ord n d with
    | (d', Done) => Some (d', None)
    | (d', Raised e) => Some (d', Some e)
    | (_, Running) => None
    end
  else Some (d, None).
Definition request (E : env) (S : schema) (cf : reqconf) (ord : db → list marker → list marker) (n : nat)
    (view late : list op) (d : db) : option served :=
  let v := run_view E S cf view d in
  match run_mw E S cf ord n v.1 with
  | None => None
  | Some (dm, lg, me) =>
      let l := run_ops E S late dm in
      match run_close E S cf ord n l.1 with
      | None => None
      | Some (de, ce) => Some (Served v.1 dm l.1 de (Reply v.2 lg me l.2 ce))
      end
  end.

(** The middleware as in Flush.v. *)
Lemma run_mw_response {R} E S cf ord n d (resp : R) : rc_mw cf = true →
  match run_mw E S cf ord n d with
  | Some (d', lg, None) => process_response E S ord n d resp = Some (d', inl resp)
  | Some (d', lg, Some e) => process_response E S ord n d resp = Some (d', inr e)
  | None => process_response E S ord n d resp = None
  end.
Proof.
  intros Hm. unfold run_mw, process_response. rewrite Hm. destruct (flush E S ord n d) as [d' [|e|]]; try done. by destruct (is_database_error e).
Qed.

(** One request of a sequence; no row may be related to itself when a flush starts. *)
Definition serves (E : env) (S : schema) (cf : reqconf) (d d' : db) : Prop := ∃ ord n view late sv,
  request E S cf ord n view late d = Some sv ∧ no_self_relation S (sv_view sv) ∧ no_self_relation S (sv_late sv) ∧ sv_end sv = d'.

Section safe.
Context (b : backend) (S : schema) (rand : nat → Z) (imm : bool) (depth : nat) (E : env) (rank : string → nat).
Context (HE : mk_env b S rand imm depth = Ok E) (Hfl : flushable S rank imm).
Lemma run_ops_inv os : ∀ d, links_ok S d → consistent_or_marked S d →
  links_ok S (run_ops E S os d).1 ∧ consistent_or_marked S (run_ops E S os d).1.
Proof.
  induction os as [|o os IH]; intros d L C; [done|]. cbn [run_ops]. destruct (run_op E S o d) as [d'|e] eqn:Ho; [|done].
  destruct (fop_inv b S rand imm depth E rank HE Hfl o d d' Ho L C). by apply IH.
Qed.
Lemma run_view_inv cf os d : links_ok S d → consistent_or_marked S d →
  links_ok S (run_view E S cf os d).1 ∧ consistent_or_marked S (run_view E S cf os d).1.
Proof.
  intros L C. unfold run_view. pose proof (run_ops_inv os d L C) as H. destruct (run_ops E S os d) as [d' [e|]]; [|done].
  by destruct (rc_atomic cf).
Qed.
Lemma request_stages cf ord n view late d sv : request E S cf ord n view late d = Some sv →
  finv S d → no_self_relation S (sv_view sv) → no_self_relation S (sv_late sv) →
  finv S (sv_view sv) ∧ finv S (sv_mw sv) ∧ finv S (sv_late sv) ∧ finv S (sv_end sv).
Proof.
  intros H (L & C & N) N1 N2. unfold request in H. destruct (run_mw E S cf ord n (run_view E S cf view d).1) as [[[dm lg] me]|] eqn:Hm; [|done].
  destruct (run_close E S cf ord n (run_ops E S late dm).1) as [[de ce]|] eqn:Hc; [|done]. injection H as <-. simpl in *.
  destruct (run_view_inv cf view d L C) as [L1 C1]. assert (I1 : finv S (run_view E S cf view d).1) by done.
  assert (I2 : finv S dm).
  { unfold run_mw in Hm. destruct (rc_mw cf); [|by injection Hm as <- _ _].
    destruct (flush E S ord n _) as [d' [|e|]] eqn:Hf; [injection Hm as <- _ _|destruct (is_database_error e); injection Hm as <- _ _|done];
      by eapply fflush_inv. }
  split; [done|]. split; [done|]. destruct I2 as (L2 & C2 & _). destruct (run_ops_inv late dm L2 C2) as [L3 C3].
  assert (I3 : finv S (run_ops E S late dm).1) by done. split; [done|].
  unfold run_close in Hc. destruct (rc_signal cf); [|by injection Hc as <- _].
  destruct (flush E S ord n _) as [d' [|e|]] eqn:Hf; [injection Hc as <- _|injection Hc as <- _|done]; by eapply fflush_inv.
Qed.
Lemma serves_inv cf d d' : rtc (serves E S cf) d d' → finv S d → finv S d'.
Proof.
  induction 1 as [|d d1 d' (ord & n & view & late & sv & Hr & N1 & N2 & <-) _ IH]; [done|]. intros I. apply IH.
  by eapply request_stages.
Qed.
Lemma request_right cf ord n view late d sv : request E S cf ord n view late d = Some sv →
  finv S d → no_self_relation S (sv_view sv) → no_self_relation S (sv_late sv) →
  (rc_mw cf = true → rp_log (sv_reply sv) = None → rp_mw (sv_reply sv) = None → consistent S (sv_mw sv) ∧ d_dirty (sv_mw sv) = []) ∧
  (rc_signal cf = true → rp_close (sv_reply sv) = None → consistent S (sv_end sv) ∧ d_dirty (sv_end sv) = []).
Proof.
  intros H I N1 N2. destruct (request_stages _ _ _ _ _ _ _ H I N1 N2) as (I1 & I2 & I3 & I4).
  unfold request in H. destruct (run_mw E S cf ord n (run_view E S cf view d).1) as [[[dm lg] me]|] eqn:Hm; [|done].
  destruct (run_close E S cf ord n (run_ops E S late dm).1) as [[de ce]|] eqn:Hc; [|done]. injection H as <-. simpl in *. split.
  - intros Hw -> ->. unfold run_mw in Hm. rewrite Hw in Hm.
    destruct (flush E S ord n _) as [d' [|e|]] eqn:Hf; [injection Hm as <-|by destruct (is_database_error e)|done].
    destruct I1 as (L1 & C1 & _). split; [by eapply fflush_consistent|by eapply flush_done_clean].
  - intros Hs ->. unfold run_close in Hc. rewrite Hs in Hc.
    destruct (flush E S ord n _) as [d' [|e|]] eqn:Hf; [injection Hc as <-|done|done].
    destruct I3 as (L3 & C3 & _). split; [by eapply fflush_consistent|by eapply flush_done_clean].
Qed.
End safe.

(** ** Requests that write nothing, with a row whose function raises *)
(** The view only reads, nothing is written later. *)
Definition reading (E : env) (S : schema) (cf : reqconf) (d : db) (sv : served) : Prop := ∃ ord n, request E S cf ord n [] [] d = Some sv.
Lemma reading_stages E S cf ord n d sv : request E S cf ord n [] [] d = Some sv →
  sv_view sv = d ∧ sv_late sv = sv_mw sv ∧ rp_view (sv_reply sv) = None ∧ rp_late (sv_reply sv) = None ∧
  run_mw E S cf ord n d = Some (sv_mw sv, rp_log (sv_reply sv), rp_mw (sv_reply sv)) ∧
  run_close E S cf ord n (sv_mw sv) = Some (sv_end sv, rp_close (sv_reply sv)).
Proof.
  unfold request. cbn [run_view run_ops fst snd]. destruct (run_mw E S cf ord n d) as [[[dm lg] me]|]; [|done].
  destruct (run_close E S cf ord n dm) as [[de ce]|] eqn:Hc; [|done]. intros [= <-]. done.
Qed.
Section poison.
Context (b : backend) (S : schema) (rand : nat → Z) (imm : bool) (depth : nat) (E : env).
Context (Hwf : wf_schema S) (HE : mk_env b S rand imm depth = Ok E).
Context (m : model) (k : Z) (r0 : row) (Hm : m ∈ s_models S) (Ht : ∀ r, m_truthy m r = true) (Hp : poison m k r0).
Lemma poison_flush_kept ord n : ∀ d, poisoned m k r0 d → poisoned m k r0 (flush E S ord n d).1.
Proof.
  induction n as [|n IH]; intros d Hd; simpl; [done|]. case_decide; [done|].
  pose proof (poison_pass b S rand imm depth E Hwf HE m k r0 Hm Ht Hp (snapshot E ord d) d Hd) as Hp'. destruct (flush_pass E S (snapshot E ord d) d) as [d1 [| |]]; [by apply IH|done..].
Qed.
Lemma reading_poison cf d sv : poisoned m k r0 d → reading E S cf d sv →
  poisoned m k r0 (sv_end sv) ∧ (rc_mw cf = true → rp_log (sv_reply sv) ≠ None ∨ rp_mw (sv_reply sv) ≠ None) ∧ (rc_signal cf = true → rp_close (sv_reply sv) ≠ None).
Proof.
  intros Hd (ord & n & H). apply reading_stages in H as (_ & _ & _ & _ & Hw & Hc).
  assert (Hd2 : poisoned m k r0 (sv_mw sv) ∧ (rc_mw cf = true → rp_log (sv_reply sv) ≠ None ∨ rp_mw (sv_reply sv) ≠ None)).
  { unfold run_mw in Hw. destruct (rc_mw cf); [|injection Hw as <- _ _; done].
    pose proof (poison_flush_kept ord n d Hd) as Hk. pose proof (poison_flush b S rand imm depth E Hwf HE m k r0 Hm Ht Hp ord n d Hd) as Hf.
    destruct (flush E S ord n d) as [d1 [|e|]]; [done| |done]. simpl in Hk.
    destruct (is_database_error e); injection Hw as <- <- <-; (split; [done|]); intros _; [by left|by right]. }
  destruct Hd2 as [Hd2 Hmw]. cut (poisoned m k r0 (sv_end sv) ∧ (rc_signal cf = true → rp_close (sv_reply sv) ≠ None)); [intros [? ?]; done|]. clear Hmw Hw.
  unfold run_close in Hc. destruct (rc_signal cf); [|by injection Hc as <- _].
  pose proof (poison_flush_kept ord n _ Hd2) as Hk. pose proof (poison_flush b S rand imm depth E Hwf HE m k r0 Hm Ht Hp ord n _ Hd2) as Hf.
  destruct (flush E S ord n (sv_mw sv)) as [d1 [|e|]]; [done| |done]. simpl in Hk. injection Hc as <- <-. done.
Qed.
Lemma readings_poison cf d d' : poisoned m k r0 d → rtc (λ x y, ∃ sv, reading E S cf x sv ∧ sv_end sv = y) d d' → poisoned m k r0 d'.
Proof.
  intros Hd H. induction H as [|d d1 d' (sv & Hr & <-) _ IH]; [done|]. apply IH. by apply (reading_poison cf d sv Hd Hr).
Qed.
End poison.

(** ** The answer *)
Lemma request_answered E S cf ord n view late d sv : request E S cf ord n view late d = Some sv →
  (answered (sv_reply sv) ↔ (run_ops E S view d).2 = None ∧
     (rc_mw cf = true → ∀ d' e, flush E S ord n (sv_view sv) = (d', Raised e) → is_database_error e = true)) ∧
  (rc_atomic cf = true → rp_view (sv_reply sv) ≠ None → sv_view sv = d) ∧
  (rp_view (sv_reply sv) = None → sv_view sv = (run_ops E S view d).1).
Proof.
  unfold request. destruct (run_mw E S cf ord n (run_view E S cf view d).1) as [[[dm lg] me]|] eqn:Hm; [|done].
  destruct (run_close E S cf ord n (run_ops E S late dm).1) as [[de ce]|] eqn:Hc; [|done]. intros [= <-]. simpl in *.
  assert (Hv : (run_view E S cf view d).2 = (run_ops E S view d).2) by (unfold run_view; by destruct (run_ops E S view d) as [? []]).
  unfold answered. simpl. rewrite Hv. split; [|split].
  - split; intros [H1 H2]; (split; [done|]).
    + subst me. intros Hw d' e Hf. unfold run_mw in Hm. rewrite Hw, Hf in Hm. by destruct (is_database_error e).
    + unfold run_mw in Hm. destruct (rc_mw cf); [|by injection Hm as _ _ <-]. destruct (flush E S ord n _) as [d' [|e|]] eqn:Hf; [by injection Hm as _ _ <-| |done].
      rewrite (H2 eq_refl d' e eq_refl) in Hm. by injection Hm as _ _ <-.
  - intros Ha Hn. unfold run_view. rewrite Ha. by destruct (run_ops E S view d) as [? []].
  - intros Hn. unfold run_view. by destruct (run_ops E S view d) as [? []].
Qed.
