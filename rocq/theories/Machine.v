(** * flush() as a sequence of database accesses, and several sessions.

    [Flush.v] gives flush as a function.  Here the loop of denorms.py:606-635 is
    split at every point where another session, a crash or an exception can
    intervene: reading the content object, saving it, deleting the markers.
    (Django's autocommit: every ORM call commits on its own.)

    Simplifications: saving (callbacks and UPDATE) is one step; the markers the
    cursor yields are arbitrary, which covers every cursor semantics. *)
From stdpp Require Import relations.
From Verif Require Import Base BaseLemmas Schema TrigSet Gen Exec Orm Flush.

Inductive fphase :=
  | PTop                                                   (** denorms.py:606: about to query *)
  | PLoop                                                  (** denorms.py:625: in the for loop *)
  | PFetched (mk : marker) (o : option (model * Z * row))  (** denorms.py:629: content_object read *)
  | PSaved (mk : marker)                                   (** denorms.py:630 done, markers not yet deleted *)
  | PEnd.                                                  (** returned *)

Inductive fstep (E : env) (S : schema) : db * fphase → db * fphase → Prop :=
  | fs_done d : d_dirty d = [] → fstep E S (d, PTop) (d, PEnd)                        (* :617-618 *)
  | fs_start d : fstep E S (d, PTop) (d, PLoop)
  | fs_pass d : fstep E S (d, PLoop) (d, PTop)
  | fs_fetch d mk o : content_object S d mk = Ok o → fstep E S (d, PLoop) (d, PFetched mk o)    (* :629 *)
  | fs_save d mk m k r p : m_truthy m r = true → save E m (Some k) r d = Ok p →
      fstep E S (d, PFetched mk (Some (m, k, r))) (p.1.1, PSaved mk)                  (* :630 *)
  | fs_skip d mk o : (∀ m k r, o = Some (m, k, r) → m_truthy m r = false) →
      fstep E S (d, PFetched mk o) (d, PSaved mk)
  | fs_del d mk : fstep E S (d, PSaved mk) (unmark d mk, PLoop).                      (* :632-635 *)

(** Any number of flush() calls and of writing sessions on one database. *)
Inductive cstep (E : env) (S : schema) : db * list fphase → db * list fphase → Prop :=
  | cs_op d ps o d' : run_op E S o d = Ok d' → cstep E S (d, ps) (d', ps)
  | cs_flush d ps i ph d' ph' : ps !! i = Some ph → fstep E S (d, ph) (d', ph') →
      cstep E S (d, ps) (d', <[i := ph']> ps).

(** [save] of a row that is still stored. *)
Lemma save_stored E m k r0 r d : getrow d (m_table m) k = Some r0 →
  save E m (Some k) r d = (let* p := save_existing E m k r d in Ok (p.1, k, p.2)).
Proof. intros Hr. unfold save. by rewrite Hr. Qed.
Lemma content_object_row S d mk m k r : content_object S d mk = Ok (Some (m, k, r)) → getrow d (m_table m) k = Some r.
Proof.
  unfold content_object. destruct (model_of_ct S mk.1) as [m'|]; [|done]. destruct mk.2 as [s|]; [|done].
  destruct (list_find _ _) as [[i [k' r']]|] eqn:Hf; [|done]. intros [= -> -> ->].
  apply list_find_Some in Hf as (Hl & _). by apply elem_of_list_lookup_2, elem_of_map_to_list in Hl.
Qed.

(** The function of Flush.v is a run of the machine. *)
Lemma process_save_steps E S mk d d' : process_save E S mk d = Ok d' → rtc (fstep E S) (d, PLoop) (d', PSaved mk).
Proof.
  unfold process_save. intros H0. inv_bind H0.
  eapply rtc_l; [by apply fs_fetch|]. destruct a as [[[m k] r]|].
  - destruct (m_truthy m r) eqn:Ht.
    + inv_bind H0. injection H0 as <-. apply rtc_once.
      pose proof (save_stored E m k r r d (content_object_row _ _ _ _ _ _ H1)) as Hs.
      eapply fs_save in Ht; [|by rewrite Hs, H2]. exact Ht.
    + injection H0 as <-. apply rtc_once. apply fs_skip; naive_solver.
  - injection H0 as <-. apply rtc_once. by apply fs_skip.
Qed.
Lemma process_steps E S mk d d' : process E S mk d = Ok d' → rtc (fstep E S) (d, PLoop) (d', PLoop).
Proof.
  unfold process. intros H. inv_bind H. injection H as <-. eapply rtc_r; [by apply process_save_steps|]. constructor.
Qed.
Lemma flush_pass_steps E S l d d' o : flush_pass E S l d = (d', o) → rtc (fstep E S) (d, PLoop) (d', PLoop).
Proof.
  revert d. induction l as [|mk l IH]; intros d H; simpl in H; [by injection H as <- <-|].
  destruct (process E S mk d) eqn:Hp; [|by injection H as <- <-].
  etrans; [by eapply process_steps|]. by eapply IH.
Qed.
Lemma flush_steps E S ord n d d' o : flush E S ord n d = (d', o) →
  ∃ ph, rtc (fstep E S) (d, PTop) (d', ph) ∧ (o = Done → ph = PEnd).
Proof.
  revert d. induction n as [|n IH]; intros d H; simpl in H; [injection H as <- <-; by exists PTop|].
  case_decide as Hd; [injection H as <- <-; exists PEnd; split; [|done]; apply rtc_once; by constructor|].
  destruct (flush_pass E S (snapshot E ord d) d) as [d1 o1] eqn:Hp. apply flush_pass_steps in Hp.
  assert (Hs : rtc (fstep E S) (d, PTop) (d1, PLoop)) by (eapply rtc_l; [apply fs_start|done]).
  destruct o1.
  - destruct (IH _ H) as (ph & Hr & He). exists ph. split; [|done]. etrans; [exact Hs|]. eapply rtc_l; [apply fs_pass|done].
  - injection H as <- <-. by exists PLoop.
  - injection H as <- <-. by exists PLoop.
Qed.
