(** * The management commands and their command lines.

    Models management/commands/denorm_flush.py, denorm_rebuild.py, denorm_init.py,
    denorm_drop.py, denorm_sql.py and denormalize.py as they are run by the supported
    Django versions (1.8 and later, tox.ini), which parse command lines with argparse.
    denorm_daemon is in Daemon.v.  Splitting a command line into words, abbreviated
    options and the exit codes are not modelled. *)
From Verif Require Import Base BaseLemmas Schema TrigSet Gen Exec Orm Flush Install MultiDb.

Inductive command := DenormFlush | DenormRebuild | DenormInit | DenormDrop | DenormSql | Denormalize.
(** A word of a command line: a positional argument, or an option with or without a value. *)
Inductive arg := Pos (s : string) | Opt (name : string) (v : option string).

(** What an option takes: nothing, any value, one of some values; or it ends the program
    (--help, --version). *)
Inductive okind := OFlag | OAny | OOne (l : list string) | OExit.
(** The options of every command (django.core.management.base.BaseCommand.create_parser). *)
Definition base_options : list (string * okind) :=
  [("help", OExit); ("version", OExit); ("verbosity", OOne ["0"; "1"; "2"; "3"]); ("settings", OAny); ("pythonpath", OAny);
   ("traceback", OFlag); ("no-color", OFlag)].
(** add_arguments: denorm_init.py:12-17, denorm_drop.py:12-17; no other command has one. *)
Definition own_options (c : command) : list (string * okind) :=
  match c with DenormInit | DenormDrop => [("database", OAny)] | _ => [] end.
(** Positional arguments declared by add_arguments: none. *)
Definition positionals (c : command) : list string := [].

(** denorm_daemon.py:25-54: -n, -i, -f or --pidfile, -o, and no positional argument.  That the
    interval has to be a number is left out. *)
Definition daemon_options : list (string * okind) := [("n", OFlag); ("i", OAny); ("f", OAny); ("pidfile", OAny); ("o", OFlag)].

Inductive parsed := PRejected | PExit | POk (opts : list (string * string)).
(** argparse: words are taken from left to right; an option given twice has the last value
    ([opts] is read from its head). *)
Fixpoint parse (os : list (string * okind)) (ps : list string) (opts : list (string * string)) (l : list arg) : parsed :=
  match l with
  | [] => POk opts
  | Pos s :: l' =>
      match ps with
      | [] => PRejected                                  (* unrecognized arguments *)
      | p :: ps' => parse os ps' ((p, s) :: opts) l'
      end
  | Opt n v :: l' =>
      match find (λ o, bool_decide (o.1 = n)) os, v with
      | Some (_, OFlag), None => parse os ps ((n, "True") :: opts) l'
      | Some (_, OAny), Some w => parse os ps ((n, w) :: opts) l'
      | Some (_, OOne ws), Some w => if decide (w ∈ ws) then parse os ps ((n, w) :: opts) l' else PRejected
      | Some (_, OExit), None => PExit
      | _, _ => PRejected
      end
  end.
Definition parse_command (c : command) (l : list arg) : parsed := parse (base_options ++ own_options c) (positionals c) [] l.
Definition parse_daemon (l : list arg) : parsed := parse (base_options ++ daemon_options) [] [] l.
(** [options[name]] *)
Definition option_of (opts : list (string * string)) (n : string) : option string :=
  snd <$> find (λ o, bool_decide (o.1 = n)) opts.

(** The default database and the triggers of every database. *)
Record world := World { w_db : db; w_cats : string → catalog }.
(** [RFailed]: a statement failed; [RRejected]: the command line was not understood. *)
Inductive result := RDone | RRaised (e : exn) | RRunning | RFailed | RRejected | RExit | RCommandError.
Definition result_of (o : outcome) : result := match o with Done => RDone | Raised e => RRaised e | Running => RRunning end.

(** What the commands are run with: the project and the ways of the databases. *)
Record project := Project {
  pj_env : env; pj_schema : schema;
  pj_ord : db → list marker → list marker; pj_rounds : nat;
  pj_be : backend;                                       (** of all databases; mixed ones are not modelled *)
  pj_digest : string → string; pj_rnd : nat → string;
  pj_triggers : tset }.                                  (** build_triggerset() *)

(** handle() with the keyword arguments [opts]. *)
Definition handle (P : project) (c : command) (opts : list (string * string)) (w : world) : world * result :=
  match c with
  | DenormFlush =>                                       (* denorm_flush.py:8-9 *)
      let r := flush (pj_env P) (pj_schema P) (pj_ord P) (pj_rounds P) (w_db w) in
      (World r.1 (w_cats w), result_of r.2)
  | DenormRebuild =>                                     (* denorm_rebuild.py:8-10 *)
      let r := rebuildall (pj_env P) (pj_schema P) (pj_ord P) (pj_rounds P) (option_of opts "model_name") None (w_db w) in
      (World r.1 (w_cats w), result_of r.2)
  | DenormInit =>                                        (* denorm_init.py:21-23 *)
      let u := default default_alias (option_of opts "database") in
      let r := install_on (bool_decide (u = default_alias)) (pj_be P) (pj_digest P) (pj_rnd P) (pj_triggers P) (w_cats w u) in
      (World (w_db w) (λ v, if decide (v = u) then r.1 else w_cats w v), if r.2 then RDone else RFailed)
  | DenormDrop =>                                        (* denorm_drop.py:21-23 *)
      let u := default default_alias (option_of opts "database") in
      let r := drop_on (bool_decide (u = default_alias)) (pj_be P) (w_cats w u) in
      (World (w_db w) (λ v, if decide (v = u) then r.1 else w_cats w v), if r.2 then RDone else RFailed)
  | DenormSql => (w, RDone)                              (* denorm_sql.py:8-14: only prints, see Text.v *)
  | Denormalize => (w, RCommandError)                    (* denormalize.py:6-8 *)
  end.
(** BaseCommand.run_from_argv. *)
Definition run_command (P : project) (c : command) (l : list arg) (w : world) : world * result :=
  match parse_command c l with
  | PRejected => (w, RRejected)
  | PExit => (w, RExit)
  | POk opts => handle P c opts w
  end.
(** call_command(name, words, keyword arguments).  Django 2.0 and later reject keyword arguments
    that the parser does not know (TypeError); earlier versions hand them to handle(). *)
Definition call_command (strict : bool) (P : project) (c : command) (l : list arg) (kw : list (string * string)) (w : world) : world * result :=
  match parse_command c l with
  | PRejected => (w, RRejected)
  | PExit => (w, RExit)
  | POk opts =>
      if strict && existsb (λ p, negb (existsb (λ o, bool_decide (o.1 = p.1)) (base_options ++ own_options c))) kw
      then (w, RRaised EType) else handle P c (kw ++ opts) w
  end.

(** ** Specification *)
(** The database named last, or the default one. *)
Definition last_database (l : list arg) : string :=
  foldl (λ u a, match a with Opt n (Some v) => if decide (n = "database") then v else u | _ => u end) default_alias l.
Definition has_word (l : list arg) : Prop := ∃ s, Pos s ∈ l.

(** ** Lemmas *)
Lemma parse_word os l : ∀ opts, has_word l → parse os [] opts l = PRejected ∨ parse os [] opts l = PExit.
Proof.
  induction l as [|a l IH]; intros opts [s Hs]; [by apply elem_of_nil in Hs|]. destruct a as [s'|n v]; simpl; [by left|].
  assert (has_word l) as Hl by (apply elem_of_cons in Hs as [?|?]; [done|by exists s]).
  destruct (find _ _) as [[n' []]|], v; try (by left); try (by right); try (by apply IH). case_decide; [by apply IH|by left].
Qed.
Lemma parse_ok os l : ∀ opts opts' n, parse os [] opts l = POk opts' →
  option_of opts' n = option_of opts n ∨ ∃ k, (n, k) ∈ os.
Proof.
  induction l as [|a l IH]; intros opts opts' n H; simpl in H; [injection H as <-; by left|]. destruct a as [s|n0 v]; [done|].
  destruct (find _ os) as [[n' k]|] eqn:Hf; [|done]. apply find_some in Hf as [Hin Hn]. simpl in Hn. apply bool_decide_eq_true in Hn as ->.
  assert (Hx : ∀ w, parse os [] ((n0, w) :: opts) l = POk opts' → option_of opts' n = option_of opts n ∨ ∃ k, (n, k) ∈ os).
  { intros w Hp. destruct (decide (n0 = n)) as [->|Hne]; [right; exists k; by apply elem_of_list_In|].
    destruct (IH _ _ n Hp) as [He|?]; [left|by right]. rewrite He. unfold option_of. simpl. by rewrite bool_decide_false. }
  destruct k, v; try done; try (by eapply Hx). case_decide; [by eapply Hx|done].
Qed.
Lemma rebuild_no_model l opts : parse_command DenormRebuild l = POk opts → option_of opts "model_name" = None.
Proof.
  intros H. destruct (parse_ok _ _ _ _ "model_name" H) as [He|[k Hk]]; [done|exfalso]. simpl in Hk.
  repeat (apply elem_of_cons in Hk as [Hk|Hk]; [done|]). by apply elem_of_nil in Hk.
Qed.
Lemma parse_database os l : (∀ k, find (λ o, bool_decide (o.1 = "database")) os = Some k → k = ("database", OAny)) →
  ∀ opts opts', parse os [] opts l = POk opts' →
  default default_alias (option_of opts' "database") =
  foldl (λ u a, match a with Opt n (Some v) => if decide (n = "database") then v else u | _ => u end) (default default_alias (option_of opts "database")) l.
Proof.
  intros Hdb. induction l as [|a l IH]; intros opts opts' H; simpl in H; [by injection H as <-|]. destruct a as [s|n v]; [done|].
  assert (Hx : ∀ w, parse os [] ((n, w) :: opts) l = POk opts' → n ≠ "database" ∨ v = Some w →
    default default_alias (option_of opts' "database") =
    foldl (λ u a, match a with Opt n (Some v) => if decide (n = "database") then v else u | _ => u end) (default default_alias (option_of opts "database")) (Opt n v :: l)).
  { intros w Hp Hor. rewrite (IH _ _ Hp). simpl. f_equal. unfold option_of. simpl. destruct (decide (n = "database")) as [->|Hne].
    - destruct Hor as [?| ->]; [done|]. by rewrite bool_decide_true.
    - rewrite bool_decide_false by done. by destruct v. }
  destruct (find (λ o, bool_decide (o.1 = n)) os) as [[n' k]|] eqn:Hf; [|done]. pose proof Hf as Hf'. apply find_some in Hf' as [_ Hn]. apply bool_decide_eq_true in Hn. simpl in Hn. subst n'.
  destruct k, v; try done.
  - eapply Hx; [exact H|]. left. intros ->. specialize (Hdb _ Hf). congruence.
  - eapply Hx; [exact H|]. by right.
  - case_decide; [|done]. eapply Hx; [exact H|]. by right.
Qed.
Lemma command_database c l opts : c = DenormInit ∨ c = DenormDrop → parse_command c l = POk opts →
  default default_alias (option_of opts "database") = last_database l.
Proof. intros [->| ->] H; (eapply parse_database in H; [exact H|]); vm_compute; intros k [= <-]; done. Qed.
