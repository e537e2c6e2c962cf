(** * The ids of the markers (models.py:7-20, migrations/0001_initial.py:16, db/*/triggers.py).

    A marker gets its id from the database: an AutoField, that is a serial column with its sequence on PostgreSQL, AUTO_INCREMENT
    on MySQL (both 32 bits) and AUTOINCREMENT on SQLite (64 bits).  flush() deletes the markers
    (denorms.py:632-635), the numbers are not used again.

    - PostgreSQL (db/postgresql/triggers.py:22-41): a number that is in the table already is a unique_violation; the block
      catches it, undoes the INSERT and goes on.  Behind the last number the INSERT raises.
    - MySQL (db/mysql/triggers.py:20-34): behind the last number AUTO_INCREMENT gives out the last one again; INSERT IGNORE drops
      the row if it is in the table.
    - SQLite (db/sqlite3/triggers.py:24-37): the number is above all that have been in the table; behind the last one the INSERT raises.

    Numbers come into a table in other ways, too, when markers are restored from a dump ([ILoad]).  MySQL and SQLite
    follow them; a sequence does not, unless it is set anew, as Django's loaddata does ([IReset]).

    Simplifications: the rest of the database is left out; a raising statement undoes nothing but its own rows. *)
From Verif Require Import Base BaseLemmas Schema.
Local Open Scope Z_scope.

Record idt := Idt { i_rows : gmap Z marker; i_next : Z }.
Definition idt0 : idt := Idt ∅ 1.
Definition maxid (b : backend) : Z := match b with SQLite => 9223372036854775807 | _ => 2147483647 end.
#[global] Arguments maxid : simpl never.
Inductive iop :=
  | IMark (l : list marker)       (** the INSERT of a trigger *)
  | ILoad (i : Z) (m : marker)    (** an INSERT with a given id *)
  | IDel (m : marker)             (** the DELETE of flush *)
  | IReset.                       (** SELECT setval(...) on PostgreSQL *)

(** ** The databases *)
(** One INSERT on PostgreSQL: the rows so far, the next number and what remains to be inserted. *)
Inductive pgres := PgDone (rows : gmap Z marker) (nx : Z) | PgClash (nx : Z) | PgFull (nx : Z).
Fixpoint pg_ins (rows : gmap Z marker) (nx : Z) (l : list marker) : pgres :=
  match l with
  | [] => PgDone rows nx
  | m :: l => if bool_decide (maxid Postgres < nx) then PgFull nx
              else match rows !! nx with Some _ => PgClash (nx + 1) | None => pg_ins (<[nx := m]> rows) (nx + 1) l end
  end.
Definition my_ins1 (s : idt) (m : marker) : idt :=
  match i_rows s !! i_next s with
  | Some _ => s
  | None => Idt (<[i_next s := m]> (i_rows s)) (Z.min (maxid MySQL) (i_next s + 1))
  end.
Fixpoint lite_ins (rows : gmap Z marker) (nx : Z) (l : list marker) : option (gmap Z marker * Z) :=
  match l with
  | [] => Some (rows, nx)
  | m :: l => if bool_decide (maxid SQLite < nx) then None else lite_ins (<[nx := m]> rows) (nx + 1) l
  end.
(** The new state, and whether the statement succeeded. *)
Definition mark (b : backend) (l : list marker) (s : idt) : idt * bool :=
  match b with
  | Postgres => match pg_ins (i_rows s) (i_next s) l with
      | PgDone rows nx => (Idt rows nx, true)
      | PgClash nx => (Idt (i_rows s) nx, true)
      | PgFull nx => (Idt (i_rows s) nx, false)
      end
  | MySQL => (foldl my_ins1 s l, true)
  | SQLite => match lite_ins (i_rows s) (i_next s) l with Some (rows, nx) => (Idt rows nx, true) | None => (s, false) end
  end.
Definition follow (b : backend) (i nx : Z) : Z :=
  match b with Postgres => nx | MySQL => Z.min (maxid MySQL) (Z.max nx (i + 1)) | SQLite => Z.max nx (i + 1) end.
Definition top (rows : gmap Z marker) : Z := map_fold (λ i _ a, Z.max i a) 0 rows.
Definition irun (b : backend) (o : iop) (s : idt) : idt * bool :=
  match o with
  | IMark l => mark b l s
  | ILoad i m => if bool_decide (is_Some (i_rows s !! i) ∨ maxid b < i) then (s, false)
                 else (Idt (<[i := m]> (i_rows s)) (follow b i (i_next s)), true)
  | IDel m => (Idt (filter (λ x, x.2 ≠ m) (i_rows s)) (i_next s), true)
  | IReset => (match b with Postgres => Idt (i_rows s) (top (i_rows s) + 1) | _ => s end, true)
  end.
Definition ihist (b : backend) (ops : list iop) : idt := foldl (λ s o, (irun b o s).1) idt0 ops.

(** ** Specification *)
Definition marked (s : idt) (m : marker) : Prop := ∃ i, i_rows s !! i = Some m.
(** A statement that succeeds leaves its markers. *)
Definition keeps_marks (b : backend) (s : idt) (l : list marker) : Prop := (mark b l s).2 = true → ∀ m, m ∈ l → marked (mark b l s).1 m.
(** All went well: the markers are there, the old ones too, and no others. *)
Definition marks_all (b : backend) (s : idt) (l : list marker) : Prop :=
  (mark b l s).2 = true ∧ (∀ m, marked (mark b l s).1 m ↔ marked s m ∨ m ∈ l) ∧
  size (i_rows (mark b l s).1) = (size (i_rows s) + length l)%nat.
Definition is_mark (o : iop) : Prop := match o with IMark _ | IDel _ => True | _ => False end.
Definition no_load (o : iop) : Prop := match o with ILoad _ _ => False | _ => True end.
Definition given (o : iop) : nat := match o with IMark l => length l | _ => 0%nat end.

(** ** Lemmas *)
Definition fresh (s : idt) : Prop := ∀ i, is_Some (i_rows s !! i) → i < i_next s.
Lemma marked_insert rows nx nx' nx'' m x : rows !! nx = None → marked (Idt (<[nx := m]> rows) nx') x ↔ marked (Idt rows nx'') x ∨ x = m.
Proof.
  intros Hn. unfold marked. cbn. split.
  - intros [i Hi]. apply lookup_insert_Some in Hi as [[_ <-]|[_ Hi]]; [by right|left; by exists i].
  - intros [[i Hi]| ->]; [|exists nx; by rewrite lookup_insert]. exists i. rewrite lookup_insert_ne; [done|]. intros ->. congruence.
Qed.
Lemma fresh_none s i : fresh s → i_next s ≤ i → i_rows s !! i = None.
Proof. intros Hf Hi. destruct (i_rows s !! i) eqn:E; [|done]. assert (i < i_next s) by (apply Hf; by eexists). lia. Qed.
Lemma fresh_insert rows nx m : fresh (Idt rows nx) → fresh (Idt (<[nx := m]> rows) (nx + 1)).
Proof. intros Hf i Hi. cbn in *. rewrite lookup_insert_is_Some in Hi. destruct Hi as [<-|[_ Hi]]; [lia|]. specialize (Hf i Hi). cbn in Hf. lia. Qed.
Lemma pg_ins_all l : ∀ rows nx, fresh (Idt rows nx) → nx + Z.of_nat (length l) - 1 ≤ maxid Postgres →
  ∃ rows', pg_ins rows nx l = PgDone rows' (nx + Z.of_nat (length l)) ∧ fresh (Idt rows' (nx + Z.of_nat (length l))) ∧
    (∀ m, marked (Idt rows' 0) m ↔ marked (Idt rows 0) m ∨ m ∈ l) ∧ size rows' = (size rows + length l)%nat.
Proof.
  induction l as [|m l IH]; intros rows nx Hf Hl.
  - exists rows. cbn [pg_ins length]. replace (nx + Z.of_nat 0) with nx by lia. split_and!; [done|done| |lia]. intros x. rewrite elem_of_nil. tauto.
  - cbn [length] in *. assert (Hn : rows !! nx = None) by (apply (fresh_none (Idt rows nx)); [done|cbn; lia]).
    destruct (IH (<[nx := m]> rows) (nx + 1)) as (rows' & H1 & H2 & H3 & H4); [by apply fresh_insert|lia|].
    exists rows'. cbn [pg_ins]. rewrite bool_decide_eq_false_2 by lia. rewrite Hn, H1. replace (nx + 1 + Z.of_nat (length l)) with (nx + Z.of_nat (S (length l))) in * by lia.
    split_and!; [done|done| |].
    + intros x. rewrite H3, (marked_insert rows nx 0 0) by done. rewrite elem_of_cons. tauto.
    + rewrite H4, map_size_insert, Hn. lia.
Qed.
Lemma lite_ins_all l : ∀ rows nx, fresh (Idt rows nx) → nx + Z.of_nat (length l) - 1 ≤ maxid SQLite →
  ∃ rows', lite_ins rows nx l = Some (rows', nx + Z.of_nat (length l)) ∧ fresh (Idt rows' (nx + Z.of_nat (length l))) ∧
    (∀ m, marked (Idt rows' 0) m ↔ marked (Idt rows 0) m ∨ m ∈ l) ∧ size rows' = (size rows + length l)%nat.
Proof.
  induction l as [|m l IH]; intros rows nx Hf Hl.
  - exists rows. cbn [lite_ins length]. replace (nx + Z.of_nat 0) with nx by lia. split_and!; [done|done| |lia]. intros x. rewrite elem_of_nil. tauto.
  - cbn [length] in *. assert (Hn : rows !! nx = None) by (apply (fresh_none (Idt rows nx)); [done|cbn; lia]).
    destruct (IH (<[nx := m]> rows) (nx + 1)) as (rows' & H1 & H2 & H3 & H4); [by apply fresh_insert|lia|].
    exists rows'. cbn [lite_ins]. rewrite bool_decide_eq_false_2 by lia. rewrite H1. replace (nx + 1 + Z.of_nat (length l)) with (nx + Z.of_nat (S (length l))) in * by lia.
    split_and!; [done|done| |].
    + intros x. rewrite H3, (marked_insert rows nx 0 0) by done. rewrite elem_of_cons. tauto.
    + rewrite H4, map_size_insert, Hn. lia.
Qed.
(** On MySQL the last number may be taken while it is the next one. *)
Definition fresh_my (s : idt) : Prop := ∀ i, is_Some (i_rows s !! i) → i < i_next s ∨ i = maxid MySQL ∧ i_next s = maxid MySQL.
Lemma my_ins_all l : ∀ s, fresh_my s → i_next s ≤ maxid MySQL → i_next s + Z.of_nat (length l) - 1 ≤ maxid MySQL →
  (l ≠ [] → i_rows s !! maxid MySQL = None) →
  let s' := foldl my_ins1 s l in
    (∀ m, marked s' m ↔ marked s m ∨ m ∈ l) ∧ size (i_rows s') = (size (i_rows s) + length l)%nat.
Proof.
  induction l as [|m l IH]; intros s Hf Hle Hl Hmax; cbv zeta.
  - cbn [foldl length]. split; [|lia]. intros x. rewrite elem_of_nil. tauto.
  - cbn [length] in *. specialize (Hmax ltac:(done)). assert (Hn : i_rows s !! i_next s = None).
    { destruct (i_rows s !! i_next s) eqn:E; [|done]. destruct (Hf (i_next s)) as [|[H1 H2]]; [by eexists|lia|]. rewrite H1 in E. congruence. }
    cbn [foldl]. set (s1 := my_ins1 s m). assert (Hs1 : s1 = Idt (<[i_next s := m]> (i_rows s)) (Z.min (maxid MySQL) (i_next s + 1))).
    { unfold s1, my_ins1. by rewrite Hn. }
    destruct (IH s1) as [H1 H2].
    + intros i Hi. rewrite Hs1 in Hi |- *. cbn in *. rewrite lookup_insert_is_Some in Hi. destruct Hi as [<-|[_ Hi]]; [lia|].
      destruct (Hf i Hi) as [|[-> Hx]]; [lia|]. rewrite Hmax in Hi. by destruct Hi.
    + rewrite Hs1. cbn. lia.
    + rewrite Hs1. cbn [i_next]. lia.
    + intros Hne. assert (1 ≤ Z.of_nat (length l)) by (destruct l; [done|cbn; lia]). rewrite Hs1. cbn [i_rows]. rewrite lookup_insert_ne by lia. done.
    + split.
      * intros x. rewrite H1, Hs1, (marked_insert _ _ _ (i_next s)) by done. destruct s as [rows nx]. cbn. rewrite elem_of_cons. tauto.
      * rewrite H2, Hs1. cbn [i_rows]. rewrite map_size_insert, Hn. lia.
Qed.
Lemma top_ge rows i : is_Some (rows !! i) → i ≤ top rows.
Proof.
  intros [m Hm]. unfold top. revert i m Hm. apply (map_fold_ind (λ r rows, ∀ i m, rows !! i = Some m → i ≤ r)).
  - intros i m Hm. by rewrite lookup_empty in Hm.
  - intros i x m r _ IH j y Hj. apply lookup_insert_Some in Hj as [[<- _]|[_ Hj]]; [lia|]. specialize (IH _ _ Hj). lia.
Qed.
Definition good (b : backend) (s : idt) : Prop := match b with MySQL => fresh_my s ∧ i_next s ≤ maxid MySQL | _ => fresh s end.
Lemma pg_ins_next l : ∀ rows nx, match pg_ins rows nx l with PgDone _ n | PgClash n | PgFull n => nx ≤ n ≤ nx + Z.of_nat (length l) end.
Proof.
  induction l as [|m l IH]; intros rows nx; cbn [pg_ins length]; [lia|]. destruct (bool_decide _); [lia|]. destruct (rows !! nx); [lia|].
  specialize (IH (<[nx:=m]> rows) (nx + 1)). destruct (pg_ins _ _ l); lia.
Qed.
Lemma pg_ins_fresh l : ∀ rows nx, fresh (Idt rows nx) → match pg_ins rows nx l with PgDone r n => fresh (Idt r n) | _ => True end.
Proof.
  induction l as [|m l IH]; intros rows nx Hf; cbn [pg_ins]; [done|]. destruct (bool_decide _); [done|]. destruct (rows !! nx); [done|]. by apply IH, fresh_insert.
Qed.
Lemma lite_ins_fresh l : ∀ rows nx, fresh (Idt rows nx) → match lite_ins rows nx l with Some (r, n) => fresh (Idt r n) | None => True end.
Proof. induction l as [|m l IH]; intros rows nx Hf; cbn [lite_ins]; [done|]. destruct (bool_decide _); [done|]. by apply IH, fresh_insert. Qed.
Lemma lite_ins_next l : ∀ rows nx, match lite_ins rows nx l with Some (r, n) => n = nx + Z.of_nat (length l) | None => True end.
Proof.
  induction l as [|m l IH]; intros rows nx; cbn [lite_ins length]; [lia|]. destruct (bool_decide _); [done|].
  specialize (IH (<[nx:=m]> rows) (nx + 1)). destruct (lite_ins _ _ l) as [[? ?]|]; [lia|done].
Qed.
Lemma my_ins1_good s m : good MySQL s → good MySQL (my_ins1 s m).
Proof.
  intros [Hf Hle]. unfold my_ins1. destruct (i_rows s !! i_next s) eqn:E; [done|]. split; [|cbn; lia].
  intros i Hi. cbn in *. rewrite lookup_insert_is_Some in Hi. destruct Hi as [<-|[_ Hi]]; [lia|]. destruct (Hf i Hi) as [|[-> Hx]]; lia.
Qed.
Lemma my_ins_good l : ∀ s, good MySQL s → good MySQL (foldl my_ins1 s l).
Proof. induction l as [|m l IH]; intros s Hs; [done|]. by apply IH, my_ins1_good. Qed.
Lemma good_irun b o s : (b = Postgres → no_load o) → good b s → good b (irun b o s).1.
Proof.
  intros Hn Hg. destruct o as [l|i m|m|].
  - cbn [irun]. destruct b; cbn [mark].
    + pose proof (lite_ins_fresh l (i_rows s) (i_next s)) as H. destruct (lite_ins _ _ l) as [[? ?]|]; [|done]. apply H. by destruct s.
    + pose proof (pg_ins_fresh l (i_rows s) (i_next s)) as H. pose proof (pg_ins_next l (i_rows s) (i_next s)) as H'.
      destruct (pg_ins _ _ l); cbn [fst]; [apply H; by destruct s| |]; (intros i Hi; specialize (Hg i Hi); cbn in *; lia).
    + by apply my_ins_good.
  - cbn [irun]. destruct (bool_decide _) eqn:E; [done|]. apply bool_decide_eq_false in E. cbn [fst]. destruct b; [| by destruct (Hn eq_refl) |].
    + intros j Hj. cbn in *. rewrite lookup_insert_is_Some in Hj. destruct Hj as [<-|[_ Hj]]; [lia|]. specialize (Hg j Hj). lia.
    + destruct Hg as [Hf Hle]. split; [|cbn; lia]. intros j Hj. cbn [i_rows i_next follow] in *. rewrite lookup_insert_is_Some in Hj.
      assert (i ≤ maxid MySQL) by (destruct (decide (i ≤ maxid MySQL)); [done|]; destruct E; right; lia).
      destruct Hj as [<-|[_ Hj]]; [lia|]. destruct (Hf j Hj) as [|[-> Hx]]; lia.
  - cbn [irun fst]. assert (Hsub : ∀ i, is_Some (filter (λ x : Z * marker, x.2 ≠ m) (i_rows s) !! i) → is_Some (i_rows s !! i)).
    { intros i [x Hx]. apply map_filter_lookup_Some in Hx as [Hx _]. by eexists. }
    destruct b; cbn [good] in *; [intros i Hi; by apply Hg, Hsub..|]. destruct Hg as [Hf Hle]. split; [|done]. intros i Hi. by apply Hf, Hsub.
  - cbn [irun fst]. destruct b; [done| |done]. intros i Hi. cbn in *. pose proof (top_ge _ _ Hi). lia.
Qed.
Lemma good0 b : good b idt0.
Proof. assert (H : ∀ i, ¬ is_Some (i_rows idt0 !! i)) by (intros i [x Hx]; cbn in Hx; by rewrite lookup_empty in Hx).
  destruct b; cbn [good]; [intros i Hi; by destruct (H i)..|]. split; [intros i Hi; by destruct (H i)|done]. Qed.
Lemma good_ihist b ops : (b = Postgres → Forall no_load ops) → good b (ihist b ops).
Proof.
  unfold ihist. assert (∀ s, good b s → (b = Postgres → Forall no_load ops) → good b (foldl (λ s o, (irun b o s).1) s ops)) as H; [|apply H, good0].
  induction ops as [|o ops IH]; intros s Hs Hn; [done|]. cbn [foldl]. apply IH.
  - apply good_irun; [|done]. intros Hb. specialize (Hn Hb). by inversion Hn.
  - intros Hb. specialize (Hn Hb). by inversion Hn.
Qed.
Lemma good_marks b s l : good b s → i_next s + Z.of_nat (length l) - 1 ≤ maxid b → (b = MySQL → i_rows s !! maxid MySQL = None) → marks_all b s l.
Proof.
  intros Hg Hl Hm. unfold marks_all. destruct s as [rows nx]. destruct b; cbn [mark i_rows i_next] in *.
  - destruct (lite_ins_all l rows nx Hg Hl) as (rows' & -> & _ & H3 & H4). done.
  - destruct (pg_ins_all l rows nx Hg Hl) as (rows' & -> & _ & H3 & H4). done.
  - destruct Hg as [Hf Hle]. destruct (my_ins_all l (Idt rows nx) Hf Hle Hl (λ _, Hm eq_refl)) as [H1 H2]. done.
Qed.
(** Numbers are used at most once per marker. *)
Lemma my_ins_next l : ∀ s, i_next (foldl my_ins1 s l) ≤ Z.max (i_next s) (Z.min (maxid MySQL) (i_next s + Z.of_nat (length l))).
Proof.
  induction l as [|m l IH]; intros s; cbn [foldl length]; [lia|]. specialize (IH (my_ins1 s m)). unfold my_ins1 in *. destruct (i_rows s !! i_next s); [lia|]. cbn [i_next] in *. lia.
Qed.
Lemma irun_next b o s : is_mark o → i_next (irun b o s).1 ≤ i_next s + Z.of_nat (given o).
Proof.
  destruct o as [l|i m|m|]; try done; intros _; cbn [irun given]; [|cbn; lia]. destruct b; cbn [mark].
  - pose proof (lite_ins_next l (i_rows s) (i_next s)) as H. destruct (lite_ins _ _ l) as [[? ?]|]; cbn; lia.
  - pose proof (pg_ins_next l (i_rows s) (i_next s)) as H. destruct (pg_ins _ _ l); cbn; lia.
  - pose proof (my_ins_next l s). cbn [fst]. lia.
Qed.
Lemma ihist_next b ops : Forall is_mark ops → i_next (ihist b ops) ≤ 1 + Z.of_nat (sum_list_with given ops).
Proof.
  unfold ihist. assert (∀ s, Forall is_mark ops → i_next (foldl (λ s o, (irun b o s).1) s ops) ≤ i_next s + Z.of_nat (sum_list_with given ops)) as H; [|apply (H idt0)].
  induction ops as [|o ops IH]; intros s Hf; cbn [foldl sum_list_with]; [lia|]. inversion Hf as [|? ? Ho Hf' E]; subst.
  specialize (IH (irun b o s).1 Hf'). pose proof (irun_next b o s Ho). lia.
Qed.
Lemma my_max_free ops : Forall is_mark ops → 1 + Z.of_nat (sum_list_with given ops) ≤ maxid MySQL → i_rows (ihist MySQL ops) !! maxid MySQL = None.
Proof.
  intros Hf Hl. pose proof (ihist_next MySQL ops Hf) as Hn.
  assert (Hs : ∀ ops, Forall is_mark ops → 1 + Z.of_nat (sum_list_with given ops) ≤ maxid MySQL → fresh (ihist MySQL ops)).
  { clear. intros ops. induction ops as [|o ops IH] using rev_ind; intros Hf Hl.
    - intros i [x Hx]. cbn in Hx. by rewrite lookup_empty in Hx.
    - rewrite Forall_app in Hf. destruct Hf as [Hf Ho]. inversion Ho as [|? ? Ho' _ E]; subst. rewrite sum_list_with_app in Hl. cbn [sum_list_with] in Hl.
      specialize (IH Hf ltac:(lia)). pose proof (ihist_next MySQL ops Hf) as Hn. unfold ihist in *. rewrite foldl_snoc.
      set (s := foldl _ idt0 ops) in *. clearbody s. destruct o as [l|i m|m|]; try done; cbn [irun mark fst].
      + assert (Hb : i_next s + Z.of_nat (length l) ≤ maxid MySQL) by (cbn [given] in Hl; lia). clear -IH Hb. revert s IH Hb.
        induction l as [|m l IH]; intros s Hs Hb; [done|]. cbn [foldl length] in *. apply IH; unfold my_ins1; destruct (i_rows s !! i_next s) eqn:E; cbn [i_next]; try lia; [done|].
        replace (Z.min (maxid MySQL) (i_next s + 1)) with (i_next s + 1) by lia. apply fresh_insert. by destruct s.
      + intros i [x Hx]. cbn in Hx. apply map_filter_lookup_Some in Hx as [Hx _]. apply IH. by eexists. }
  apply (fresh_none _ _ (Hs ops Hf Hl)). lia.
Qed.
(** ** Running out of numbers *)
Definition rounds (m : marker) (n : nat) : list iop := concat (replicate n [IMark [m]; IDel m]).
Lemma rounds_state b m n : b ≠ MySQL → Z.of_nat n ≤ maxid b → ihist b (rounds m n) = Idt ∅ (1 + Z.of_nat n).
Proof.
  intros Hb. induction n as [|n IH]; intros Hn; [done|].
  assert (Hr : rounds m (S n) = rounds m n ++ [IMark [m]; IDel m]).
  { unfold rounds. rewrite replicate_S_end, concat_app. cbn [concat]. by rewrite app_nil_r. }
  rewrite Hr. unfold ihist in *. rewrite foldl_app, IH by lia. cbn [foldl].
  assert (H1 : (irun b (IMark [m]) (Idt ∅ (1 + Z.of_nat n))).1 = Idt {[1 + Z.of_nat n := m]} (1 + Z.of_nat n + 1)).
  { destruct b; [| |done]; cbn [irun mark pg_ins lite_ins i_rows i_next]; rewrite bool_decide_eq_false_2 by lia; [done|]. by rewrite lookup_empty. }
  rewrite H1. cbn [irun fst i_rows i_next]. f_equal; [|lia]. rewrite map_filter_singleton. by destruct (decide _) as [[]|].
Qed.
Lemma full_raises b s l : b ≠ MySQL → maxid b < i_next s → l ≠ [] → mark b l s = (s, false).
Proof.
  intros Hb Hn Hl. destruct l as [|m l]; [done|]. destruct s as [rows nx]. cbn [i_next] in Hn. destruct b; [| |done]; cbn [mark pg_ins lite_ins i_rows i_next]; by rewrite bool_decide_eq_true_2.
Qed.
Lemma full_stays b ops : ∀ s, b ≠ MySQL → maxid b < i_next s → Forall (λ o, o ≠ IReset) ops → maxid b < i_next (foldl (λ s o, (irun b o s).1) s ops).
Proof.
  induction ops as [|o ops IH]; intros s Hb Hn Hf; [done|]. inversion Hf as [|? ? Ho Hf' E]; subst. cbn [foldl]. apply IH; [done| |done].
  destruct o as [l|i m|m|]; [| |done|done].
  - cbn [irun]. destruct (decide (l = [])) as [->|Hl]; [|by rewrite full_raises]. destruct b; [done|done|done].
  - cbn [irun]. destruct (bool_decide _); [done|]. cbn [fst i_next]. destruct b; cbn [follow]; [lia|done|done].
Qed.
Lemma rounds_state_my m n : 1 + Z.of_nat n ≤ maxid MySQL → ihist MySQL (rounds m n) = Idt ∅ (1 + Z.of_nat n).
Proof.
  induction n as [|n IH]; intros Hn; [done|].
  assert (Hr : rounds m (S n) = rounds m n ++ [IMark [m]; IDel m]).
  { unfold rounds. rewrite replicate_S_end, concat_app. cbn [concat]. by rewrite app_nil_r. }
  rewrite Hr. unfold ihist in *. rewrite foldl_app, IH by lia. cbn [foldl].
  assert (H1 : (irun MySQL (IMark [m]) (Idt ∅ (1 + Z.of_nat n))).1 = Idt {[1 + Z.of_nat n := m]} (1 + Z.of_nat n + 1)).
  { cbn [irun mark foldl fst]. unfold my_ins1. cbn [i_rows i_next]. rewrite lookup_empty. unfold singletonM, map_singleton. f_equal. lia. }
  rewrite H1. cbn [irun fst i_rows i_next]. f_equal; [|lia]. rewrite map_filter_singleton. by destruct (decide _) as [[]|].
Qed.
Lemma my_full s l : i_next s = maxid MySQL → is_Some (i_rows s !! maxid MySQL) → mark MySQL l s = (s, true).
Proof.
  intros Hn [x Hx]. cbn [mark]. f_equal. induction l as [|m l IH]; [done|]. cbn [foldl]. replace (my_ins1 s m) with s; [done|]. unfold my_ins1. by rewrite Hn, Hx.
Qed.
Lemma lite_bound l : ∀ rows nx r, lite_ins rows nx l = Some r → l = [] ∨ nx + Z.of_nat (length l) - 1 ≤ maxid SQLite.
Proof.
  induction l as [|m l IH]; intros rows nx r H; [by left|right]. cbn [lite_ins length] in *. destruct (bool_decide _) eqn:E; [done|]. apply bool_decide_eq_false in E.
  destruct (IH _ _ _ H) as [->|]; cbn [length]; lia.
Qed.
Lemma pg_bound l : ∀ rows nx, fresh (Idt rows nx) → match pg_ins rows nx l with PgDone _ _ => l = [] ∨ nx + Z.of_nat (length l) - 1 ≤ maxid Postgres | PgClash _ => False | PgFull _ => True end.
Proof.
  induction l as [|m l IH]; intros rows nx Hf; [by left|]. cbn [pg_ins length] in *. destruct (bool_decide _) eqn:E; [done|]. apply bool_decide_eq_false in E.
  assert (rows !! nx = None) as -> by (apply (fresh_none (Idt rows nx)); [done|cbn; lia]). specialize (IH _ _ (fresh_insert _ _ m Hf)). destruct (pg_ins _ _ l); [|done|done].
  right. destruct IH as [->|]; cbn [length]; lia.
Qed.
Lemma not_silent b s l : b ≠ MySQL → good b s → keeps_marks b s l.
Proof.
  intros Hb Hg Ht. destruct (decide (l = [])) as [->|Hl]; [intros m Hm; by apply elem_of_nil in Hm|].
  assert (Hroom : i_next s + Z.of_nat (length l) - 1 ≤ maxid b).
  { destruct s as [rows nx]. destruct b; [| |done]; cbn [mark i_rows i_next good] in *.
    - destruct (lite_ins rows nx l) as [r|] eqn:E; [|done]. by destruct (lite_bound _ _ _ _ E).
    - pose proof (pg_bound l rows nx Hg) as H. destruct (pg_ins rows nx l); [by destruct H|done|done]. }
  destruct (good_marks b s l Hg Hroom ltac:(done)) as (_ & H & _). intros m Hm. apply H. by right.
Qed.
Lemma rounds_given m n : sum_list_with given (rounds m n) = n.
Proof. unfold rounds. induction n as [|n IH]; [done|]. cbn [replicate concat app sum_list_with given length]. rewrite IH. lia. Qed.
Lemma rounds_mark m n : Forall is_mark (rounds m n).
Proof. unfold rounds. induction n as [|n IH]; [constructor|]. cbn [replicate concat app]. repeat constructor. done. Qed.
(** Every clash moves the sequence on by one. *)
Lemma clash_step s m : i_next s ≤ maxid Postgres → is_Some (i_rows s !! i_next s) → irun Postgres (IMark [m]) s = (Idt (i_rows s) (i_next s + 1), true).
Proof. intros Hn [x Hx]. cbn [irun mark pg_ins]. rewrite bool_decide_eq_false_2 by lia. by rewrite Hx. Qed.
Lemma clash_steps m n : ∀ s, i_next s + Z.of_nat n ≤ maxid Postgres → (∀ i, i_next s ≤ i < i_next s + Z.of_nat n → is_Some (i_rows s !! i)) →
  foldl (λ s o, (irun Postgres o s).1) s (replicate n (IMark [m])) = Idt (i_rows s) (i_next s + Z.of_nat n).
Proof.
  induction n as [|n IH]; intros s Hn Hi; [destruct s; cbn [replicate foldl i_rows i_next]; f_equal; lia|].
  cbn [replicate foldl]. rewrite clash_step by (lia || (apply Hi; lia)). cbn [fst]. rewrite IH; cbn [i_rows i_next]; [f_equal; lia|lia|]. intros i Hb. apply Hi. lia.
Qed.
