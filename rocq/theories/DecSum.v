(** * Sums over decimal columns (fields.py:103, 220-235, denorms.py:446-472; pre_save fields.py:159-178).

    A SumField is a PositiveIntegerField whatever it sums (fields.py:103, 220).  Its triggers set it to
    [sum + NEW.value] and [sum - OLD.value].  If the summed column is a DecimalField the result has a fraction, and the
    database stores it in an integer column: PostgreSQL and MySQL round it, SQLite stores it as it is
    (a column of INTEGER affinity keeps a number that is no integer).

    Example: Order.total = SumField('item_set', field='price'), Item.price = DecimalField(decimal_places=1).

    Numbers are in units of 1/u with u = 10 ^ decimal_places: 0.4 is 4 with u = 10.

    Simplifications: two tables with the columns that matter; a statement changes one row; foreign keys
    are checked at once; parents are not deleted; values are not NULL (see C54 for that); no filter;
    SQLite's arithmetic is exact (it is floating point in fact). *)
From Verif Require Import Base BaseLemmas Schema.

Inductive draise :=
  | DCheck    (** CHECK (sum >= 0) *)
  | DRange    (** out of the range of the column *)
  | DKey.     (** foreign or primary key *)
Inductive dres A := Done (a : A) | Raise (e : draise).
Arguments Done {A} _.
Arguments Raise {A} _.
Definition dbind {A B} (x : dres A) (f : A → dres B) : dres B := match x with Done a => f a | Raise e => Raise e end.

(** ** Storing a number in the column of a PositiveIntegerField *)
(** Rounding to a whole number, halves away from zero: numeric to integer on PostgreSQL, DECIMAL to INT on
    MySQL. *)
Definition up (u x : Z) : Z := (2 * x + u) / (2 * u) * u.
Definition rnd (u x : Z) : Z := if bool_decide (0 ≤ x) then up u x else - up u (- x).
(** Python's int(): towards zero. *)
Definition int_of (u x : Z) : Z := Z.quot x u * u.
(** The largest value of [integer] on PostgreSQL and of [integer UNSIGNED] on MySQL; SQLite has no such limit. *)
Definition limit (b : backend) : option Z :=
  match b with SQLite => None | Postgres => Some 2147483647 | MySQL => Some 4294967295 end.
Definition in_range (b : backend) (u y : Z) : bool :=
  match limit b with Some m => bool_decide (y ≤ m * u) | None => true end.
(** PostgreSQL rounds and then checks; MySQL in strict mode rejects a negative number for an UNSIGNED column before it
    rounds (Field::convert_decimal2longlong); SQLite checks the number itself. *)
Definition store (b : backend) (u x : Z) : dres Z :=
  match b with
  | SQLite => if bool_decide (x < 0) then Raise DCheck else Done x
  | Postgres => let y := rnd u x in
      if bool_decide (y < 0) then Raise DCheck else if in_range b u y then Done y else Raise DRange
  | MySQL => let y := rnd u x in
      if bool_decide (x < 0) then Raise DRange else if in_range b u y then Done y else Raise DRange
  end.

(** ** The tables *)
Record item := Item { i_fk : option Z; i_val : Z; i_note : Z }.
#[global] Instance item_eq_dec : EqDecision item.
Proof. solve_decision. Defined.
Record dst := Dst { sums : gmap Z Z; items : gmap Z item }.
Definition dst0 : dst := Dst ∅ ∅.
Inductive dop :=
  | PIns (k : Z)                 (** save() of a new parent: pre_save gives 0 (fields.py:166-168) *)
  | PSave (k : Z)                (** save() of a parent: pre_save reads the column (170-175) and Django writes int() of it *)
  | IIns (i : Z) (x : item)
  | IUpd (i : Z) (x : item)
  | IDel (i : Z).

(** TriggerActionUpdate with get_increment_value and get_decrement_value (denorms.py:464-472): UPDATE parent SET
    sum = sum + x WHERE id = k. *)
Definition bump (b : backend) (u : Z) (k : option Z) (x : Z) (s : gmap Z Z) : dres (gmap Z Z) :=
  match k with
  | None => Done s
  | Some k => match s !! k with None => Done s | Some c => dbind (store b u (c + x)) (λ y, Done (<[k := y]> s)) end
  end.
Definition fk_ok (s : dst) (x : item) : bool :=
  match i_fk x with None => true | Some k => bool_decide (is_Some (sums s !! k)) end.
(** The triggers (denorms.py:434-438): update runs the increment and then the decrement, if some column changed. *)
Definition drun (b : backend) (u : Z) (o : dop) (s : dst) : dres dst :=
  match o with
  | PIns k => match sums s !! k with Some _ => Raise DKey | None => Done (Dst (<[k := 0]> (sums s)) (items s)) end
  | PSave k => match sums s !! k with
      | None => Raise DKey
      | Some c => dbind (store b u (int_of u c)) (λ y, Done (Dst (<[k := y]> (sums s)) (items s)))
      end
  | IIns i x => match items s !! i with
      | Some _ => Raise DKey
      | None => if fk_ok s x then dbind (bump b u (i_fk x) (i_val x) (sums s)) (λ m, Done (Dst m (<[i := x]> (items s)))) else Raise DKey
      end
  | IUpd i x => match items s !! i with
      | None => Done s
      | Some o => if bool_decide (o = x) then Done s else if fk_ok s x then
          dbind (bump b u (i_fk x) (i_val x) (sums s)) (λ m,
          dbind (bump b u (i_fk o) (- i_val o) m) (λ m', Done (Dst m' (<[i := x]> (items s))))) else Raise DKey
      end
  | IDel i => match items s !! i with
      | None => Done s
      | Some o => dbind (bump b u (i_fk o) (- i_val o) (sums s)) (λ m, Done (Dst m (delete i (items s))))
      end
  end.
(** A statement that raises changes nothing. *)
Definition dstep (b : backend) (u : Z) (s : dst) (o : dop) : dst := match drun b u o s with Done s' => s' | Raise _ => s end.
Definition dhist (b : backend) (u : Z) (ops : list dop) : dst := foldl (dstep b u) dst0 ops.

(** ** What the claims speak about *)
(** The sum of [f value] over the items of parent [k]. *)
Definition total (f : Z → Z) (s : dst) (k : Z) : Z :=
  map_fold (λ _ x acc, (if decide (i_fk x = Some k) then f (i_val x) else 0) + acc) 0 (items s).
(** The statement takes a value with the fraction 1/2 off the sum of [k]. *)
Definition takes (s : dst) (o : dop) : option item :=
  match o with
  | IUpd i x => match items s !! i with Some o => if decide (o = x) then None else Some o | None => None end
  | IDel i => items s !! i
  | _ => None
  end.
Definition half (u x : Z) : Prop := 2 * (x `mod` u) = u.
#[global] Instance half_dec u x : Decision (half u x).
Proof. unfold half. apply _. Defined.
Definition takes_half (b : backend) (u : Z) (s : dst) (o : dop) (k : Z) : bool :=
  match drun b u o s with
  | Raise _ => false
  | Done _ => match takes s o with Some x => bool_decide (i_fk x = Some k ∧ half u (i_val x)) | None => false end
  end.
(** How many statements of the history did that. *)
Fixpoint halves (b : backend) (u : Z) (ops : list dop) (s : dst) (k : Z) : Z :=
  match ops with
  | [] => 0
  | o :: ops => (if takes_half b u s o k then 1 else 0) + halves b u ops (dstep b u s o) k
  end.
Fixpoint saves (ops : list dop) (k : Z) : Z :=
  match ops with
  | [] => 0
  | o :: ops => (match o with PSave j => if decide (j = k) then 1 else 0 | _ => 0 end) + saves ops k
  end.
Definition op_val (o : dop) : option Z := match o with IIns _ x | IUpd _ x => Some (i_val x) | _ => None end.
Definition not_negative (o : dop) : Prop := match op_val o with Some v => 0 ≤ v | None => True end.
Definition whole (u : Z) (o : dop) : Prop := match op_val o with Some v => (u | v) | None => True end.

(** ** Rounding *)
Section rounding.
Context (u : Z) (Hu : 0 < u).
Lemma up_bounds x : 2 * x - u < 2 * up u x ≤ 2 * x + u.
Proof.
  unfold up. pose proof (Z.div_mod (2 * x + u) (2 * u) ltac:(lia)) as H. pose proof (Z.mod_pos_bound (2 * x + u) (2 * u) ltac:(lia)) as H'.
  set (q := (2 * x + u) / (2 * u)) in *. assert (2 * u * q = 2 * (q * u)) by ring. lia.
Qed.
Lemma up_mult x : (u | up u x).
Proof. unfold up. by apply Z.divide_factor_r. Qed.
(** [up] is the only multiple in a half-open interval. *)
Lemma up_unique x y : (u | y) → 2 * x - u < 2 * y ≤ 2 * x + u → up u x = y.
Proof.
  intros [a ->] H. destruct (up_mult x) as [c Hc]. pose proof (up_bounds x) as [H1 H2]. rewrite Hc in *.
  assert (a = c) as ->; [|done]. nia.
Qed.
Lemma up_shift a x : (u | a) → up u (a + x) = a + up u x.
Proof. intros Ha. pose proof (up_bounds x). apply up_unique; [by apply Z.divide_add_r; [|apply up_mult]|]. lia. Qed.
(** Subtracting [x] from a whole number takes [up x] off it, but one less if x ends in a half. *)
Lemma up_minus x : up u (- x) = - up u x + (if decide (half u x) then u else 0).
Proof.
  pose proof (up_bounds x) as [H1 H2]. destruct (decide (half u x)) as [Hh|Hh]; unfold half in Hh.
  - assert (Hx : up u x = x + (u - x `mod` u)).
    { apply up_unique; [|lia]. pose proof (Z.div_mod x u ltac:(lia)). exists (x / u + 1). nia. }
    apply up_unique; [|lia]. pose proof (Z.div_mod x u ltac:(lia)). exists (- (x / u)). nia.
  - apply up_unique.
    + rewrite Z.add_0_r. apply Z.divide_opp_r, up_mult.
    + assert (2 * up u x ≠ 2 * x + u); [|lia]. intros Heq. apply Hh. destruct (up_mult x) as [c Hc].
      pose proof (Z.div_mod x u ltac:(lia)) as Hd. pose proof (Z.mod_pos_bound x u ltac:(lia)) as Hr. set (q := x / u) in *. set (r := x `mod` u) in *.
      assert (Hq : 2 * (u * (c - q)) = 2 * r + u) by (rewrite Hc, Hd in Heq; clear - Heq; lia).
      assert (c - q = 1) as Hcq; [|rewrite Hcq in Hq; lia]. revert Hq. generalize (c - q). intros d Hq. clear - Hu Hq Hr. assert (0 < d) by nia. assert (d < 2) by nia. lia.
Qed.
Lemma rnd_pos x : 0 ≤ x → rnd u x = up u x.
Proof. intros H. unfold rnd. by rewrite bool_decide_eq_true_2. Qed.
Lemma rnd_whole x : (u | x) → rnd u x = x.
Proof.
  intros H. unfold rnd. destruct (bool_decide_reflect (0 ≤ x)).
  - apply up_unique; [done|lia].
  - rewrite (up_unique (- x) (- x)); [lia| |lia]. by apply Z.divide_opp_r.
Qed.
(** A negative number above -1/2 becomes 0; [rnd] and [up] then agree. *)
Lemma rnd_near x : - u < 2 * x → rnd u x = up u x.
Proof.
  intros H. unfold rnd. destruct (bool_decide_reflect (0 ≤ x)); [done|].
  rewrite (up_unique (- x) 0), (up_unique x 0); [done|apply Z.divide_0_r|lia|apply Z.divide_0_r|lia].
Qed.
Lemma up_nonneg x : 0 ≤ x → 0 ≤ up u x.
Proof. intros H. unfold up. apply Z.mul_nonneg_nonneg; [apply Z.div_pos; lia|lia]. Qed.
End rounding.

(** ** Sums over the items *)
Definition part (f : Z → Z) (k : Z) (x : item) : Z := if decide (i_fk x = Some k) then f (i_val x) else 0.
Lemma total_ins f m M i x k : M !! i = None → total f (Dst m (<[i := x]> M)) k = part f k x + total f (Dst m M) k.
Proof. intros H. unfold total, part. cbn [items]. rewrite map_fold_insert_L; [done|intros; lia|done]. Qed.
Lemma total_del f m M i x k : M !! i = Some x → total f (Dst m M) k = part f k x + total f (Dst m (delete i M)) k.
Proof. intros H. rewrite <- (insert_delete M i x H) at 1. apply total_ins. apply lookup_delete. Qed.
Lemma total_upd f m M i o x k : M !! i = Some o → total f (Dst m (<[i := x]> M)) k = total f (Dst m M) k + part f k x - part f k o.
Proof.
  intros H. rewrite (total_del f m M i o k H). rewrite <- insert_delete_insert. rewrite total_ins by apply lookup_delete. lia.
Qed.
Lemma total_sums f m m' M k : total f (Dst m M) k = total f (Dst m' M) k.
Proof. done. Qed.
Lemma total_none f s k : (∀ i x, items s !! i = Some x → i_fk x ≠ Some k) → total f s k = 0.
Proof.
  destruct s as [m M]. cbn [items]. induction M as [|i x M Hi IH] using map_ind; intros H; [done|].
  rewrite total_ins by done. rewrite IH.
  - unfold part. rewrite decide_False; [done|]. apply (H i). apply lookup_insert.
  - intros j y Hj. apply (H j). rewrite lookup_insert_ne; [done|congruence].
Qed.
Lemma total_ext f g s k : (∀ i x, items s !! i = Some x → i_fk x = Some k → f (i_val x) = g (i_val x)) → total f s k = total g s k.
Proof.
  destruct s as [m M]. cbn [items]. induction M as [|i x M Hi IH] using map_ind; intros H; [done|].
  rewrite !total_ins by done. rewrite IH.
  - f_equal. unfold part. destruct (decide (i_fk x = Some k)); [|done]. apply (H i); [apply lookup_insert|done].
  - intros j y Hj. apply (H j). rewrite lookup_insert_ne; [done|congruence].
Qed.
Lemma total_close f g e s k : (∀ x, Z.abs (f x - g x) ≤ e) → Z.abs (total f s k - total g s k) ≤ e * total (λ _, 1) s k.
Proof.
  intros He. destruct s as [m M]. induction M as [|i x M Hi IH] using map_ind; [unfold total; cbn [items]; rewrite !map_fold_empty; lia|].
  rewrite !total_ins by done. unfold part. pose proof (He (i_val x)). cbv beta. destruct (decide (i_fk x = Some k)); nia.
Qed.
Lemma total_ge f s k i x : (∀ j y, items s !! j = Some y → 0 ≤ f (i_val y)) → items s !! i = Some x → i_fk x = Some k → f (i_val x) ≤ total f s k.
Proof.
  intros Hf Hi Hk. destruct s as [m M]. cbn [items] in *. rewrite (total_del f m M i x k Hi).
  assert (H0 : 0 ≤ total f (Dst m (delete i M)) k).
  { assert (Hg : ∀ j y, delete i M !! j = Some y → 0 ≤ f (i_val y)) by (intros j y Hj; apply lookup_delete_Some in Hj as [_ Hj]; by eapply Hf).
    revert Hg. generalize (delete i M). clear. intros M. induction M as [|j y M Hj IH] using map_ind; intros H; [done|].
    rewrite total_ins by done. assert (0 ≤ part f k y).
    { unfold part. destruct (decide _); [|done]. apply (H j). apply lookup_insert. }
    assert (0 ≤ total f (Dst m M) k); [|lia]. apply IH. intros l z Hl. apply (H l). rewrite lookup_insert_ne; [done|congruence]. }
  unfold part. rewrite decide_True by done. lia.
Qed.

(** ** One statement *)
(** What a value adds to the stored sum, and what the stored sums are like. *)
Definition adds (b : backend) (u x : Z) : Z := match b with SQLite => x | _ => up u x end.
Definition stored (b : backend) (u c : Z) : Prop := 0 ≤ c ∧ match b with SQLite => True | _ => (u | c) end.
Definition good (b : backend) (u : Z) (s : dst) : Prop :=
  (∀ k c, sums s !! k = Some c → stored b u c) ∧
  (∀ i x k, items s !! i = Some x → i_fk x = Some k → is_Some (sums s !! k)).

Section steps.
Context (b : backend) (u : Z) (Hu : 0 < u).
Lemma rnd_done x : 0 ≤ rnd u x → rnd u x = up u x.
Proof.
  intros H. destruct (decide (- u < 2 * x)); [by apply rnd_near|]. exfalso. revert H. unfold rnd.
  rewrite bool_decide_eq_false_2 by lia. pose proof (up_bounds u Hu (- x)). pose proof (up_mult u (- x)) as [a Ha]. rewrite Ha in *. nia.
Qed.
Lemma store_done c x y : stored b u c → store b u (c + x) = Done y → y = c + adds b u x ∧ stored b u y.
Proof.
  intros [Hc Hm] H. unfold store, adds, stored in *. destruct b.
  - destruct (bool_decide_reflect (c + x < 0)); [done|]. injection H as <-. split; [done|]. split; [lia|done].
  - cbv zeta in H. destruct (bool_decide_reflect (rnd u (c + x) < 0)); [done|]. destruct (in_range _ _ _); [|done]. injection H as <-.
    rewrite rnd_done in * by lia. rewrite up_shift in * by done. split; [done|]. split; [lia|]. apply Z.divide_add_r; [done|apply up_mult].
  - cbv zeta in H. destruct (bool_decide_reflect (c + x < 0)); [done|]. destruct (in_range _ _ _); [|done]. injection H as <-.
    rewrite rnd_pos by lia. pose proof (up_nonneg u Hu (c + x) ltac:(lia)). rewrite up_shift in * by done. split; [done|]. split; [lia|]. apply Z.divide_add_r; [done|apply up_mult].
Qed.
Lemma bump_done k x m m' : (∀ j c, m !! j = Some c → stored b u c) → bump b u k x m = Done m' →
  (∀ j c, m' !! j = Some c → stored b u c) ∧
  ∀ j, m' !! j = (λ c, c + (if decide (k = Some j) then adds b u x else 0)) <$> m !! j.
Proof.
  intros Hm H. destruct k as [k|]; cbn [bump] in H.
  - destruct (m !! k) as [c|] eqn:Hk.
    + destruct (store b u (c + x)) as [y|e] eqn:Hs; [|done]. injection H as <-. apply store_done in Hs as [-> Hy]; [|by eapply Hm]. split.
      * intros j c' Hj. apply lookup_insert_Some in Hj as [[-> <-]|[_ Hj]]; [done|]. by eapply Hm.
      * intros j. destruct (decide (k = j)) as [->|Hn].
        -- rewrite lookup_insert, Hk. cbn [fmap option_fmap option_map]. by rewrite decide_True.
        -- rewrite lookup_insert_ne by done. rewrite decide_False by congruence. destruct (m !! j); cbn; [|done]. by rewrite Z.add_0_r.
    + injection H as <-. split; [done|]. intros j. destruct (m !! j) as [c|] eqn:Hj; [|done]. cbn. rewrite decide_False by congruence. by rewrite Z.add_0_r.
  - injection H as <-. split; [done|]. intros j. rewrite decide_False by done. destruct (m !! j); cbn; [|done]. by rewrite Z.add_0_r.
Qed.
(** The difference between the stored sum and the sum of what the values add. *)
Definition gap (s : dst) (k : Z) : Z := match sums s !! k with Some c => c - total (adds b u) s k | None => 0 end.
Definition cut (s : dst) (o : dop) (k : Z) : Z :=
  match o with PSave j => if decide (j = k) then match sums s !! k with Some c => adds b u (int_of u c) - c | None => 0 end else 0 | _ => 0 end.
Definition taken (s : dst) (o : dop) (k : Z) : Z :=
  match takes s o with Some x => if decide (i_fk x = Some k) then adds b u (- i_val x) + adds b u (i_val x) else 0 | None => 0 end.
Lemma adds0 : adds b u 0 = 0.
Proof. unfold adds. destruct b; [done| |]; apply (up_unique u Hu); [apply Z.divide_0_r|lia|apply Z.divide_0_r|lia]. Qed.
Lemma drun_gap s o s' : good b u s → drun b u o s = Done s' → good b u s' ∧ ∀ k, is_Some (sums s !! k) → gap s' k = gap s k + cut s o k + taken s o k.
Proof.
  intros [Hg1 Hg2] H. destruct s as [m M]. destruct o as [j|j|i x|i x|i]; cbn [drun sums items] in *.
  - destruct (m !! j) eqn:Hj; [done|]. injection H as <-. split.
    + split; cbn [sums items].
      * intros k c Hk. apply lookup_insert_Some in Hk as [[-> <-]|[_ Hk]]; [|by eapply Hg1]. split; [done|]. destruct b; [done| |]; apply Z.divide_0_r.
      * intros i x k Hi Hk. destruct (Hg2 i x k Hi Hk) as [c Hc]. destruct (decide (j = k)) as [->|]; [congruence|]. rewrite lookup_insert_ne by done. by exists c.
    + intros k [c Hc]. unfold gap, cut, taken, takes. cbn [sums]. rewrite lookup_insert_ne by congruence. rewrite Hc. unfold total. cbn [items]. lia.
  - destruct (m !! j) as [c0|] eqn:Hj; [|done]. destruct (store b u (int_of u c0)) as [y|e] eqn:Hs; [|done]. injection H as <-.
    apply (store_done 0 (int_of u c0) y) in Hs as [-> Hy]; [|split; [done|destruct b; [done| |]; apply Z.divide_0_r]]. split.
    + split; cbn [sums items].
      * intros k c Hk. apply lookup_insert_Some in Hk as [[-> <-]|[_ Hk]]; [done|by eapply Hg1].
      * intros i x k Hi Hk. destruct (decide (j = k)) as [->|]; [rewrite lookup_insert; by eexists|]. rewrite lookup_insert_ne by done. by eapply Hg2.
    + intros k [c Hc]. unfold gap, cut, taken, takes. cbn [sums]. destruct (decide (j = k)) as [->|].
      * rewrite lookup_insert, Hc. replace c0 with c by congruence. unfold total. cbn [items]. lia.
      * rewrite lookup_insert_ne by done. rewrite Hc. unfold total. cbn [items]. lia.
  - destruct (M !! i) eqn:Hi; [done|]. destruct (fk_ok _ _) eqn:Hok; [|done]. destruct (bump b u (i_fk x) (i_val x) m) as [m'|e] eqn:Hb; [|done]. injection H as <-.
    destruct (bump_done _ _ _ _ Hg1 Hb) as [Hs Hl]. split.
    + split; cbn [sums items]; [done|]. intros j y k Hj Hk. rewrite Hl, fmap_is_Some. apply lookup_insert_Some in Hj as [[-> <-]|[_ Hj]]; [|by eapply Hg2].
      unfold fk_ok in Hok. rewrite Hk in Hok. by apply bool_decide_eq_true_1 in Hok.
    + intros k [c Hc]. unfold gap, cut, taken, takes. cbn [sums]. rewrite Hl, Hc. cbn [fmap option_fmap option_map]. rewrite total_ins by done.
      rewrite (total_sums _ m' m). unfold part. destruct (decide (i_fk x = Some k)); lia.
  - destruct (M !! i) as [o|] eqn:Hi.
    2:{ injection H as <-. split; [done|]. intros k _. unfold cut, taken, takes. cbn [items]. rewrite Hi. lia. }
    destruct (bool_decide_reflect (o = x)) as [->|Hox].
    { injection H as <-. split; [done|]. intros k _. unfold cut, taken, takes. cbn [items]. rewrite Hi. rewrite decide_True by done. lia. }
    destruct (fk_ok _ _) eqn:Hok; [|done]. destruct (bump b u (i_fk x) (i_val x) m) as [m1|e] eqn:Hb; [|done]. cbn [dbind] in H.
    destruct (bump b u (i_fk o) (- i_val o) m1) as [m2|e] eqn:Hb2; [|done]. injection H as <-.
    destruct (bump_done _ _ _ _ Hg1 Hb) as [Hs Hl]. destruct (bump_done _ _ _ _ Hs Hb2) as [Hs2 Hl2]. split.
    + split; cbn [sums items]; [done|]. intros j y k Hj Hk. rewrite Hl2, Hl, !fmap_is_Some. apply lookup_insert_Some in Hj as [[-> <-]|[_ Hj]]; [|by eapply Hg2].
      unfold fk_ok in Hok. rewrite Hk in Hok. by apply bool_decide_eq_true_1 in Hok.
    + intros k [c Hc]. unfold gap, cut, taken, takes. cbn [sums items]. rewrite Hi, (decide_False (P := o = x)) by done. rewrite Hl2, Hl, Hc. cbn [fmap option_fmap option_map]. rewrite (total_upd _ m2 M i o x k Hi).
      rewrite (total_sums _ m2 m). unfold part. destruct (decide (i_fk x = Some k)), (decide (i_fk o = Some k)); lia.
  - destruct (M !! i) as [o|] eqn:Hi.
    2:{ injection H as <-. split; [done|]. intros k _. unfold cut, taken, takes. cbn [items]. rewrite Hi. lia. }
    destruct (bump b u (i_fk o) (- i_val o) m) as [m2|e] eqn:Hb2; [|done]. injection H as <-.
    destruct (bump_done _ _ _ _ Hg1 Hb2) as [Hs2 Hl2]. split.
    + split; cbn [sums items]; [done|]. intros j y k Hj Hk. rewrite Hl2, fmap_is_Some. apply lookup_delete_Some in Hj as [_ Hj]. by eapply Hg2.
    + intros k [c Hc]. unfold gap, cut, taken, takes. cbn [sums items]. rewrite Hi, Hl2, Hc. cbn [fmap option_fmap option_map]. rewrite (total_del _ m M i o k Hi).
      rewrite (total_sums _ m m2). unfold part. destruct (decide (i_fk o = Some k)); lia.
Qed.
(** A new parent has no items. *)
Lemma drun_gap_new s o s' k : good b u s → drun b u o s = Done s' → sums s !! k = None → gap s' k = 0 ∧ taken s o k = 0.
Proof.
  intros [Hg1 Hg2] H Hk. assert (Hno : ∀ i x, items s !! i = Some x → i_fk x ≠ Some k).
  { intros i x Hi He. destruct (Hg2 i x k Hi He). congruence. }
  assert (Hb : ∀ k' v m m', bump b u k' v m = Done m' → m !! k = None → m' !! k = None).
  { intros k' v m m' Hm Hn. destruct k' as [k'|]; cbn [bump] in Hm; [|congruence]. destruct (m !! k') as [c|] eqn:Hc; [|congruence].
    destruct (store _ _ _); [|done]. injection Hm as <-. rewrite lookup_insert_ne by congruence. done. }
  split.
  - destruct s as [m M]. destruct o as [j|j|i x|i x|i]; cbn [drun sums items] in *.
    + destruct (m !! j) eqn:Hj; [done|]. injection H as <-. unfold gap. cbn [sums]. destruct (decide (j = k)) as [->|].
      * rewrite lookup_insert. rewrite total_none; [done|]. intros i x Hi. by eapply Hno.
      * by rewrite lookup_insert_ne, Hk by done.
    + destruct (m !! j) as [c0|] eqn:Hj; [|done]. destruct (store _ _ _); [|done]. injection H as <-. unfold gap. cbn [sums]. rewrite lookup_insert_ne by congruence. by rewrite Hk.
    + destruct (M !! i); [done|]. destruct (fk_ok _ _); [|done]. destruct (bump _ _ _ _ _) eqn:Hm; [|done]. injection H as <-. unfold gap. cbn [sums]. by rewrite (Hb _ _ _ _ Hm Hk).
    + destruct (M !! i) as [o|]; [|injection H as <-; unfold gap; cbn [sums]; by rewrite Hk]. destruct (bool_decide _); [injection H as <-; unfold gap; cbn [sums]; by rewrite Hk|].
      destruct (fk_ok _ _); [|done]. destruct (bump _ _ (i_fk x) _ _) eqn:Hm; [|done]. cbn [dbind] in H. destruct (bump _ _ (i_fk o) _ _) eqn:Hm'; [|done]. injection H as <-. unfold gap. cbn [sums].
      by rewrite (Hb _ _ _ _ Hm' (Hb _ _ _ _ Hm Hk)).
    + destruct (M !! i) as [o|]; [|injection H as <-; unfold gap; cbn [sums]; by rewrite Hk]. destruct (bump _ _ _ _ _) eqn:Hm; [|done]. injection H as <-. unfold gap. cbn [sums]. by rewrite (Hb _ _ _ _ Hm Hk).
  - unfold taken. destruct (takes s o) as [x|] eqn:Ht; [|done]. rewrite decide_False; [done|]. destruct o; cbn [takes] in Ht; try done.
    + destruct (items s !! i) as [y|] eqn:Hi; [|done]. destruct (decide _); [done|]. injection Ht as ->. by eapply Hno.
    + by eapply Hno.
Qed.
Lemma good0 : good b u dst0.
Proof. split; intros *; cbn; rewrite lookup_empty; done. Qed.
Lemma dstep_good s o : good b u s → good b u (dstep b u s o).
Proof. intros H. unfold dstep. destruct (drun b u o s) eqn:Hd; [|done]. by eapply drun_gap. Qed.
Lemma dhist_good ops : good b u (dhist b u ops).
Proof. unfold dhist. generalize good0. generalize dst0. induction ops as [|o l IH]; intros s Hs; [done|]. cbn [foldl]. by apply IH, dstep_good. Qed.
Lemma dstep_gap s o k : good b u s → gap (dstep b u s o) k = match drun b u o s with Raise _ => gap s k | Done _ => gap s k + cut s o k + taken s o k end.
Proof.
  intros Hg. unfold dstep. destruct (drun b u o s) as [s'|e] eqn:Hd; [|done]. destruct (sums s !! k) as [c|] eqn:Hk.
  - eapply drun_gap; [done..|]. by eexists.
  - destruct (drun_gap_new s o s' k Hg Hd Hk) as [-> ->]. unfold gap. rewrite Hk. unfold cut. destruct o; try done. rewrite Hk. by destruct (decide _).
Qed.
End steps.

(** ** Histories *)
Section histories.
Context (u : Z) (Hu : 0 < u).
Lemma int_whole c : (u | c) → int_of u c = c.
Proof. intros [a ->]. unfold int_of. rewrite Z.quot_mul by lia. done. Qed.
Lemma int_low c : 0 ≤ c → c - u < int_of u c ≤ c.
Proof. intros H. unfold int_of. rewrite Z.quot_div_nonneg by lia. pose proof (Z.div_mod c u ltac:(lia)). pose proof (Z.mod_pos_bound c u ltac:(lia)). lia. Qed.
Lemma taken_half b s o k : b ≠ SQLite → taken b u s o k = match takes s o with Some x => if bool_decide (i_fk x = Some k ∧ half u (i_val x)) then u else 0 | None => 0 end.
Proof.
  intros Hb. unfold taken. destruct (takes s o) as [x|]; [|done]. destruct (decide (i_fk x = Some k)) as [Hk|Hk].
  - replace (adds b u (- i_val x)) with (up u (- i_val x)) by (by destruct b). replace (adds b u (i_val x)) with (up u (i_val x)) by (by destruct b). rewrite up_minus by done.
    destruct (decide (half u (i_val x))); [rewrite bool_decide_eq_true_2 by done|rewrite bool_decide_eq_false_2 by naive_solver]; lia.
  - rewrite bool_decide_eq_false_2; [done|]. naive_solver.
Qed.
Lemma cut_zero b s o k : b ≠ SQLite → good b u s → cut b u s o k = 0.
Proof.
  intros Hb [Hg _]. unfold cut. destruct o; try done. destruct (decide _); [|done]. destruct (sums s !! k) as [c|] eqn:Hk; [|done].
  destruct (Hg k c Hk) as [_ Hm]. assert (Hd : (u | c)) by (by destruct b). rewrite int_whole by done. unfold adds. destruct b; [done| |]; rewrite <- rnd_pos by (by apply (Hg k)); rewrite rnd_whole by done; lia.
Qed.
Lemma gap_hist b ops s k : b ≠ SQLite → good b u s → gap b u (foldl (dstep b u) s ops) k = gap b u s k + u * halves b u ops s k.
Proof.
  intros Hb. revert s. induction ops as [|o l IH]; intros s Hs; cbn [foldl halves]; [lia|].
  rewrite IH by (by apply dstep_good). rewrite (dstep_gap b u Hu) by done. unfold takes_half. destruct (drun b u o s); [|lia].
  rewrite cut_zero, taken_half by done. destruct (takes s o) as [x|]; [|lia]. destruct (bool_decide _); lia.
Qed.
Lemma gap0 b k : gap b u dst0 k = 0.
Proof. unfold gap. cbn. by rewrite lookup_empty. Qed.
Lemma formula b ops k c : b ≠ SQLite → sums (dhist b u ops) !! k = Some c → c = total (up u) (dhist b u ops) k + u * halves b u ops dst0 k.
Proof.
  intros Hb Hc. pose proof (gap_hist b ops dst0 k Hb (good0 b u)) as H. rewrite gap0 in H. unfold gap in H. fold (dhist b u ops) in H. rewrite Hc in H.
  replace (adds b u) with (up u) in H; [lia|]. by destruct b.
Qed.
Lemma sqlite_hist ops s k : good SQLite u s → gap SQLite u s k - u * saves ops k ≤ gap SQLite u (foldl (dstep SQLite u) s ops) k ≤ gap SQLite u s k.
Proof.
  revert s. induction ops as [|o l IH]; intros s Hs; cbn [foldl saves]; [lia|].
  specialize (IH (dstep SQLite u s o) (dstep_good _ _ Hu _ _ Hs)). rewrite (dstep_gap SQLite u Hu) in IH by done.
  assert (Ht : taken SQLite u s o k = 0) by (unfold taken; destruct (takes s o); [|done]; destruct (decide _); [cbn [adds]; lia|done]).
  assert (Hc : - u * (match o with PSave j => if decide (j = k) then 1 else 0 | _ => 0 end) ≤ cut SQLite u s o k ≤ 0).
  { unfold cut. destruct o; try lia. destruct (decide _); [|lia]. destruct (sums s !! k) as [c|] eqn:Hk; [|lia]. cbn [adds]. pose proof (int_low c). destruct Hs as [Hs _]. destruct (Hs k c Hk). lia. }
  assert (0 ≤ match o with PSave j => if decide (j = k) then 1 else 0 | _ => 0 end) by (destruct o; try lia; destruct (decide _); lia).
  destruct (drun SQLite u o s); nia.
Qed.
Lemma sqlite_bounds ops k c : let s := dhist SQLite u ops in sums s !! k = Some c → total (λ x, x) s k - u * saves ops k ≤ c ≤ total (λ x, x) s k.
Proof.
  intros s Hc. pose proof (sqlite_hist ops dst0 k (good0 SQLite u)) as H. rewrite gap0 in H. fold (dhist SQLite u ops) in H. fold s in H. unfold gap in H. rewrite Hc in H.
  change (adds SQLite u) with (λ x : Z, x) in H. lia.
Qed.
(** *** Invariants of the items *)
Lemma items_inv (P : Z → Prop) b ops : Forall (λ o, match op_val o with Some v => P v | None => True end) ops →
  ∀ i x, items (dhist b u ops) !! i = Some x → P (i_val x).
Proof.
  assert (H : ∀ s, (∀ i x, items s !! i = Some x → P (i_val x)) → Forall (λ o, match op_val o with Some v => P v | None => True end) ops →
    ∀ i x, items (foldl (dstep b u) s ops) !! i = Some x → P (i_val x)); [|intros Hf; apply H; [|done]; intros i x Hi; cbn in Hi; by rewrite lookup_empty in Hi].
  induction ops as [|o l IH]; intros s Hs Hf; [done|]. cbn [foldl]. apply Forall_cons in Hf as [Ho Hf]. apply IH; [|done].
  unfold dstep. destruct (drun b u o s) as [s'|e] eqn:Hd; [|done]. destruct s as [m M]. destruct o as [j|j|j y|j y|j]; cbn [drun sums items op_val] in *.
  - destruct (m !! j); [done|]. by injection Hd as <-.
  - destruct (m !! j); [|done]. destruct (store _ _ _); [|done]. by injection Hd as <-.
  - destruct (M !! j); [done|]. destruct (fk_ok _ _); [|done]. destruct (bump _ _ _ _ _); [|done]. injection Hd as <-. cbn [items]. intros i x Hi. apply lookup_insert_Some in Hi as [[_ <-]|[_ Hi]]; [done|by eapply Hs].
  - destruct (M !! j) as [o|]; [|by injection Hd as <-]. destruct (bool_decide _); [by injection Hd as <-|]. destruct (fk_ok _ _); [|done]. destruct (bump _ _ (i_fk y) _ _); [|done]. cbn [dbind] in Hd. destruct (bump _ _ (i_fk o) _ _); [|done].
    injection Hd as <-. cbn [items]. intros i x Hi. apply lookup_insert_Some in Hi as [[_ <-]|[_ Hi]]; [done|by eapply Hs].
  - destruct (M !! j) as [o|]; [|by injection Hd as <-]. destruct (bump _ _ _ _ _); [|done]. injection Hd as <-. cbn [items]. intros i x Hi. apply lookup_delete_Some in Hi as [_ Hi]. by eapply Hs.
Qed.
(** *** Whole numbers *)
Lemma whole_up x : (u | x) → up u x = x.
Proof. intros H. apply up_unique; [done..|lia]. Qed.
Lemma whole_total s k : (∀ i x, items s !! i = Some x → (u | i_val x)) → (u | total (λ x, x) s k).
Proof.
  destruct s as [m M]. cbn [items]. induction M as [|i x M Hi IH] using map_ind; intros H; [apply Z.divide_0_r|].
  rewrite total_ins by done. apply Z.divide_add_r.
  - unfold part. destruct (decide _); [|apply Z.divide_0_r]. apply (H i). apply lookup_insert.
  - apply IH. intros j y Hj. apply (H j). rewrite lookup_insert_ne; [done|congruence].
Qed.
Lemma whole_exact b ops : Forall (whole u) ops → ∀ k c, sums (dhist b u ops) !! k = Some c → c = total (λ x, x) (dhist b u ops) k.
Proof.
  induction ops as [|o l IH] using rev_ind; intros Hf k c Hc; [cbn in Hc; by rewrite lookup_empty in Hc|].
  assert (Hf' := Hf). apply Forall_app in Hf' as [Hl _]. specialize (IH Hl).
  assert (Hw : ∀ i x, items (dhist b u l) !! i = Some x → (u | i_val x)) by (by apply (items_inv (λ v, (u | v)))).
  assert (Hw' : ∀ i x, items (dhist b u (l ++ [o])) !! i = Some x → (u | i_val x)) by (by apply (items_inv (λ v, (u | v)))).
  assert (Hag : ∀ s, (∀ i x, items s !! i = Some x → (u | i_val x)) → total (adds b u) s k = total (λ x, x) s k).
  { intros s Hs. apply total_ext. intros i x Hi _. unfold adds. destruct b; [done|by apply whole_up, (Hs i)..]. }
  revert Hc Hw'. unfold dhist at 1 2 3. rewrite foldl_app. fold (dhist b u l). set (s := dhist b u l) in *. cbn [foldl]. intros Hc Hw'.
  assert (Hg : good b u s) by (apply dhist_good; lia).
  pose proof (dstep_gap b u Hu s o k Hg) as H. assert (H0 : gap b u s k = 0).
  { unfold gap. destruct (sums s !! k) as [c'|] eqn:Hk; [|done]. rewrite Hag by done. rewrite (IH k c' Hk). lia. }
  assert (Hcut : cut b u s o k = 0).
  { unfold cut. destruct o; try done. destruct (decide _); [|done]. destruct (sums s !! k) as [c'|] eqn:Hk; [|done].
    assert (Hd : (u | c')) by (rewrite (IH k c' Hk); by apply whole_total). rewrite int_whole by done. unfold adds. destruct b; [|rewrite whole_up by done..]; lia. }
  assert (Htk : taken b u s o k = 0).
  { unfold taken. destruct (takes s o) as [x|] eqn:Ht; [|done]. assert (Hx : (u | i_val x)).
    { destruct o; cbn [takes] in Ht; try done; [|by eapply Hw]. destruct (items s !! i) eqn:Hi; [|done]. destruct (decide _); [done|]. injection Ht as ->. by eapply Hw. }
    destruct (decide _); [|done]. assert (Hn : (u | - i_val x)) by (by apply Z.divide_opp_r). unfold adds. destruct b; [|rewrite !whole_up by done..]; lia. }
  assert (Hz : gap b u (dstep b u s o) k = 0) by (rewrite H; destruct (drun b u o s); lia).
  unfold gap in Hz. rewrite Hc in Hz. rewrite Hag in Hz by done. lia.
Qed.
(** *** No check is violated on PostgreSQL *)
Lemma up_low x : 0 ≤ x → - u < 2 * (up u x - x).
Proof. intros H. pose proof (up_bounds u Hu x). lia. Qed.
Lemma halves_pos b ops s k : 0 ≤ halves b u ops s k.
Proof. revert s. induction ops as [|o l IH]; intros s; cbn [halves]; [done|]. specialize (IH (dstep b u s o)). destruct (takes_half _ _ _ _ _); lia. Qed.
Lemma store_pg x : - u < 2 * x → store Postgres u x ≠ Raise DCheck.
Proof.
  intros H. unfold store. cbv zeta. rewrite rnd_near by done. rewrite bool_decide_eq_false_2; [by destruct (in_range _ _ _)|].
  pose proof (up_bounds u Hu x) as Hx. pose proof (up_mult u x) as [a Ha]. rewrite Ha in *. assert (-1 < a) by (clear - H Hx Hu; nia). assert (0 ≤ a * u) by (apply Z.mul_nonneg_nonneg; lia). lia.
Qed.
Lemma pg_no_check ops o : Forall not_negative ops → not_negative o → drun Postgres u o (dhist Postgres u ops) ≠ Raise DCheck.
Proof.
  intros Hf Ho. set (s := dhist Postgres u ops). assert (Hg : good Postgres u s) by (apply dhist_good; lia).
  assert (Hv : ∀ i x, items s !! i = Some x → 0 ≤ i_val x) by (by apply (items_inv (λ v, 0 ≤ v))).
  assert (Hge : ∀ i x k c, items s !! i = Some x → i_fk x = Some k → sums s !! k = Some c → up u (i_val x) ≤ c).
  { intros i x k c Hi Hk Hc. pose proof (formula Postgres ops k c ltac:(done) Hc) as He. fold s in He. pose proof (halves_pos Postgres ops dst0 k).
    pose proof (total_ge (up u) s k i x) as Ht. assert (up u (i_val x) ≤ total (up u) s k); [|nia]. apply Ht; [|done..]. intros j y Hj. apply up_nonneg; [done|by eapply Hv]. }
  assert (Hdb : ∀ A B (x : dres A) (f : A → dres B), x ≠ Raise DCheck → (∀ a, x = Done a → f a ≠ Raise DCheck) → dbind x f ≠ Raise DCheck).
  { intros A B x f Hx Hf' H. destruct x; cbn [dbind] in H; [by eapply Hf'|]. congruence. }
  assert (Hinc : ∀ k x, 0 ≤ x → bump Postgres u k x (sums s) ≠ Raise DCheck).
  { intros k x Hx. destruct k as [k|]; cbn [bump]; [|done]. destruct (sums s !! k) as [c|] eqn:Hc; [|done]. apply Hdb; [|done]. apply store_pg. destruct Hg as [Hg _]. destruct (Hg k c Hc). lia. }
  destruct o as [j|j|i x|i x|i]; cbn [drun].
  - by destruct (sums s !! j).
  - destruct (sums s !! j) as [c|] eqn:Hc; [|done]. apply Hdb; [|done]. apply store_pg. destruct Hg as [Hg _]. destruct (Hg j c Hc) as [Hc0 Hcm]. rewrite int_whole by done. lia.
  - destruct (items s !! i); [done|]. destruct (fk_ok _ _); [|done]. apply Hdb; [|done]. by apply Hinc.
  - destruct (items s !! i) as [o|] eqn:Hi; [|done]. destruct (bool_decide _); [done|]. destruct (fk_ok _ _); [|done]. apply Hdb; [by apply Hinc|]. intros m Hm. apply Hdb; [|done].
    destruct (i_fk o) as [k|] eqn:Hk; cbn [bump]; [|done]. destruct (m !! k) as [c|] eqn:Hc; [|done]. apply Hdb; [|done]. apply store_pg.
    destruct (bump_done Postgres u Hu _ _ _ _ (proj1 Hg) Hm) as [_ Hl]. rewrite Hl in Hc. destruct (sums s !! k) as [c0|] eqn:Hc0; [|done]. injection Hc as <-.
    pose proof (Hge i o k c0 Hi Hk Hc0). pose proof (up_low (i_val o) (Hv i o Hi)). assert (0 ≤ up u (i_val x)) by (by apply up_nonneg). cbn [adds]. destruct (decide _); lia.
  - destruct (items s !! i) as [o|] eqn:Hi; [|done]. apply Hdb; [|done]. destruct (i_fk o) as [k|] eqn:Hk; cbn [bump]; [|done]. destruct (sums s !! k) as [c|] eqn:Hc; [|done]. apply Hdb; [|done]. apply store_pg.
    pose proof (Hge i o k c Hi Hk Hc). pose proof (up_low (i_val o) (Hv i o Hi)). lia.
Qed.
(** *** Closeness *)
Lemma formula_close b ops k c : b ≠ SQLite → let s := dhist b u ops in sums s !! k = Some c →
  2 * Z.abs (c - total (λ x, x) s k) ≤ u * total (λ _, 1) s k + 2 * u * halves b u ops dst0 k.
Proof.
  intros Hb s Hc. rewrite (formula b ops k c Hb Hc). fold s. pose proof (halves_pos b ops dst0 k).
  assert (H2 : ∀ f, total (λ x, 2 * f x) s k = 2 * total f s k).
  { intros f. destruct s as [m M]. clear. induction M as [|i x M Hi IH] using map_ind; [done|]. rewrite !total_ins by done. rewrite IH. unfold part. destruct (decide _); lia. }
  pose proof (total_close (λ x, 2 * up u x) (λ x, 2 * x) u s k) as Ht. rewrite !H2 in Ht. specialize (Ht ltac:(intros x; pose proof (up_bounds u Hu x); lia)). nia.
Qed.
End histories.

(** ** Two families of histories *)
(** One item worth 1/2 whose other column is changed [n] times; [n] items worth [v] each. *)
Definition touch (h : Z) (n : nat) : list dop := [PIns 1; IIns 1 (Item (Some 1) h 0)] ++ map (λ i, IUpd 1 (Item (Some 1) h (Z.of_nat i))) (seq 1 n).
Definition many (v : Z) (n : nat) : list dop := PIns 1 :: map (λ i, IIns (Z.of_nat i) (Item (Some 1) v 0)) (seq 0 n).
Section families.
Context (b : backend) (Hb : b ≠ SQLite) (u : Z) (Hu : 0 < u).
Lemma store_whole c x : (u | c) → 0 ≤ c + x → up u x + c ≤ 2147483647 * u → store b u (c + x) = Done (c + up u x).
Proof.
  intros Hc Hx Hl. assert (Hr : rnd u (c + x) = c + up u x) by (rewrite rnd_pos by done; by apply up_shift).
  assert (0 ≤ c + up u x) by (rewrite <- Hr, rnd_pos by done; by apply up_nonneg).
  unfold store. cbv zeta. rewrite !Hr. destruct b; [done| |]; rewrite bool_decide_eq_false_2 by lia; unfold in_range; cbn [limit]; rewrite bool_decide_eq_true_2 by lia; done.
Qed.
Lemma touch_state h n : 2 * h = u → Z.of_nat n < 2147483647 →
  dhist b u (touch h n) = Dst {[1 := (Z.of_nat n + 1) * u]} {[1 := Item (Some 1) h (Z.of_nat n)]}.
Proof.
  intros Hh. assert (Hup : up u h = u) by (apply up_unique; [done|apply Z.divide_refl|lia]).
  assert (Hum : up u (- h) = 0) by (apply up_unique; [done|apply Z.divide_0_r|lia]).
  induction n as [|n IH]; intros Hn.
  - unfold touch, dhist. cbn [seq map app foldl]. unfold dstep at 2. cbn [drun sums items dst0]. rewrite lookup_empty. unfold dstep. cbn [drun sums items]. rewrite lookup_empty. unfold fk_ok. cbn [i_fk sums i_val].
    rewrite lookup_insert. rewrite bool_decide_eq_true_2 by (by eexists). cbn [bump]. rewrite lookup_insert. rewrite store_whole; [|apply Z.divide_0_r|lia|lia]. cbn [dbind]. rewrite Hup.
    rewrite insert_insert, <- !insert_empty. f_equal. f_equal. lia.
  - unfold touch, dhist. rewrite seq_S, map_app, app_assoc, foldl_app. fold (touch h n). fold (dhist b u (touch h n)). rewrite IH by lia. cbn [map foldl]. replace (1 + n)%nat with (Datatypes.S n) by lia.
    unfold dstep. cbn [drun sums items]. rewrite lookup_singleton. rewrite bool_decide_eq_false_2 by (intros [=]; lia). unfold fk_ok. cbn [i_fk sums i_val]. rewrite lookup_singleton. rewrite bool_decide_eq_true_2 by (by eexists). cbn [bump].
    rewrite lookup_singleton. rewrite store_whole; [|by apply Z.divide_factor_r|nia|rewrite Hup; nia]. cbn [dbind]. rewrite insert_singleton, lookup_singleton.
    rewrite store_whole; [|rewrite Hup; apply Z.divide_add_r; [by apply Z.divide_factor_r|apply Z.divide_refl]|nia|nia]. cbn [dbind]. rewrite !insert_singleton. rewrite Hum, Hup. f_equal. f_equal. lia.
Qed.
Lemma many_state v n : 0 ≤ v → 2 * v < u → let s := dhist b u (many v n) in
  sums s = {[1 := 0]} ∧ total (λ x, x) s 1 = Z.of_nat n * v ∧ ∀ i, Z.of_nat n ≤ i → items s !! i = None.
Proof.
  intros Hv0 Hv. assert (Hup : up u v = 0) by (apply up_unique; [done|apply Z.divide_0_r|lia]). cbv zeta.
  induction n as [|n (IH1 & IH2 & IH3)].
  - unfold many, dhist. cbn [seq map foldl]. unfold dstep. cbn [drun sums items dst0]. rewrite lookup_empty. split; [by rewrite <- insert_empty|]. split; [done|]. intros i _. apply lookup_empty.
  - unfold many, dhist. rewrite seq_S, map_app, app_comm_cons, foldl_app. fold (many v n). fold (dhist b u (many v n)). cbn [map foldl]. rewrite Nat.add_0_l.
    destruct (dhist b u (many v n)) as [m M]. cbn [sums items] in *. rewrite IH1. unfold dstep. cbn [drun sums items]. rewrite IH3 by lia. unfold fk_ok. cbn [i_fk sums i_val]. rewrite lookup_singleton. rewrite bool_decide_eq_true_2 by (by eexists). cbn [bump].
    rewrite lookup_singleton. rewrite store_whole; [|apply Z.divide_0_r|lia|lia]. cbn [dbind]. rewrite insert_singleton, Hup. cbn [sums items]. split; [done|]. split.
    + rewrite total_ins by (apply IH3; lia). rewrite (total_sums _ _ m), IH2. unfold part. cbn [i_fk i_val]. rewrite decide_True by done. lia.
    + intros i Hi. rewrite lookup_insert_ne by lia. apply IH3. lia.
Qed.
End families.
