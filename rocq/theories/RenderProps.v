(** * The SQL text of an action determines what it does; lengths and collisions of names. *)
From Verif Require Import Base BaseLemmas Schema TrigSet Exec Conditions GenLemmas Render.
From Coq Require Import Ascii.
Open Scope list_scope.

Lemma tail_split b t t' wc wc' rf rf' rc rc' r r' : ident t → ident t' → ident wc → ident wc' → ident rc → ident rc' →
  t +:+ " WHERE " +:+ wc +:+ " = " +:+ ref_str rf +:+ qn b rc +:+ r = t' +:+ " WHERE " +:+ wc' +:+ " = " +:+ ref_str rf' +:+ qn b rc' +:+ r' →
  t = t' ∧ wc = wc' ∧ rf = rf' ∧ rc = rc' ∧ r = r'.
Proof.
  intros ?????? H. apply ident_split in H as [-> H]; [|done|done|reflexivity|reflexivity]. apply str_cancel in H.
  apply ident_split in H as [-> H]; [|done|done|reflexivity|reflexivity]. apply str_cancel in H.
  apply ref_split in H as [-> H]. apply qn_split in H as [-> ->]; done.
Qed.
Lemma mark_split b q q' (ct ct' : Z) rf rf' c c' r r' : ident c → ident c' →
  pretty ct +:+ ", " +:+ ref_str rf +:+ qif b q c +:+ ")" +:+ r = pretty ct' +:+ ", " +:+ ref_str rf' +:+ qif b q' c' +:+ ")" +:+ r' →
  ct = ct' ∧ rf = rf' ∧ c = c' ∧ q = q' ∧ r = r'.
Proof.
  intros ?? H. apply num_split in H as [-> H]; [|reflexivity|reflexivity]. apply str_cancel in H. apply ref_split in H as [-> H].
  apply qif_split in H as (-> & -> & H); [|done|done|reflexivity|reflexivity]. apply str_cancel in H. done.
Qed.
Lemma sel_split b q q' (ct ct' : Z) sc sc' t t' wc wc' rf rf' rc rc' r r' : ident sc → ident sc' → ident t → ident t' → ident wc → ident wc' → ident rc → ident rc' →
  select_sql b (pretty ct +:+ ", " +:+ qif b q sc) t wc rf rc +:+ r = select_sql b (pretty ct' +:+ ", " +:+ qif b q' sc') t' wc' rf' rc' +:+ r' →
  ct = ct' ∧ sc = sc' ∧ q = q' ∧ t = t' ∧ wc = wc' ∧ rf = rf' ∧ rc = rc' ∧ r = r'.
Proof.
  intros ???????? H. unfold select_sql in H. rewrite !str_app_assoc in H. apply str_cancel in H.
  apply num_split in H as [-> H]; [|reflexivity|reflexivity]. apply str_cancel in H.
  apply qif_split in H as (-> & -> & H); [|done|done|reflexivity|reflexivity]. apply str_cancel in H.
  apply tail_split in H as (-> & -> & -> & -> & ->); done.
Qed.
Lemma insert_split b v v' : insert_sql b v = insert_sql b v' → v = v'.
Proof.
  unfold insert_sql. destruct b; intros H.
  - by apply str_cancel in H.
  - apply str_cancel, str_cancel, str_cancel in H. by eapply str_app_tail.
  - by apply str_cancel in H.
Qed.

Lemma expr_split b c x x' r r' : ident c →
  match x with XAdd _ f | XSub _ f => ident f | _ => True end → match x' with XAdd _ f | XSub _ f => ident f | _ => True end →
  expr_sql b c x +:+ " WHERE " +:+ r = expr_sql b c x' +:+ " WHERE " +:+ r' → x = x' ∧ r = r'.
Proof.
  intros Hc I I' H. destruct (decide (x = XRand)) as [->|Hx], (decide (x' = XRand)) as [->|Hx'].
  - apply str_cancel, str_cancel in H. done.
  - exfalso. destruct x'; try done; cbn [expr_sql] in H; rewrite !str_app_assoc, qn_app in H; destruct b; unfold rand_sql in H; sx H; done.
  - exfalso. destruct x; try done; cbn [expr_sql] in H; rewrite !str_app_assoc, qn_app in H; destruct b; unfold rand_sql in H; sx H; done.
  - assert (Ht : ∀ y, y ≠ XRand → ∃ tl, expr_sql b c y = qn b c +:+ tl ∧ tl = match y with XInc => " + 1" | XDec => " - 1" | XAdd rf f => " + " +:+ ref_str rf +:+ qn b f | XSub rf f => " - " +:+ ref_str rf +:+ qn b f | XRand => "" end).
    { intros y Hy. destruct y; [done|eexists; split; [reflexivity|done]..]. }
    destruct (Ht _ Hx) as (tl & E1 & ->). destruct (Ht _ Hx') as (tl' & E2 & ->). clear Ht. rewrite E1, E2, !str_app_assoc in H. apply str_cancel in H. clear E1 E2.
    destruct x as [| | |xr xf|xr xf]; [done|..]; (destruct x' as [| | |xr' xf'|xr' xf']; [done|..]); rewrite ?str_app_assoc in H;
      try (exfalso; sx H; done);
      try (exfalso; destruct xr; cbn [ref_str] in H; sx H; done);
      try (exfalso; destruct xr'; cbn [ref_str] in H; sx H; done);
      try (by apply str_cancel, str_cancel in H).
    + apply str_cancel in H. apply ref_split in H as [-> H]. apply qn_split in H as [-> H]; [|done|done]. apply str_cancel in H. done.
    + apply str_cancel in H. apply ref_split in H as [-> H]. apply qn_split in H as [-> H]; [|done|done]. apply str_cancel in H. done.
Qed.
Definition flt_of (a : action) : list cond1 * list cond1 := match a with AUpd _ _ _ (WEq _ _ _ f x) => (f, x) | _ => ([], []) end.
Definition with_flt (a : action) (p : list cond1 * list cond1) : action :=
  match a with AUpd t c x (WEq c' rf rc _ _) => AUpd t c x (WEq c' rf rc p.1 p.2) | _ => a end.
(** Equal text and parameters: equal up to equivalent conditions. *)
Lemma same_text nu b q q' a a' : act_ok a → act_ok a' → action_sql nu b q a = action_sql nu b q' a' → act_params a = act_params a' →
  a' = with_flt a (flt_of a') ∧ Forall2 same_cond (flt_of a).1 (flt_of a').1 ∧ Forall2 same_cond (flt_of a).2 (flt_of a').2.
Proof.
  intros O O' H Hp. destruct a as [ct rf c|ct t sc wc rf rc|t c x w], a' as [ct' rf' c'|ct' t' sc' wc' rf' rc'|t' c' x' w'];
    cbn [action_sql] in H; try (apply insert_split in H).
  - assert (H' : pretty ct +:+ ", " +:+ ref_str rf +:+ qif b q c +:+ ")" +:+ "" = pretty ct' +:+ ", " +:+ ref_str rf' +:+ qif b q' c' +:+ ")" +:+ "").
    { destruct b; by apply str_cancel in H. }
    apply mark_split in H' as (-> & -> & -> & _ & _); [|done|done]. split; [done|]. split; constructor.
  - exfalso. destruct b; cbn [select_sql] in H; sx H; done.
  - exfalso. destruct b; unfold insert_sql, nl in H; sx H; done.
  - exfalso. destruct b; cbn [select_sql] in H; sx H; done.
  - destruct O as (?&?&?&?), O' as (?&?&?&?).
    assert (H' : select_sql b (pretty ct +:+ ", " +:+ qif b q sc) t wc rf rc +:+ (match b with SQLite => "" | _ => ")" end) =
      select_sql b (pretty ct' +:+ ", " +:+ qif b q' sc') t' wc' rf' rc' +:+ (match b with SQLite => "" | _ => ")" end)).
    { destruct b; [by rewrite H|by apply str_cancel in H|by apply str_cancel in H]. }
    apply sel_split in H' as (-> & -> & _ & -> & -> & -> & -> & _); try done. split; [done|]. split; constructor.
  - exfalso. destruct b; unfold insert_sql, nl in H; sx H; done.
  - exfalso. destruct b; unfold insert_sql, nl in H; sx H; done.
  - exfalso. destruct b; unfold insert_sql, nl in H; sx H; done.
  - destruct O as (O1&O2&O3&O4), O' as (O1'&O2'&O3'&O4'). apply str_cancel in H.
    apply ident_split in H as [-> H]; [|done|done|reflexivity|reflexivity]. apply str_cancel in H.
    apply ident_split in H as [-> H]; [|done|done|reflexivity|reflexivity]. apply str_cancel in H.
    apply expr_split in H as [-> H]; [|done..].
    destruct w as [c1 rf rc flt excl|c1 t1 sc wc rf rc], w' as [c1' rf' rc' flt' excl'|c1' t1' sc' wc' rf' rc']; cbn [where_sql] in H; simpl in O4, O4'.
    + destruct O4 as (?&?&?&?), O4' as (?&?&?&?). apply qn_split in H as [-> H]; [|done|done]. apply str_cancel in H.
      apply ref_split in H as [-> H]. apply qn_split in H as [-> H]; [|done|done].
      apply filter_split in H as [Hf H]; [|done..].
      split; [done|]. simpl. change (omap cparam (flt ++ excl) = omap cparam (flt' ++ excl')) in Hp.
      apply same_kind_params in Hp as [P1 P2]; [|done]. split; by apply params_same.
    + exfalso. destruct O4 as (?&?&?&?), O4' as (?&?&?&?&?). by apply ident_head in H.
    + exfalso. destruct O4 as (?&?&?&?&?), O4' as (?&?&?&?). symmetry in H. by apply ident_head in H.
    + destruct O4 as (?&?&?&?&?), O4' as (?&?&?&?&?). apply ident_split in H as [-> H]; [|done|done|reflexivity|reflexivity]. apply str_cancel in H.
      unfold select_sql in H. rewrite !str_app_assoc in H. apply str_cancel in H.
      apply ident_split in H as [-> H]; [|done|done|reflexivity|reflexivity]. apply str_cancel in H.
      apply tail_split in H as (-> & -> & -> & -> & _); try done. split; [done|]. split; constructor.
Qed.

Lemma run_with_flt E fire act e d a p : Forall2 same_cond (flt_of a).1 p.1 → Forall2 same_cond (flt_of a).2 p.2 →
  run_action E fire act e d (with_flt a p) = run_action E fire act e d a.
Proof.
  destruct a as [| |t c x [c' rf rc flt excl|]]; [done|done| |done]. simpl. intros H1 H2.
  assert (upd_changes E e d t c x (WEq c' rf rc p.1 p.2) = upd_changes E e d t c x (WEq c' rf rc flt excl)) as ->; [|done].
  unfold upd_changes. f_equal. apply list_filter_iff. intros [k r]. simpl. by rewrite (passes_same _ _ _ _ (ref_val E e rf) H1 H2).
Qed.
Lemma same_text_same_run nu b q q' a a' : act_ok a → act_ok a' → action_key nu b (q, a) = action_key nu b (q', a') →
  ∀ E fire act e d, run_action E fire act e d a = run_action E fire act e d a'.
Proof.
  intros O O' [= H Hp] E fire act e d. destruct (same_text _ _ _ _ _ _ O O' H Hp) as (Ha & H1 & H2). rewrite Ha. symmetry. by apply run_with_flt.
Qed.
Lemma same_text_eq nu b q q' a a' : act_ok a → act_ok a' → flt_of a = ([], []) → action_key nu b (q, a) = action_key nu b (q', a') → a = a'.
Proof.
  intros O O' Hf [= H Hp]. destruct (same_text _ _ _ _ _ _ O O' H Hp) as (Ha & H1 & H2). rewrite Hf in H1, H2. simpl in *.
  apply Forall2_nil_inv_l in H1. apply Forall2_nil_inv_l in H2. rewrite Ha. destruct a as [| |t c x [c' rf rc flt excl|]]; try done.
  simpl in Hf. injection Hf as -> ->. simpl. by rewrite H1, H2.
Qed.

(** ** Dropping textual duplicates *)
Lemma dedup_sql_spec nu b l : ∀ seen, NoDup (action_key nu b <$> dedup_sql nu b seen l) ∧
  (∀ p, p ∈ dedup_sql nu b seen l → p ∈ l ∧ action_key nu b p ∉ seen) ∧
  (∀ p, p ∈ l → action_key nu b p ∈ seen ∨ ∃ p', p' ∈ dedup_sql nu b seen l ∧ action_key nu b p' = action_key nu b p).
Proof.
  induction l as [|p l IH]; intros seen; simpl.
  - split; [constructor|]. split; by intros ? ?%elem_of_nil.
  - case_decide as Hd.
    + destruct (IH seen) as (I1 & I2 & I3). split; [done|]. split.
      * intros p' H'. destruct (I2 _ H'). split; [by right|done].
      * intros p' [->|H']%elem_of_cons; [by left|by apply I3].
    + destruct (IH (action_key nu b p :: seen)) as (I1 & I2 & I3). split; [|split].
      * csimpl. apply NoDup_cons. split; [|done]. intros (p' & Hk & H')%elem_of_list_fmap. destruct (I2 _ H') as [_ Hn]. apply Hn. rewrite Hk. left.
      * intros p' [->|H']%elem_of_cons; [split; [left|done]|]. destruct (I2 _ H') as [? Hn]. split; [by right|]. set_solver.
      * intros p' [->|H']%elem_of_cons; [right; exists p; split; [left|done]|]. destruct (I3 _ H') as [Hs|(p2 & H2 & H3)].
        -- apply elem_of_cons in Hs as [Hs|Hs]; [right; exists p; split; [left|done]|by left].
        -- right. exists p2. split; [by right|done].
Qed.
(** With unambiguous quoting and unfiltered actions this is exactly the model's [dedup]. *)
Lemma dedup_sql_dedup nu b l : (∀ q a, (q, a) ∈ l → act_ok a ∧ flt_of a = ([], [])) → (∀ q q' a, (q, a) ∈ l → (q', a) ∈ l → q = q') →
  (dedup_sql nu b [] l).*2 = dedup [] (l.*2).
Proof.
  intros Hok Hq.
  assert (Hg : ∀ l0 seen, (∀ p, p ∈ l0 → p ∈ l) → (∀ p, p ∈ seen → p ∈ l) → (dedup_sql nu b (action_key nu b <$> seen) l0).*2 = dedup (seen.*2) (l0.*2)).
  { induction l0 as [|[q a] l0 IH]; intros seen H0 Hs; csimpl; [done|].
    assert (Hia : (q, a) ∈ l) by (apply H0; left). destruct (Hok _ _ Hia) as [Oa Fa].
    assert (Hiff : action_key nu b (q, a) ∈ action_key nu b <$> seen ↔ a ∈ seen.*2).
    { rewrite !elem_of_list_fmap. split.
      - intros ([q' a'] & Hk & Hin). exists (q', a'). split; [|done]. simpl. destruct (Hok _ _ (Hs _ Hin)) as [Oa' _]. by apply same_text_eq in Hk.
      - intros ([q' a'] & Hk & Hin). simpl in Hk. subst a'. exists (q', a). split; [|done]. f_equal. f_equal. eapply Hq; [done|by apply Hs]. }
    destruct (decide (a ∈ seen.*2)) as [Ha|Ha].
    - rewrite decide_True by (by apply Hiff). apply IH; [|done]. intros. apply H0. by right.
    - rewrite decide_False by (by rewrite Hiff). csimpl. f_equal. apply (IH ((q, a) :: seen)).
      + intros. apply H0. by right.
      + intros p [->|Hp]%elem_of_cons; [done|by apply Hs]. }
  apply (Hg l []); [done|by intros ? ?%elem_of_nil].
Qed.

(** ** Names *)
Lemma substring_len n s : (n ≤ String.length s)%nat → String.length (String.substring 0 n s) = n.
Proof. revert s. induction n as [|n IH]; intros [|c s] H; simpl in *; [done|done|lia|]. f_equal. apply IH. lia. Qed.
Lemma str_len_app (s t : string) : String.length (s +:+ t) = (String.length s + String.length t)%nat.
Proof. induction s as [|c s IH]; [done|]. rewrite str_app_cons. simpl. by rewrite IH. Qed.
Lemma final_len b digest rnd tr : (∀ s, String.length (digest s) = 4%nat) → String.length rnd = 5%nat →
  match b with SQLite => True | Postgres => (String.length (final_name b digest rnd tr) ≤ 58)%nat | MySQL => (String.length (final_name b digest rnd tr) ≤ 50)%nat end.
Proof.
  intros Hd Hr. destruct b; cbn [final_name]; [done| |].
  - unfold pg_name. case_decide; [done|]. rewrite str_len_app, substring_len, Hd; lia.
  - unfold my_name. case_decide; [|lia]. rewrite str_len_app, substring_len, Hr; lia.
Qed.
Lemma substring_app s t n : (String.length s ≤ n)%nat → String.substring 0 n (s +:+ t) = s +:+ String.substring 0 (n - String.length s) t.
Proof.
  revert n. induction s as [|c s IH]; intros n H; [rewrite !str_app_nil; simpl; by rewrite Nat.sub_0_r|].
  rewrite !str_app_cons. simpl in *. destruct n as [|n]; [lia|]. simpl. f_equal. apply IH. lia.
Qed.
(** The truncated name starts with the table-independent part. *)
Lemma final_prefix b digest rnd tr : ∃ s, final_name b digest rnd tr = "denorm_after_row_" +:+ ev_str (t_ev tr) +:+ "_on_" +:+ s.
Proof.
  assert (Hn : ∀ n, (27 ≤ n)%nat → ∃ s, String.substring 0 n (trig_name b tr) = "denorm_after_row_" +:+ ev_str (t_ev tr) +:+ "_on_" +:+ s).
  { intros n Hn. rewrite trig_name_full. exists (String.substring 0 (n - 27) (full_tab b tr)).
    rewrite <- !str_app_assoc. rewrite substring_app; [|destruct (t_ev tr); simpl; lia]. f_equal. f_equal. destruct (t_ev tr); cbn [ev_str]; rewrite !str_len_app; cbn [String.length]; lia. }
  destruct b; cbn [final_name].
  - rewrite trig_name_full. eauto.
  - unfold pg_name. case_decide; [rewrite trig_name_full; eauto|]. destruct (Hn 54%nat) as [s ->]; [lia|]. exists (s +:+ digest (trig_name Postgres tr)). by rewrite !str_app_assoc.
  - unfold my_name. case_decide; [|rewrite trig_name_full; eauto]. destruct (Hn 45%nat) as [s ->]; [lia|]. exists (s +:+ rnd). by rewrite !str_app_assoc.
Qed.

(** Truncation: among sufficiently many tables with a common long prefix two get the same
    name, whatever the digest is. *)
Definition long_prefix : string := "a_table_name_that_is_longer_than_the_limit_".
Definition long_trigger (n : nat) : trigger := Trigger (long_prefix +:+ pretty n) EvUpd [] None 0 [].
Lemma pigeon {A} (f : nat → A) (D : list A) `{EqDecision A} : (∀ n, f n ∈ D) → ∃ i j, i ≠ j ∧ f i = f j.
Proof.
  intros H. destruct (decide (NoDup (f <$> seq 0 (Datatypes.S (length D))))) as [Hnd|Hnd].
  - exfalso. assert (Hs : f <$> seq 0 (Datatypes.S (length D)) ⊆+ D).
    { apply NoDup_submseteq; [done|]. intros x (n & -> & _)%elem_of_list_fmap. apply H. }
    apply submseteq_length in Hs. rewrite fmap_length, seq_length in Hs. lia.
  - revert Hnd. generalize (seq 0 (Datatypes.S (length D))), (NoDup_seq 0 (Datatypes.S (length D))). induction l as [|x l IH]; intros Hl Hnd; [exfalso; apply Hnd; constructor|].
    apply NoDup_cons in Hl as [Hx Hl]. destruct (decide (f x ∈ f <$> l)) as [(y & Hy & Hin)%elem_of_list_fmap|Hn].
    + exists x, y. split; [|done]. by intros ->.
    + apply IH; [done|]. intros Hnd'. apply Hnd. csimpl. by apply NoDup_cons.
Qed.
Lemma truncated_collide digest rnd (D : list string) : (∀ s, digest s ∈ D) → ∃ t1 t2, t_tab t1 ≠ t_tab t2 ∧ t_ev t1 = t_ev t2 ∧
  final_name Postgres digest rnd t1 = final_name Postgres digest rnd t2.
Proof.
  intros HD. destruct (pigeon (λ n, digest (trig_name Postgres (long_trigger n))) D) as (i & j & Hij & He); [intros; apply HD|].
  exists (long_trigger i), (long_trigger j). split; [|split; [done|]].
  - simpl. intros H. apply str_cancel in H. apply Hij. by apply (inj pretty) in H.
  - cbn [final_name]. unfold pg_name.
    assert (Hl : ∀ n, (70 ≤ String.length (trig_name Postgres (long_trigger n)))%nat).
    { intros n. rewrite trig_name_full. unfold full_tab. simpl t_ctf. cbn [t_tab long_trigger]. rewrite !str_len_app. simpl. lia. }
    rewrite !decide_False by (pose proof (Hl i); pose proof (Hl j); lia). rewrite He. f_equal.
Qed.
