(** * The meaning of the statements read from a trigger text. *)
From Verif Require Import Base BaseLemmas Schema TrigSet Exec Conditions Render RenderProps Text Read ReadProps ReadStmt ReadTrig.
Open Scope list_scope.
Local Open Scope nat_scope.

Section means.
Context (E : env) (e : event) (d : db) (get : string → val).
Notation ev := (eval3 E e d get).
Lemma and3_true x y : and3 x y = Some true ↔ x = Some true ∧ y = Some true.
Proof. destruct x as [[]|], y as [[]|]; naive_solver. Qed.
Lemma and3_false x y : and3 x y = Some false ↔ x = Some false ∨ y = Some false.
Proof. destruct x as [[]|], y as [[]|]; naive_solver. Qed.
Lemma or3_true x y : or3 x y = Some true ↔ x = Some true ∨ y = Some true.
Proof. destruct x as [[]|], y as [[]|]; naive_solver. Qed.
Lemma not3_true x : not3 x = Some true ↔ x = Some false.
Proof. destruct x as [[]|]; naive_solver. Qed.
Lemma not3_false x : not3 x = Some false ↔ x = Some true.
Proof. destruct x as [[]|]; naive_solver. Qed.
Lemma eq3_true v w : eq3 v w = Some true ↔ sql_eq v w = true.
Proof. destruct v, w; cbn; try done; split; congruence. Qed.
Lemma and_true p l : ev (and_exp p l) = Some true ↔ Forall (λ q, ev q.2 = Some true) (p :: l).
Proof.
  revert p. induction l as [|q l IH]; intros p; cbn [and_exp eval3]; [by rewrite Forall_singleton|]. by rewrite and3_true, IH, (Forall_cons _ p).
Qed.
Lemma and_false p l : ev (and_exp p l) = Some false ↔ Exists (λ q, ev q.2 = Some false) (p :: l).
Proof.
  revert p. induction l as [|q l IH]; intros p; cbn [and_exp eval3]; [rewrite Exists_cons, Exists_nil; tauto|]. by rewrite and3_false, IH, (Exists_cons _ p).
Qed.
Lemma or_true p l : ev (or_exp p l) = Some true ↔ Exists (λ q, ev q.2 = Some true) (p :: l).
Proof.
  revert p. induction l as [|q l IH]; intros p; cbn [or_exp eval3]; [rewrite Exists_cons, Exists_nil; tauto|]. by rewrite or3_true, IH, (Exists_cons _ p).
Qed.
Definition cexp (rf : rref) (c : cond1) : bexp := kind_exp (kind_of c) (ORef rf (c_col c)) (c_val c).
Lemma cond_true rf c : cond_ok c → ev (cexp rf c) = Some true ↔ cond1_holds c (ref_val E e rf (c_col c)) = true.
Proof.
  intros [_ Hc]. unfold cexp, cond1_holds, kind_of. destruct c as [col op v]. cbn [c_col c_op c_val] in *. destruct op.
  - destruct v as [|z|s]; cbn [kind_exp eval3 opd_val]; [|by rewrite eq3_true; destruct (ref_val E e rf col)..].
    destruct (ref_val E e rf col); cbn; split; intros; (done || congruence).
  - destruct Hc as [z ->]. cbn. destruct (ref_val E e rf col); cbn; split; congruence.
  - destruct Hc as [z ->]. cbn. destruct (ref_val E e rf col); cbn; split; congruence.
  - destruct Hc as [z ->]. cbn. destruct (ref_val E e rf col); cbn; split; congruence.
  - destruct Hc as [z ->]. cbn. destruct (ref_val E e rf col); cbn; split; congruence.
  - destruct Hc as [z ->]. destruct z; cbn; destruct (ref_val E e rf col); cbn; split; intros; (done || congruence).
Qed.
(** A comparison is decided unless the column is NULL. *)
Lemma cond_decided rf c : cond_ok c → (match kind_of c with KNull | KNotNull => True | _ => ref_val E e rf (c_col c) ≠ VNull end) →
  ev (cexp rf c) = Some false ↔ cond1_holds c (ref_val E e rf (c_col c)) = false.
Proof.
  intros Hc Hk. pose proof (cond_true rf c Hc) as Ht. assert (is_Some (ev (cexp rf c))) as [[] Hx].
  { destruct Hc as [_ Hc]. unfold cexp, kind_of in *. destruct c as [col op v]. cbn [c_col c_op c_val] in *. destruct op.
    2-6: destruct Hc as [z Hz]; subst v. all: try destruct z as [|z|z]; try destruct v as [|z|s]; cbn in *; try (by eexists); destruct (ref_val E e rf col); try done; by eexists. }
  - rewrite Hx in *. split; [done|]. intros Hf. destruct Ht as [Ht _]. rewrite Ht in Hf; done.
  - rewrite Hx in *. split; [|done]. intros _. apply not_true_is_false. intros Hh. apply Ht in Hh. done.
Qed.
Lemma flt_true rf l : Forall cond_ok l → Forall (λ q, ev q.2 = Some true) (latoms no_nu rf l) ↔ forallb (λ c, cond1_holds c (ref_val E e rf (c_col c))) l = true.
Proof.
  intros Hl. rewrite latoms_no. induction Hl as [|c l Hc Hl IH]; [split; [done|constructor]|]. cbn [fmap list_fmap forallb]. rewrite Forall_cons, IH, andb_true_iff. cbn [snd]. by rewrite <- (cond_true rf c Hc).
Qed.
(** IS NOT NULL is added to the comparisons of nullable columns, so that the negated
    conjunction is decided. *)
Lemma excl_true nu rf l : Forall cond_ok l → (∀ c, c ∈ l → nu (c_col c) = false → ref_val E e rf (c_col c) ≠ VNull) →
  Forall (λ q, ev q.2 = Some true) (excl_terms nu rf l) ↔ bool_decide (l = []) || negb (forallb (λ c, cond1_holds c (ref_val E e rf (c_col c))) l) = true.
Proof.
  intros Hl Hn.
  assert (Hex : Exists (λ q, ev q.2 = Some false) (latoms nu rf l) ↔ forallb (λ c, cond1_holds c (ref_val E e rf (c_col c))) l = false).
  { induction Hl as [|c l Hc Hl IH]; [split; [by intros ?%Exists_nil|done]|]. unfold latoms. cbn [fmap list_fmap concat forallb]. rewrite Exists_app.
    fold (latoms nu rf l). rewrite IH by (intros; apply Hn; [by right|done]). rewrite andb_false_iff. apply or_iff_compat_r.
    unfold atoms. rewrite Exists_cons. cbn [snd]. fold (cexp rf c). unfold has_null.
    destruct (decide (ref_val E e rf (c_col c) = VNull ∧ match kind_of c with KNull | KNotNull => false | _ => true end = true)) as [[Hv Hk]|Hd].
    - assert (Hh : cond1_holds c (ref_val E e rf (c_col c)) = false).
      { rewrite Hv. destruct Hc as [_ Hc]. unfold cond1_holds. unfold kind_of in Hk. destruct c as [col op v]. cbn [c_op c_val] in *. destruct op; [by destruct v|destruct Hc as [z ->]..]; try done. by destruct z. }
      split; [done|]. intros _. right. assert (Hnu : nu (c_col c) = true) by (destruct (nu (c_col c)) eqn:Hu; [done|]; by destruct (Hn c ltac:(left) Hu)).
      destruct (kind_of c); try done; rewrite Hnu; apply Exists_cons_hd; cbn [snd eval3 opd_val]; by rewrite Hv.
    - assert (Hk : match kind_of c with KNull | KNotNull => True | _ => ref_val E e rf (c_col c) ≠ VNull end) by (destruct (kind_of c); try done; intros ?; by apply Hd).
      rewrite (cond_decided rf c Hc Hk). split; [|by auto]. intros [?|Hx]; [done|]. exfalso.
      destruct (kind_of c); try (by apply Exists_nil in Hx); (destruct (nu (c_col c)); [|by apply Exists_nil in Hx]); apply Exists_cons in Hx as [Hx|Hx]; try (by apply Exists_nil in Hx);
        cbn [snd eval3 opd_val not3 fmap option_fmap option_map] in Hx; injection Hx as Hx; apply negb_false_iff, bool_decide_eq_true in Hx; done. }
  unfold excl_terms. destruct l as [|c l]; [split; [done|constructor]|]. rewrite bool_decide_eq_false_2 by done. cbn [orb]. destruct (latoms nu rf (c :: l)) as [|p m] eqn:Hla; [by unfold latoms in Hla|].
  rewrite Forall_singleton. cbn [snd eval3]. rewrite not3_true, and_false, Hex. by rewrite negb_true_iff.
Qed.
Lemma terms_true nu rf flt excl : Forall (λ q, ev q.2 = Some true) (filter_terms nu rf flt excl) ↔ Forall (λ q, ev q.2 = Some true) (all_terms nu rf flt excl).
Proof. unfold filter_terms. destruct (all_terms nu rf flt excl) as [|p [|q m]]; [done|done|]. rewrite Forall_singleton. cbn [snd]. by rewrite and_true. Qed.
Lemma in3_true v l : in3 v l = Some true ↔ existsb (λ w, sql_eq v w) l = true.
Proof. unfold in3. induction l as [|w l IH]; [done|]. cbn [foldr existsb]. by rewrite or3_true, orb_true_iff, IH, eq3_true. Qed.
End means.

(** The columns mentioned by exclude are nullable or not NULL. *)
Definition nulls_ok (nu : string → bool) (E : env) (e : event) (a : action) : Prop :=
  match a with
  | AUpd _ _ _ (WEq _ rf _ _ excl) => ∀ c, c ∈ excl → nu (c_col c) = false → ref_val E e rf (c_col c) ≠ VNull
  | _ => True
  end.
Lemma where_means nu E e d t k r w : match w with WEq _ _ _ flt excl => Forall cond_ok flt ∧ Forall cond_ok excl | _ => True end →
  nulls_ok nu E e (AUpd "" "" XInc w) → holds E e d (cell (e_pk E t) k r) (where_exp nu w) = where_holds E d e t k r w.
Proof.
  intros Hw Hn. unfold holds. apply eq_true_iff_eq. rewrite bool_decide_eq_true. destruct w as [c rf rc flt excl|c t' sc wc rf rc]; cbn [where_exp where_holds].
  - destruct Hw as [Hf Hx]. cbn [nulls_ok] in Hn. rewrite and_true, Forall_cons. cbn [snd]. rewrite terms_true. unfold all_terms. rewrite Forall_app, flt_true, excl_true by done.
    cbn [eval3 opd_val]. rewrite eq3_true. unfold passes. by rewrite !andb_true_iff.
  - cbn [eval3 opd_val]. apply in3_true.
Qed.
Lemma action_means nu E fire act e d b q a : names_ok b q a → nulls_ok nu E e a → run_read E fire act e d (act_ast nu a) = run_action E fire act e d a.
Proof.
  destruct a as [ct rf c|ct t sc wc rf rc|t c x w]; cbn [act_ast run_read run_action]; [done|done|]. intros (_ & _ & _ & Hw) Hn.
  case_decide; [done|]. f_equal. unfold upd_changes.
  assert (Hf : filter (λ p : Z * row, holds E e d (cell (e_pk E t) p.1 p.2) (where_exp nu w) = true) (map_to_list (tab d t)) = filter (λ p : Z * row, where_holds E d e t p.1 p.2 w = true) (map_to_list (tab d t))).
  { apply list_filter_iff. intros [k r]. cbn [fst snd]. rewrite (where_means nu); [done| |done]. destruct w; naive_solver. }
  rewrite Hf. apply list_fmap_ext. intros i p _. f_equal. by destruct x.
Qed.
(** Columns without a native type are compared as text. *)
Definition texts_ok (ut : string → bool) (E : env) (e : event) (tr : trigger) : Prop :=
  ∀ f, f ∈ t_fields tr → ut f = true → to_text (ref_val E e ROld f) = to_text (ref_val E e RNew f) → ref_val E e ROld f = ref_val E e RNew f.
Lemma fcmp_means ut b E e d get tr f : texts_ok ut E e tr → f ∈ t_fields tr →
  eval3 E e d get (fcmp_exp ut b f) = Some (negb (bool_decide (ref_val E e ROld f = ref_val E e RNew f))).
Proof.
  intros Ht Hf. destruct b; cbn [fcmp_exp]; [done| |by cbn; rewrite negb_involutive]. destruct (ut f) eqn:Hu; [|done]. cbn [eval3 opd_val]. f_equal. f_equal. apply bool_decide_ext.
  split; [|by intros ->]. intros Hx. apply Ht; [done..|]. destruct (to_text (ref_val E e ROld f)), (to_text (ref_val E e RNew f)); congruence.
Qed.
Lemma fs_means ut b E e d get tr : texts_ok ut E e tr → t_fields tr ≠ [] →
  eval3 E e d get (fs_exp ut b (t_fields tr)) = Some true ↔ cond_holds E e (CFields (t_fields tr)) = true.
Proof.
  intros Ht Hne. assert (Hm : ∀ f, f ∈ t_fields tr → eval3 E e d get (fcmp_exp ut b f) = Some true ↔ negb (bool_decide (ref_val E e ROld f = ref_val E e RNew f)) = true).
  { intros f Hf. rewrite (fcmp_means ut b E e d get tr f Ht Hf). split; congruence. }
  clear Ht. unfold fs_exp. destruct (t_fields tr) as [|f fs]; [done|]. rewrite or_true. change (fc ut b f :: (fc ut b <$> fs)) with (fc ut b <$> f :: fs).
  cbn [cond_holds]. rewrite existsb_exists, Exists_fmap, Exists_exists. split.
  - intros (g & Hg & Hx). exists g. split; [by apply elem_of_list_In|]. apply Hm; done.
  - intros (g & Hg & Hx). exists g. apply elem_of_list_In in Hg. split; [done|]. apply Hm; done.
Qed.
Lemma cond_means ut b E e d tr c n l nu : texts_ok ut E e tr → trig_cond b tr = Ok c → read_cond E e d (trig_ast nu ut b n tr l) = cond_holds E e c.
Proof.
  intros Ht Hc. unfold read_cond, trig_ast. cbn [pt_cond]. unfold trig_cond in Hc. unfold whole_exp.
  assert (Hfs : ∀ b, t_fields tr ≠ [] → eval3 E e d (λ _, VNull) (fs_exp ut b (t_fields tr)) = Some true ↔ cond_holds E e (CFields (t_fields tr)) = true) by (intros; by apply fs_means).
  assert (Hct : ∀ rf cf, eval3 E e d (λ _, VNull) (ct_exp rf cf (t_ct tr)) = Some true ↔ cond_holds E e (CCt rf cf (t_ct tr)) = true) by (intros; cbn; apply eq3_true).
  unfold holds.
  destruct b, (t_ev tr), (t_ctf tr) as [cf|], (t_fields tr) as [|f fs] eqn:Ef; rewrite ?decide_True in Hc by done; rewrite ?decide_False in Hc by done; simplify_eq; try done;
    apply eq_true_iff_eq; rewrite bool_decide_eq_true; try (by apply Hfs); try (by apply Hct).
  - cbn [eval3]. rewrite and3_true, or3_true, !Hct, Hfs by done. cbn [cond_holds]. by rewrite andb_true_iff, orb_true_iff.
  - cbn [eval3]. rewrite or3_true, and3_true, !Hct, Hfs by done. cbn [cond_holds]. by rewrite orb_true_iff, andb_true_iff.
Qed.
