(** * Claims on aggregates over a ManyToManyField under Django 1.8 (C126 - C128). *)
From Verif Require Import Base BaseLemmas Schema M2mAgg.

(** ** C126 *)
Definition all_rows : Z → bool := λ _, true.
Definition m2m_hist (b : backend) (q : qmodel) (kd : akind) (ops : list mop) : mst := foldl (mstep b q kd all_rows) mst0 ops.
(** Tag 1 and post 5 are linked: the tag's count stays 0, since there is no tag 5.  After tag 5 is made
    the link cannot be removed. *)
Definition m_ops : list mop := [TagIns 1; PostIns 5 7; LinkIns 1 5 1].
Theorem m2m_count_refuted b : b ≠ MySQL → let s := m2m_hist b QOwn KCnt m_ops in
  lnk s !! 1 = Some (5, 1) ∧ is_Some (posts s !! 5) ∧ tags s !! 1 = Some 0 ∧ number s 1 all_rows = 1 ∧
  mrun b QOwn KCnt all_rows (LinkDel 1) (m2m_hist b QOwn KCnt (m_ops ++ [TagIns 5])) = Err ECheck.
Proof. intros Hb. destruct b; [| |by destruct Hb]; (split; [vm_compute; reflexivity|split; [by vm_compute; eexists|split; [vm_compute; reflexivity|split; vm_compute; reflexivity]]]). Qed.
Print Assumptions m2m_count_refuted.
(** What is counted: the links to posts whose key some tag has too. *)
Theorem m2m_count_formula b ops : let s := m2m_hist b QOwn KCnt ops in calm_all b QOwn KCnt all_rows mst0 ops →
  (∀ k c, tags s !! k = Some c → c = number s k (tag_too s)) ∧
  (∀ k c, tags s !! k = Some c → c = number s k all_rows ↔ ∀ l p, lnk s !! l = Some (p, k) → is_Some (tags s !! p)) ∧
  ∀ o, mrun b QOwn KCnt all_rows o s ≠ Err ECheck.
Proof.
  intros s Hc. assert (Hi : cinv QOwn all_rows s) by (apply hist_cinv; [done|done|apply cinv0]). split; [|split].
  - apply Hi.
  - intros k c Hk. rewrite (proj2 (proj2 Hi) k c Hk). cbn [counted]. unfold all_rows. rewrite number_all. unfold tag_too. split; intros H l p Hl; specialize (H l p Hl); [by apply bool_decide_eq_true_1 in H|by apply bool_decide_eq_true_2].
  - intros o. by apply mrun_no_check.
Qed.
Print Assumptions m2m_count_formula.
(** Had [related.model] still been the declaring model, the counts would be right, with any filter. *)
Theorem m2m_count_older b flt ops : let s := foldl (mstep b QRel KCnt flt) mst0 ops in
  (∀ k c, tags s !! k = Some c → c = number s k (counts flt s)) ∧ ∀ o, mrun b QRel KCnt flt o s ≠ Err ECheck.
Proof.
  intros s. assert (Hi : cinv QRel flt s) by (apply hist_cinv; [done|done|apply cinv0]). split; [apply Hi|]. intros o. by apply mrun_no_check.
Qed.
Print Assumptions m2m_count_older.
(** On MySQL no row is ever linked: the trigger reads the table it updates. *)
Theorem m2m_mysql_no_links kd flt ops : lnk (foldl (mstep MySQL QOwn kd flt) mst0 ops) = ∅.
Proof.
  assert (H : ∀ s, lnk s = ∅ → lnk (foldl (mstep MySQL QOwn kd flt) s ops) = ∅); [|by apply H].
  induction ops as [|o l IH]; intros s Hs; [done|]. cbn [foldl]. apply IH. by apply mysql_no_link.
Qed.
Print Assumptions m2m_mysql_no_links.
Theorem m2m_mysql_link_raises kd flt s l p t : lnk s !! l = None → link_ok s p t = true → mrun MySQL QOwn kd flt (LinkIns l p t) s = Err ETableInUse.
Proof. intros Hl Ho. cbn [mrun]. by rewrite Hl, Ho. Qed.
Print Assumptions m2m_mysql_link_raises.
(** Tags 1, 2 and 3, posts 1, 2 and 5: tag 1 counts its posts 1 and 2; tag 3 has post 5 too and counts
    post 2 only; link 4 is moved, link 5 removed. *)
Definition m_more : list mop :=
  [TagIns 1; TagIns 2; TagIns 3; TagIns 9; PostIns 1 7; PostIns 2 8; PostIns 5 9; LinkIns 1 1 1; LinkIns 2 2 1; LinkIns 3 5 3; LinkIns 4 1 2; LinkUpd 4 2 3;
   LinkIns 5 1 3; LinkDel 5; PostUpd 2 1; TagDel 9; PostDel 5].
Example m2m_count_ex b : b ≠ MySQL → let s := m2m_hist b QOwn KCnt m_more in calm_all b QOwn KCnt all_rows mst0 m_more ∧
  tags s !! 1 = Some 2 ∧ number s 1 all_rows = 2 ∧ tags s !! 3 = Some 1 ∧ number s 3 all_rows = 2 ∧ tags s !! 2 = Some 0 ∧
  let r := foldl (mstep b QRel KCnt (λ v, bool_decide (v < 9))) mst0 m_more in tags r !! 1 = Some 2 ∧ tags r !! 3 = Some 1 ∧ number r 3 all_rows = 2.
Proof.
  intros Hb. split.
  - apply calm_allb_spec. destruct b; [| |by destruct Hb]; vm_compute; reflexivity.
  - destruct b; [| |by destruct Hb]; cbv zeta; split_and!; vm_compute; reflexivity.
Qed.
Example m2m_mysql_ex : let s := m2m_hist MySQL QOwn KCnt [TagIns 1; PostIns 5 7] in lnk s !! 1 = None ∧ link_ok s 5 1 = true.
Proof. vm_compute. done. Qed.

(** ** C127 *)
(** Linking adds the tag's own sum, which is 0: the sum of post 5, which is 7, is never added, and
    lowering its value raises an IntegrityError. *)
Theorem m2m_sum_refuted b : b ≠ MySQL → let s := m2m_hist b QOwn KSm (m_ops ++ [TagIns 5; PostIns 1 4; LinkIns 2 1 1]) in
  linked s 5 1 = true ∧ linked s 1 1 = true ∧ posts s !! 5 = Some 7 ∧ posts s !! 1 = Some 4 ∧ tags s !! 1 = Some 0 ∧
  mrun b QOwn KSm all_rows (PostUpd 5 6) s = Err ECheck ∧
  tags (mstep b QOwn KSm all_rows s (PostUpd 5 9)) !! 1 = Some 2.
Proof. intros Hb. destruct b; [| |by destruct Hb]; split_and!; vm_compute; reflexivity. Qed.
Print Assumptions m2m_sum_refuted.
(** Until a post is updated every sum is 0, whatever is linked. *)
Theorem m2m_sum_stays_zero b flt ops : Forall no_upd ops → ∀ k c, tags (foldl (mstep b QOwn KSm flt) mst0 ops) !! k = Some c → c = 0.
Proof. intros Hf. apply (sum_zero_hist b flt ops mst0 Hf); [apply (cinv0 QOwn all_rows)|]. intros k c H. vm_compute in H. discriminate H. Qed.
Print Assumptions m2m_sum_stays_zero.
(** A post whose value is lowered by more than the sum of one of its tags: the UPDATE raises. *)
Theorem m2m_sum_update_raises b q flt s p o v l k c : posts s !! p = Some o → lnk s !! l = Some (p, k) → tags s !! k = Some c →
  flt o = true → flt v = true → v < o → c < o - v → mrun b q KSm flt (PostUpd p v) s = Err ECheck.
Proof. intros Hp Hl Hc Hfo Hfv Hv Hlt. apply (sum_upd_raises b q flt s p o v k c); [done| |done..|lia]. apply linked_spec. by exists l. Qed.
Print Assumptions m2m_sum_update_raises.
Example m2m_sum_ex b : b ≠ MySQL → let s := m2m_hist b QOwn KSm m_ops in Forall no_upd m_ops ∧ posts s !! 5 = Some 7 ∧ lnk s !! 1 = Some (5, 1) ∧ tags s !! 1 = Some 0.
Proof. intros Hb. split; [repeat constructor|]. destruct b; [| |by destruct Hb]; split_and!; vm_compute; reflexivity. Qed.

(** ** C128 *)
(** Under Django 1.8 the triggers can be made exactly for managers of the far side, with a database
    alias and with filters that both models have. *)
Theorem m2m_install_iff kd fwd alias fs fld own rel : fld ∈ own →
  m2m_install QOwn kd fwd alias fs fld own rel = None ↔ fwd = false ∧ alias = true ∧ ∀ f, f ∈ fs → f ∈ own ∧ f ∈ rel.
Proof.
  intros Hfld. unfold m2m_install.
  assert (Hb : ∀ l : list string, forallb (λ f, bool_decide (f ∈ l)) fs = true ↔ ∀ f, f ∈ fs → f ∈ l).
  { intros l. rewrite forallb_forall. split; intros H f Hf; [apply elem_of_list_In, H, bool_decide_eq_true_1 in Hf; done|apply elem_of_list_In, H in Hf; by apply bool_decide_eq_true_2]. }
  destruct fwd.
  - split; [|by intros [? _]]. by destruct (forallb _ _).
  - destruct (forallb (λ f, bool_decide (f ∈ rel)) fs) eqn:Hr, (forallb (λ f, bool_decide (f ∈ own)) fs) eqn:Ho; cbn [negb].
    + pose proof (proj1 (Hb rel) Hr). pose proof (proj1 (Hb own) Ho). destruct alias; cbn [negb]; [|naive_solver]. destruct kd; [naive_solver|]. rewrite decide_True by done. naive_solver.
    + split; [done|]. intros (_ & _ & H). assert (forallb (λ f, bool_decide (f ∈ own)) fs = true) by (apply Hb; naive_solver). congruence.
    + split; [done|]. intros (_ & _ & H). assert (forallb (λ f, bool_decide (f ∈ rel)) fs = true) by (apply Hb; naive_solver). congruence.
    + split; [done|]. intros (_ & _ & H). assert (forallb (λ f, bool_decide (f ∈ rel)) fs = true) by (apply Hb; naive_solver). congruence.
Qed.
Print Assumptions m2m_install_iff.
(** Which exception it is. *)
Theorem m2m_install_raises q kd fs fld own rel :
  (∀ alias, m2m_install q kd true alias [] fld own rel = Some AttrErr) ∧
  m2m_install q kd false false [] fld own rel = Some ValErr ∧
  (∀ f, f ∈ fs → f ∈ rel → f ∉ own → ∀ alias, m2m_install QOwn kd false alias fs fld own rel = Some FieldErr) ∧
  (fld ∉ rel → m2m_install QRel KSm false true [] fld own rel = Some FieldErr).
Proof.
  split; [done|]. split; [done|]. split.
  - intros f Hf Hr Ho alias. unfold m2m_install. destruct (forallb (λ f0, bool_decide (f0 ∈ rel)) fs); [|done]. cbn [negb].
    replace (forallb (λ f0, bool_decide (f0 ∈ own)) fs) with false; [done|]. symmetry. apply not_true_iff_false. rewrite forallb_forall. intros H. apply elem_of_list_In, H in Hf. by apply bool_decide_eq_true_1 in Hf.
  - intros H. unfold m2m_install. cbn. by rewrite decide_False.
Qed.
Print Assumptions m2m_install_raises.
Example m2m_install_ex : m2m_install QOwn KCnt false true ["name"] "posts" ["id"; "name"; "posts"] ["id"; "name"; "score"] = None ∧
  m2m_install QOwn KCnt false true ["score"] "posts" ["id"; "name"; "posts"] ["id"; "name"; "score"] = Some FieldErr ∧ "posts" ∉ ["id"; "name"; "score"].
Proof. split; [vm_compute; reflexivity|]. split; [vm_compute; reflexivity|]. set_solver. Qed.
