(** * Termination of flush and independence of the processing order (C21, C23). *)
From Verif Require Import Base BaseLemmas Schema TrigSet Gen Exec Orm Flush Spec SpecAgg SpecOrder GenLemmas Settle Sessions Hist Terminate Order Cursor Check
  ExForum ExBad ExAgg CheckOrder ExTree.

(** ** C21 *)
(** From any database, with any markers, in any order of processing: after finitely
    many passes the loop has ended ([Done], or [Raised] when a save raised).  The
    conditions: the value dependencies between cells are acyclic, and rows that every
    save rewrites do not mark each other in a cycle. *)
Theorem flush_terminates b S rand imm depth E ρ σ ord d :
  mk_env b S rand imm depth = Ok E → wf_schema S → names_apart S → no_m2m_denorm S →
  value_acyclic S ρ d → calm b S σ → (∀ x l mk, mk ∈ ord x l ↔ mk ∈ l) →
  ∃ n, (flush E S ord n d).2 ≠ Running.
Proof. exact (flush_terminates_ok b S rand imm depth E ρ σ ord d). Qed.
Print Assumptions flush_terminates.
(** Allowing more passes changes nothing then. *)
Theorem flush_passes_enough E S ord n n' d :
  (flush E S ord n d).2 ≠ Running → (n ≤ n')%nat → flush E S ord n' d = flush E S ord n d.
Proof. exact (flush_fuel_enough E S ord n n' d). Qed.
Print Assumptions flush_passes_enough.
(** Trees of forums and of posts, on every backend; a model with an auto_now column is
    among them; more than one pass is needed. *)
Example flush_terminates_ex b :
  mk_env b TS rand0 true 10 = Ok (env_of b TS true) ∧ wf_schema TS ∧ names_apart TS ∧ no_m2m_denorm TS ∧
  value_acyclic TS t_ρ (td b) ∧ calm b TS t_σ ∧ restless b TS TNote ∧
  (flush (env_of b TS true) TS id_ord 1 (td b)).2 = Running ∧ (flush (env_of b TS true) TS id_ord 10 (td b)).2 = Done.
Proof.
  split; [apply TE_ok|]. destruct TS_flushable. split_and!; try done.
  - apply td_acyclic.
  - apply td_calm.
  - apply td_restless.
  - destruct b; vm_compute; reflexivity.
  - destruct b; vm_compute; reflexivity.
Qed.

(** The same for cursors that are still reading while rows are saved and markers deleted:
    however the passes go, there is no infinite sequence of them. *)
Theorem any_cursor_terminates b S rand imm depth E ρ σ d :
  mk_env b S rand imm depth = Ok E → wf_schema S → names_apart S → no_m2m_denorm S →
  value_acyclic S ρ d → calm b S σ → Acc (λ y x, round E S x y) d.
Proof. exact (rounds_end_ok b S rand imm depth E ρ σ d). Qed.
Print Assumptions any_cursor_terminates.
(** The passes of flush are such passes. *)
Theorem flush_pass_is_round E S ord d d' :
  (∀ x l mk, mk ∈ ord x l ↔ mk ∈ l) → d_dirty d ≠ [] →
  flush_pass E S (snapshot E ord d) d = (d', Done) → round E S d d'.
Proof. exact (flush_pass_round E S ord d d'). Qed.
Print Assumptions flush_pass_is_round.
(** A cursor that also returns the markers set during its pass, and some markers twice:
    one pass is enough here. *)
Definition live_l (b : backend) : list marker :=
  d_dirty (td b) ++ flat_map (λ n, d_dirty (flush (env_of b TS true) TS id_ord n (td b)).1) [1%nat; 2%nat; 3%nat].
Example any_cursor_ex b : ∃ d', round (env_of b TS true) TS (td b) d' ∧ d_dirty d' = [].
Proof.
  destruct (cursor_exec_round (env_of b TS true) TS (live_l b) (td b) (λ d, bool_decide (d_dirty d = []))) as (d' & Hr & Hd%bool_decide_eq_true);
    [destruct b; vm_compute; reflexivity|by exists d'].
Qed.

(** ** C23 *)
(** Two databases with the same user data and the same aggregates; the computed
    columns and the markers may differ.  Each is flushed completely, on any backend, in
    any order.  The results have the same rows with the same ordinary and callback
    columns. *)
Theorem flush_order_irrelevant S ρ
  b1 rand1 imm1 depth1 E1 rank1 ord1 n1 s1 d1 b2 rand2 imm2 depth2 E2 rank2 ord2 n2 s2 d2 :
  mk_env b1 S rand1 imm1 depth1 = Ok E1 → flushable S rank1 imm1 →
  mk_env b2 S rand2 imm2 depth2 = Ok E2 → flushable S rank2 imm2 →
  value_acyclic S ρ s1 → user_data_kept S s1 s2 → steady_kept S s1 s2 →
  links_ok S s1 → consistent_or_marked S s1 → no_self_relation S s1 →
  links_ok S s2 → consistent_or_marked S s2 → no_self_relation S s2 →
  flush E1 S ord1 n1 s1 = (d1, Done) → flush E2 S ord2 n2 s2 = (d2, Done) →
  ∀ m, m ∈ s_models S → same_rows (m_table m) (λ c, plain_col m c ∨ callback_col m c) d1 d2.
Proof.
  exact (λ HE1 F1 HE2 F2 Hac K A L1 C1 N1 L2 C2 N2, order_irrelevant S ρ
    b1 rand1 imm1 depth1 E1 rank1 ord1 n1 s1 d1 b2 rand2 imm2 depth2 E2 rank2 ord2 n2 s2 d2
    HE1 F1 HE2 F2 Hac K A (conj L1 (conj C1 N1)) (conj L2 (conj C2 N2))).
Qed.
Print Assumptions flush_order_irrelevant.
(** In particular from one database. *)
Theorem flush_order_irrelevant_same S ρ s
  b1 rand1 imm1 depth1 E1 rank1 ord1 n1 d1 b2 rand2 imm2 depth2 E2 rank2 ord2 n2 d2 :
  mk_env b1 S rand1 imm1 depth1 = Ok E1 → flushable S rank1 imm1 →
  mk_env b2 S rand2 imm2 depth2 = Ok E2 → flushable S rank2 imm2 →
  value_acyclic S ρ s → links_ok S s → consistent_or_marked S s → no_self_relation S s →
  flush E1 S ord1 n1 s = (d1, Done) → flush E2 S ord2 n2 s = (d2, Done) →
  ∀ m, m ∈ s_models S → same_rows (m_table m) (λ c, plain_col m c ∨ callback_col m c) d1 d2.
Proof.
  exact (λ HE1 F1 HE2 F2 Hac L C N, order_irrelevant S ρ
    b1 rand1 imm1 depth1 E1 rank1 ord1 n1 s d1 b2 rand2 imm2 depth2 E2 rank2 ord2 n2 s d2
    HE1 F1 HE2 F2 Hac (Frame.kept_refl S s) (steady_kept_refl S s) (conj L (conj C N)) (conj L (conj C N))).
Qed.
Print Assumptions flush_order_irrelevant_same.
(** Rebuilding everything gives the same values as flushing. *)
Theorem rebuild_equals_flush S ρ
  b1 rand1 imm1 depth1 E1 rank1 ord1 n1 s1 d1 b2 rand2 imm2 depth2 E2 rank2 ord2 n2 s2 d2 :
  mk_env b1 S rand1 imm1 depth1 = Ok E1 → flushable S rank1 imm1 →
  mk_env b2 S rand2 imm2 depth2 = Ok E2 → flushable S rank2 imm2 →
  value_acyclic S ρ s1 → user_data_kept S s1 s2 → steady_kept S s1 s2 →
  links_ok S s1 → consistent_or_marked S s1 → no_self_relation S s1 →
  links_ok S s2 → no_self_relation S s2 →
  (∀ m k r, m ∈ s_models S → getrow s2 (m_table m) k = Some r → m_visible m r = true) →
  flush E1 S ord1 n1 s1 = (d1, Done) → rebuildall E2 S ord2 n2 None None s2 = (d2, Done) →
  ∀ m, m ∈ s_models S → same_rows (m_table m) (λ c, plain_col m c ∨ callback_col m c) d1 d2.
Proof.
  exact (λ HE1 F1 HE2 F2 Hac K A L1 C1 N1, rebuild_same S ρ
    b1 rand1 imm1 depth1 E1 rank1 ord1 n1 s1 d1 b2 rand2 imm2 depth2 E2 rank2 ord2 n2 s2 d2
    HE1 F1 HE2 F2 Hac K A (conj L1 (conj C1 N1))).
Qed.
Print Assumptions rebuild_equals_flush.
(** The tree again, the markers taken from either end of the list. *)
Definition rev_ord (_ : db) (l : list marker) : list marker := reverse l.
Example flush_order_irrelevant_ex b :
  flushable TS t_rank true ∧ value_acyclic TS t_ρ (td b) ∧ links_ok TS (td b) ∧ consistent_or_marked TS (td b) ∧ no_self_relation TS (td b) ∧
  let d1 := flush (env_of b TS true) TS id_ord 10 (td b) in let d2 := flush (env_of b TS true) TS rev_ord 10 (td b) in
  d1.2 = Done ∧ d2.2 = Done ∧ cellv d1.1 "forum" 3 "path" = Some (VText "/z/b/c/") ∧ cellv (td b) "forum" 3 "path" = Some (VText "/a/b/c/") ∧
  cellv d2.1 "post" 1 "response_count" = Some (VInt 3) ∧ d_dirty (flush (env_of b TS true) TS id_ord 1 (td b)).1 ≠ d_dirty (flush (env_of b TS true) TS rev_ord 1 (td b)).1.
Proof.
  split; [exact TS_flushable|]. split; [apply td_acyclic|]. destruct (td_inv b) as (L & C & N). split; [done|]. split; [done|]. split; [done|].
  cbv zeta. split_and!; try (destruct b; vm_compute; reflexivity).
  destruct b; apply (bool_decide_unpack _); vm_compute; exact I.
Qed.

(** Without acyclic value dependencies: f(self) = 1 - f(sibling), two rows being each
    other's sibling.  Everything else holds, flush returns, and the order decides
    which row gets the 1. *)
Definition cb_flip : callback := λ d _ r,
  match col r "sibling_id" with
  | VInt j => match getrow d "a" j with Some p => Ok (PVal (match col p "f" with VInt 1 => VInt 0 | _ => VInt 1 end)) | None => Ok (PVal VNull) end
  | _ => Ok (PVal VNull)
  end.
Definition cy_dep : dep := Dep "A" (RelForward "sibling_id") [].
Definition CyA : model := mkmodel "A" "a" 20 [fkf "sibling" "A" "A"; cbf "f" "A" cb_flip [cy_dep] []] [].
Definition CY : schema := Schema [CyA] false.
Lemma CY_flushable : flushable CY (λ _, 0%nat) true.
Proof.
  apply (flushableb_spec _ _ _ (λ _ _, Reads ["sibling_id"] [(cy_dep, ["f"])])); [by vm_compute| |].
  - intros m r Hm. by apply elem_of_list_singleton in Hm as ->.
  - intros m f fn ds sk Hm Hf Hk. simpl in Hm. apply elem_of_list_singleton in Hm as ->. simpl in Hf.
    repeat (apply elem_of_cons in Hf as [->|Hf]); [..|by apply elem_of_nil in Hf]; simpl in Hk; try discriminate Hk; injection Hk as <- <- <-.
    intros d d' k r r' Ho Hv. specialize (Hv _ _ (elem_of_list_here _ _)). specialize (Ho _ (elem_of_list_here _ _)).
    unfold dep_view in Hv. simpl in Hv. unfold cb_flip. rewrite Ho in *. destruct (col r' "sibling_id") as [|j|]; [done| |done].
    injection Hv as Hv. destruct (getrow d "a" j) as [x|], (getrow d' "a" j) as [y|]; try done. simpl in Hv. injection Hv as Hv. by rewrite Hv.
Qed.
Definition cy_ops : list op :=
  [ OSave "A" None (rowof [("sibling_id", VNull)]); OSave "A" None (rowof [("sibling_id", VNull)]);
    OUpdate "a" [1] (λ r, <["sibling_id" := VInt 2]> r); OUpdate "a" [2] (λ r, <["sibling_id" := VInt 1]> r) ].
Definition cy_d (b : backend) : db := foldl (step (env_of b CY true) CY) d0 cy_ops.
(** The markers equal to [mk] first. *)
Definition ord_first (mk : marker) (_ : db) (l : list marker) : list marker := filter (mk =.) l ++ filter (λ x, mk ≠ x) l.
Lemma ord_first_in mk x l mk' : mk' ∈ ord_first mk x l ↔ mk' ∈ l.
Proof. unfold ord_first. rewrite elem_of_app, !elem_of_list_filter. destruct (decide (mk = mk')); naive_solver. Qed.
Theorem flush_order_cyclic_refuted b : ∃ S rank s ord1 ord2 d1 d2,
  mk_env b S rand0 true 10 = Ok (env_of b S true) ∧ flushable S rank true ∧
  links_ok S s ∧ consistent_or_marked S s ∧ no_self_relation S s ∧
  (∀ x l mk, mk ∈ ord1 x l ↔ mk ∈ l) ∧ (∀ x l mk, mk ∈ ord2 x l ↔ mk ∈ l) ∧
  flush (env_of b S true) S ord1 10 s = (d1, Done) ∧ flush (env_of b S true) S ord2 10 s = (d2, Done) ∧
  ∃ m c k r1 r2, m ∈ s_models S ∧ callback_col m c ∧ getrow d1 (m_table m) k = Some r1 ∧ getrow d2 (m_table m) k = Some r2 ∧ col r1 c ≠ col r2 c.
Proof.
  assert (HE : mk_env b CY rand0 true 10 = Ok (env_of b CY true)) by (destruct b; vm_compute; reflexivity).
  exists CY, (λ _, 0%nat), (cy_d b), (ord_first (20, Some "1")), (ord_first (20, Some "2")), (flush (env_of b CY true) CY (ord_first (20, Some "1")) 10 (cy_d b)).1, (flush (env_of b CY true) CY (ord_first (20, Some "2")) 10 (cy_d b)).1.
  split; [done|]. split; [exact CY_flushable|].
  destruct (finv_empty CY d0 eq_refl) as (L & C & _).
  destruct (fsteps_inv b CY rand0 true 10 (env_of b CY true) (λ _, 0%nat) HE CY_flushable cy_ops d0 L C) as [L' C'].
  split; [exact L'|]. split; [exact C'|]. split; [apply no_self_relationb_spec; destruct b; vm_compute; reflexivity|].
  split; [intros; apply ord_first_in|]. split; [intros; apply ord_first_in|].
  split; [apply flush_pair; destruct b; vm_compute; reflexivity|]. split; [apply flush_pair; destruct b; vm_compute; reflexivity|].
  assert (H1 : (flip col "f") <$> getrow (flush (env_of b CY true) CY (ord_first (20, Some "1")) 10 (cy_d b)).1 "a" 1 = Some (VInt 1)) by (destruct b; vm_compute; reflexivity).
  assert (H2 : (flip col "f") <$> getrow (flush (env_of b CY true) CY (ord_first (20, Some "2")) 10 (cy_d b)).1 "a" 1 = Some (VInt 0)) by (destruct b; vm_compute; reflexivity).
  apply fmap_Some in H1 as (r1 & Hr1 & H1), H2 as (r2 & Hr2 & H2). exists CyA, "f", 1, r1, r2.
  split; [by left|]. split; [exists (cbf "f" "A" cb_flip [cy_dep] []), cb_flip, [cy_dep], []; split_and!; [right; by left|done|done]|].
  split; [done|]. split; [done|]. unfold flip in *. congruence.
Qed.
Print Assumptions flush_order_cyclic_refuted.

(** ** C22: what can be said in general about cyclic dependencies *)
(** If no values of the computed columns fit the user data, flush does not return
    normally, however long it runs and in whatever order the markers are taken. *)
Theorem unsolvable_never_returns b S rand imm depth E rank hs d ord n :
  mk_env b S rand imm depth = Ok E → flushable S rank imm → no_self_dep S →
  links_ok S d → consistent_or_marked S d →
  (∀ d', user_data_kept S (foldl (hstep E S) d hs) d' → ¬ consistent S d') →
  (flush E S ord n (foldl (hstep E S) d hs)).2 ≠ Done.
Proof.
  intros HE Hfl Hns HL HC Hun Ho. destruct (flush E S ord n (foldl (hstep E S) d hs)) as [d' o] eqn:H. simpl in Ho. subst o.
  apply (Hun d'); [by eapply Frame.flush_kept; [apply (fl_wf _ _ _ Hfl)|..]|].
  by eapply (hist_flush b S rand imm depth E rank HE Hfl Hns hs d ord n d' (conj HL (conj HC (no_self_dep_rel S d Hns)))).
Qed.
Print Assumptions unsolvable_never_returns.
Definition cb_of (fk t c : string) (g : val → val) : callback := λ d _ r,
  match col r fk with
  | VInt j => match getrow d t j with Some x => Ok (PVal (g (col x c))) | None => Ok (PVal VNull) end
  | _ => Ok (PVal VNull)
  end.
Definition one_less (v : val) : val := match v with VInt z => VInt (1 - z) | _ => VInt 0 end.
Definition yin : model := mkmodel "Yin" "yin" 20 [fkf "o" "Yang" "Yin"; cbf "f" "Yin" (cb_of "o_id" "yang" "g" one_less) [Dep "Yang" (RelForward "o_id") []] []] [].
Definition yang : model := mkmodel "Yang" "yang" 21 [fkf "o" "Yin" "Yang"; cbf "g" "Yang" (cb_of "o_id" "yin" "f" id) [Dep "Yin" (RelForward "o_id") []] []] [].
Definition YY : schema := Schema [yin; yang] false.
Definition yy_rds (m : model) (f : field) : reads :=
  if decide (f_col f = "f") then Reads ["o_id"] [(Dep "Yang" (RelForward "o_id") [], ["g"])] else Reads ["o_id"] [(Dep "Yin" (RelForward "o_id") [], ["f"])].
Definition yy_ops : list op :=
  [ OInsert "yin" [(1, rowof [("o_id", VNull); ("f", VNull)])]; OInsert "yang" [(1, rowof [("o_id", VInt 1); ("g", VNull)])];
    OUpdate "yin" [1] (λ r, <["o_id" := VInt 1]> r) ].
Definition yy_d (b : backend) : db := foldl (hstep (env_of b YY true) YY) d0 (HOp <$> yy_ops).
Lemma YY_flushable : flushable YY (λ _, 0%nat) true.
Proof.
  apply (flushableb_spec _ _ _ yy_rds); [by vm_compute|..].
  - intros m r Hm. simpl in Hm. repeat (apply elem_of_cons in Hm as [->|Hm]); [done..|by apply elem_of_nil in Hm].
  - intros m f fn ds sk Hm Hf Hk. simpl in Hm.
    repeat (apply elem_of_cons in Hm as [->|Hm]); [..|by apply elem_of_nil in Hm]; simpl in Hf;
    (repeat (apply elem_of_cons in Hf as [->|Hf]); [..|by apply elem_of_nil in Hf]); simpl in Hk; try discriminate Hk; injection Hk as <- <- <-;
    (intros d d' k r r' Ho Hv; specialize (Hv _ _ (elem_of_list_here _ _)); unfold dep_view in Hv; simpl in Hv;
     unfold cb_of; rewrite (Ho "o_id") in * by (simpl; set_solver); destruct (col r' "o_id") as [|j|]; [done| |done]; injection Hv as Hv;
     match type of Hv with context [getrow d ?t j] => destruct (getrow d t j), (getrow d' t j) end; try done; simpl in Hv; injection Hv as Hv; by rewrite Hv).
Qed.
Lemma YY_unsolvable d d' : cellv d "yin" 1 "o_id" = Some (VInt 1) → cellv d "yang" 1 "o_id" = Some (VInt 1) → user_data_kept YY d d' → ¬ consistent YY d'.
Proof.
  intros H1 H2 [K _] C. unfold cellv in *. apply fmap_Some in H1 as (r1 & H1 & C1). apply fmap_Some in H2 as (r2 & H2 & C2).
  pose proof (K yin ltac:(by left) 1) as K1. pose proof (K yang ltac:(by right; left) 1) as K2.
  cbn [m_table yin yang mkmodel] in K1, K2. rewrite H1 in K1. rewrite H2 in K2.
  destruct (getrow d' "yin" 1) as [s1|] eqn:G1; [|done]. destruct (getrow d' "yang" 1) as [s2|] eqn:G2; [|done].
  assert (P1 : plain_col yin "o_id") by (exists (fkf "o" "Yang" "Yin"); split; [by left|done]).
  assert (P2 : plain_col yang "o_id") by (exists (fkf "o" "Yin" "Yang"); split; [by left|done]).
  specialize (K1 _ P1). specialize (K2 _ P2). rewrite <- C1 in K1. rewrite <- C2 in K2.
  pose proof (C yin 1 s1 _ ltac:(by left) ltac:(by right; left) G1) as E1. pose proof (C yang 1 s2 _ ltac:(by right; left) ltac:(by right; left) G2) as E2.
  unfold row_consistent in E1, E2. simpl in E1, E2. unfold cb_of in E1, E2. rewrite <- K1, G2 in E1. rewrite <- K2, G1 in E2.
  destruct E1 as (p1 & [= <-] & E1). destruct E2 as (p2 & [= <-] & E2). simpl in E1, E2. rewrite E1 in E2. unfold one_less, id in E2. revert E1 E2. destruct (col s2 "g"); intros; simplify_eq/=; lia.
Qed.
Example unsolvable_ex b : mk_env b YY rand0 true 10 = Ok (env_of b YY true) ∧ flushable YY (λ _, 0%nat) true ∧ no_self_dep YY ∧
  links_ok YY d0 ∧ consistent_or_marked YY d0 ∧ ∀ d', user_data_kept YY (yy_d b) d' → ¬ consistent YY d'.
Proof.
  split; [destruct b; vm_compute; reflexivity|]. split; [apply YY_flushable|].
  split.
  { intros m f fn ds sk dp Hm Hf Hk Hd. simpl in Hm.
    repeat (apply elem_of_cons in Hm as [->|Hm]); [..|by apply elem_of_nil in Hm]; simpl in Hf;
    (repeat (apply elem_of_cons in Hf as [->|Hf]); [..|by apply elem_of_nil in Hf]); simpl in Hk; try discriminate Hk; injection Hk as <- <- <-;
    apply elem_of_list_singleton in Hd as ->; discriminate. }
  destruct (finv_empty YY d0 eq_refl) as (L & C & _). split; [done|]. split; [done|].
  intros d'. apply YY_unsolvable; destruct b; vm_compute; reflexivity.
Qed.
