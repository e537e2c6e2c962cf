(** * Property theorems: resolving a dependency. *)
From Verif Require Import Base BaseLemmas Conditions Resolve.
Open Scope list_scope.

(** ** C29 *)
(** A relation is returned iff it is the only one between the two models with the given
    name and type. *)
Theorem resolves_iff_unique this other name ty d f :
  NoDup (rf_name <$> rm_fields this) → NoDup (rf_name <$> rm_fields other) → reprs_apart this other →
  resolve this other name ty = Resolved d f ↔
  (relation_of this other name d f ∧ typed this other ty d) ∧
  ∀ d' f', relation_of this other name d' f' ∧ typed this other ty d' → (d', f') = (d, f).
Proof. exact (resolve_spec this other name ty d f). Qed.
Print Assumptions resolves_iff_unique.
(** The two ValueErrors: no relation, or at least two. *)
Theorem no_relation_iff this other name ty : reprs_apart this other →
  resolve this other name ty = NoRelation ↔ ∀ d f, ¬ (relation_of this other name d f ∧ typed this other ty d).
Proof. exact (none_spec this other name ty). Qed.
Print Assumptions no_relation_iff.
Theorem resolving_again_same this other name ty d f :
  resolve this other name ty = Resolved d f → resolve this other name (Some (dir_str d)) = Resolved d f.
Proof. exact (resolve_again_spec this other name ty d f). Qed.
Print Assumptions resolving_again_same.

Definition ex_post : rmodel := RModel "app.models.Post" [RField "forum" RkFK (Some "app.models.Forum"); RField "author" RkFK (Some "app.models.Member");
  RField "editor" RkFK (Some "app.models.Member"); RField "tags" RkPrivate (Some "app.models.Tag"); RField "subject" RkPrivate None; RField "response_to" RkFK (Some "app.models.Post")].
Definition ex_member : rmodel := RModel "app.models.Member" [RField "bookmarks" RkM2M (Some "app.models.Post")].
Example resolve_ex : NoDup (rf_name <$> rm_fields ex_post) ∧ NoDup (rf_name <$> rm_fields ex_member) ∧ reprs_apart ex_post ex_member ∧
  resolve ex_post ex_member None None = Ambiguous ∧
  resolve ex_post ex_member (Some "author") None = Resolved DForward (RField "author" RkFK (Some "app.models.Member")) ∧
  resolve ex_post ex_member (Some "editor_id") None = Resolved DForward (RField "editor" RkFK (Some "app.models.Member")) ∧
  resolve ex_post ex_member None (Some "backward_m2m") = Resolved DBackwardM2M (RField "bookmarks" RkM2M (Some "app.models.Post")) ∧
  resolve ex_post ex_post None None = Resolved DForward (RField "response_to" RkFK (Some "app.models.Post")) ∧
  resolve ex_post ex_post None (Some "backward") = Resolved DBackward (RField "response_to" RkFK (Some "app.models.Post")) ∧
  resolve ex_member ex_member None None = NoRelation.
Proof.
  split; [apply (bool_decide_unpack _); vm_compute; exact I|]. split; [apply (bool_decide_unpack _); vm_compute; exact I|]. split.
  - intros m m' f s Hm Hm' Hf Hs Hl.
    assert (Hall : Forall (λ f, match rf_to f with Some s => Forall (λ m', lower s = lower (rm_id m') → s = rm_id m') [ex_post; ex_member] | None => True end) (rm_fields ex_post ++ rm_fields ex_member)).
    { repeat constructor; simpl; intros H; try done; vm_compute in H; discriminate. }
    assert (Hin : f ∈ rm_fields ex_post ++ rm_fields ex_member) by (apply elem_of_app; destruct Hm as [-> | ->]; tauto).
    apply (proj1 (Forall_forall _ _) Hall) in Hin. rewrite Hs in Hin. apply (proj1 (Forall_forall _ _) Hin); [|done].
    destruct Hm' as [-> | ->]; [left|right; left].
  - split_and!; vm_compute; reflexivity.
Qed.

(** Two classes whose names differ in case only are confused: Post is related to TAG and not
    to Tag, but a dependency on Tag is resolved. *)
Theorem resolves_other_case_refuted : ∃ this other d f,
  NoDup (rf_name <$> rm_fields this) ∧ NoDup (rf_name <$> rm_fields other) ∧
  resolve this other None None = Resolved d f ∧ ∀ d' f', ¬ relation_of this other None d' f'.
Proof.
  exists (RModel "app.models.Post" [RField "tag" RkFK (Some "app.models.TAG")]), (RModel "app.models.Tag" []), DForward, (RField "tag" RkFK (Some "app.models.TAG")).
  split; [apply (bool_decide_unpack _); vm_compute; exact I|]. split; [constructor|]. split; [vm_compute; reflexivity|].
  intros d' f' [H _]. destruct d'; simpl in H; destruct H as (H1 & H2 & H3);
    repeat (apply elem_of_cons in H1 as [->|H1]; [simpl in *; done|]); by apply elem_of_nil in H1.
Qed.
Print Assumptions resolves_other_case_refuted.
