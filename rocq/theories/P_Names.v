(** * Property theorems: which triggers are built, and their names. *)
From Verif Require Import Base BaseLemmas Schema TrigSet Gen Exec Orm Spec GenLemmas Merge Conditions Names Check ExForum ExRich.

(** ** C30 *)
(** At most one trigger per table, event and content type. *)
Theorem one_trigger_per_event b S ts p q :
  build_triggerset b S = Ok ts → p ∈ ts → q ∈ ts → slot b p.2 = slot b q.2 → p = q.
Proof. exact (one_per_slot b S ts p q). Qed.
Print Assumptions one_trigger_per_event.
(** It runs every action requested by a denormalization for this table and event, once,
    and no other; and every requested trigger is there. *)
Theorem requested_actions_exactly b S ts :
  wf_schema S → names_apart S → build_triggerset b S = Ok ts →
  (∀ n tr0 it, (n, tr0) ∈ ts → trig_sql b tr0 = Ok it →
    NoDup (i_acts it) ∧ i_tab it = t_tab tr0 ∧ i_ev it = t_ev tr0 ∧
    ∀ a, a ∈ i_acts it ↔ ∃ m f lf tr, (m, f) ∈ alldenorms S ∧ field_triggers S m f = Ok lf ∧ tr ∈ lf ∧ slot b tr = slot b tr0 ∧ a ∈ t_acts tr) ∧
  (∀ m f, (m, f) ∈ alldenorms S → ∃ lf, field_triggers S m f = Ok lf ∧ ∀ tr, tr ∈ lf → ∃ n tr0, (n, tr0) ∈ ts ∧ slot b tr = slot b tr0).
Proof. exact (acts_exact b S ts). Qed.
Print Assumptions requested_actions_exactly.
(** In the forum schema the update trigger on the post table runs ten of the twelve requested actions. *)
Example requested_actions_ex b : wf_schema RS ∧ names_apart RS ∧
  match build_triggerset b RS with
  | Ok ts => match filter (λ p : string * trigger, p.1 = "denorm_after_row_update_on_post") ts with
             | [p] => length (dedup [] (t_acts p.2)) = 10%nat ∧ length (t_acts p.2) = 12%nat
             | _ => False end
  | Err _ => False end.
Proof.
  split; [apply wf_schemab_spec; vm_compute; reflexivity|]. split; [apply names_apartb_spec; vm_compute; reflexivity|].
  destruct b; vm_compute; split; reflexivity.
Qed.
(** Registering a denormalization again (get_alldenorms lists inherited fields once per
    model of the inheritance chain) installs the same triggers. *)
Theorem registered_twice_same b S p ps1 ps2 : p ∈ ps1 →
  (let* ts := build_from b S (ps1 ++ p :: ps2) in tset_sql b ts) = (let* ts := build_from b S (ps1 ++ ps2) in tset_sql b ts).
Proof. exact (twice_same b S p ps1 ps2). Qed.
Print Assumptions registered_twice_same.
Example registered_twice_ex b : alldenorms RS = [(RForum, f_count); (RForum, f_sum); (RForum, f_total); (RForum, f_ck); (RPost, f_ft); (RPost, f_tw); (RPost, f_rating); (RMember, f_bm)] ∧
  installed b RS = (let* ts := build_from b RS (alldenorms RS) in tset_sql b ts).
Proof. split; reflexivity. Qed.

(** ** C31 *)
(** Names determine table, event and content type, except that a trigger of a generic
    relation may be called like an ordinary trigger of another table. *)
Theorem names_never_collide b t1 t2 :
  trig_name b t1 = trig_name b t2 → (b = MySQL ∨ (t_ctf t1 = None ↔ t_ctf t2 = None)) → slot b t1 = slot b t2.
Proof. exact (name_slot b t1 t2). Qed.
Print Assumptions names_never_collide.
Example names_never_collide_ex b :
  trig_name b (Trigger "a" EvIns [] None 5 []) ≠ trig_name b (Trigger "a" EvDel [] None 5 []) ∧
  trig_name Postgres (Trigger "a" EvIns [] (Some "c") 5 []) ≠ trig_name Postgres (Trigger "a" EvIns [] (Some "c") 55 []).
Proof. split; [destruct b|]; vm_compute; discriminate. Qed.
(** Post has a generic relation to table tag (content type 11); another table is called
    tag_11.  All triggers for tag_11 are merged into those of tag. *)
Definition nc_post : model := mkmodel "Post" "post" 11 [plain "title" "Post"; cbf "tw" "Post" cb_tag_weight [dep_tags] []] [].
Definition nc_t11 : model := mkmodel "Eleven" "tag_11" 14 [plain "title" "Eleven"] [].
Definition nc_doc : model := mkmodel "Doc" "doc" 15 [fkf "forum" "Eleven" "Doc"; cbf "t" "Doc" cb_forum_title [Dep "Eleven" (RelForward "forum_id") []] []] [].
Definition NC : schema := Schema [nc_post; RTag; nc_t11; nc_doc] false.
Theorem names_never_collide_refuted : ∀ b, b ≠ MySQL → ∃ S l ts its t1 t2,
  wf_schema S ∧ gen_all S = Ok l ∧ build_triggerset b S = Ok ts ∧ tset_sql b ts = Ok its ∧ t1 ∈ l ∧ t2 ∈ l ∧
  t_tab t1 ≠ t_tab t2 ∧ trig_name b t1 = trig_name b t2 ∧
  (∀ it, it ∈ its → i_tab it ≠ t_tab t2) ∧
  ∃ it a, it ∈ its ∧ a ∈ t_acts t2 ∧ a ∈ i_acts it ∧ i_tab it = t_tab t1.
Proof.
  intros b Hb.
  assert (Hl : match gen_all NC with Ok l => True | Err _ => False end) by (vm_compute; exact I).
  destruct (gen_all NC) as [l|] eqn:E1; [|done].
  assert (Hts : match build_triggerset b NC with Ok ts => match tset_sql b ts with Ok its =>
     Forall (λ it, i_tab it ≠ "tag_11") its ∧ Exists (λ it, i_tab it = "tag" ∧ AMarkSel 15 "doc" "id" "forum_id" RNew "id" ∈ i_acts it) its | _ => False end | _ => False end)
    by (destruct b; [| |done]; (split; apply (bool_decide_unpack _); vm_compute; exact I)).
  destruct (build_triggerset b NC) as [ts|] eqn:E2; [|done]. destruct (tset_sql b ts) as [its|] eqn:E3; [|done]. destruct Hts as [H1 H2].
  exists NC, l, ts, its, (gen_trigger RTag "ctype_id" 11 EvUpd [AMark 11 RNew "object_id"; AMark 11 ROld "object_id"]),
    (model_trigger nc_t11 15 [] EvUpd [AMarkSel 15 "doc" "id" "forum_id" RNew "id"]).
  assert (Hwf : wf_schema NC) by (apply wf_schemab_spec; vm_compute; reflexivity).
  split; [done|]. split; [done|]. split; [done|]. split; [done|].
  split; [apply (gen_all_elem _ _ _ E1); exists nc_post, (cbf "tw" "Post" cb_tag_weight [dep_tags] []); eexists; split; [apply alldenorms_elem; [done|]; split_and!; [left|right; left|done]|]; split; [reflexivity|do 2 right; left]|].
  split; [apply (gen_all_elem _ _ _ E1); exists nc_doc, (cbf "t" "Doc" cb_forum_title [Dep "Eleven" (RelForward "forum_id") []] []); eexists; split; [apply alldenorms_elem; [done|]; split_and!; [do 3 right; left|right; left|done]|]; split; [reflexivity|do 2 right; left]|].
  split; [done|]. split; [by destruct b|]. split; [intros it Hit; by eapply (proj1 (Forall_forall _ _) H1)|].
  apply Exists_exists in H2 as (it & Hit & T1 & T2). exists it, (AMarkSel 15 "doc" "id" "forum_id" RNew "id"). split; [done|]. split; [left|]. done.
Qed.
Print Assumptions names_never_collide_refuted.
