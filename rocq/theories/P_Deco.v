(** * Claims on the decorators of a class body (C122, C123). *)
From Verif Require Import Base BaseLemmas Deco.
Open Scope list_scope.

(** ** C123 *)
(** A function decorated in one place, whatever surrounds it in the class body: the field
    registers exactly the dependencies below the field decorator, the nearest first. *)
Theorem decorated_registers_below {D : Type} pre x (below : list D) k above post s : Forall (apart x) post →
  run_body (pre ++ decorated x below k above ++ post) empty_scope = Ok s → registered s x = Some below.
Proof. exact (decorated_fields pre x below k above post s). Qed.
Print Assumptions decorated_registers_below.
(** It can be made unless it is cached and has no dependency. *)
Theorem decorated_accepted {D : Type} pre x (below : list D) k above s : run_body pre empty_scope = Ok s →
  (∃ s', run_body (decorated x below k above) s = Ok s') ↔ k = FDenorm ∨ below ≠ [].
Proof. exact (λ H, decorated_runs x below k above s (run_inside pre s H)). Qed.
Print Assumptions decorated_accepted.
(** Any class body, with functions shared and renamed at will: a denormalized field registers
    everything that is declared on its function anywhere in the body, a cached field what was
    declared before it was made.  [z] is any name that stands for the field at the end. *)
Theorem denormalized_registers_all {D : Type} (pre : list (stmt (D := D))) x y post s z : run_body (pre ++ SDenorm x y :: post) empty_scope = Ok s →
  stands_for (rev (pre ++ SDenorm x y :: post)) z = Some (made (rev pre)) →
  ∃ f, stands_for (rev pre) y = Some f ∧ registered s z = Some (declared (rev (pre ++ SDenorm x y :: post)) f).
Proof. exact (registered_exactly pre x FDenorm y post s z). Qed.
Print Assumptions denormalized_registers_all.
Theorem cached_registers_before {D : Type} (pre : list (stmt (D := D))) x y post s z : run_body (pre ++ SCached x y :: post) empty_scope = Ok s →
  stands_for (rev (pre ++ SCached x y :: post)) z = Some (made (rev pre)) →
  ∃ f, stands_for (rev pre) y = Some f ∧ registered s z = Some (declared (rev pre) f).
Proof. exact (registered_exactly pre x FCached y post s z). Qed.
Print Assumptions cached_registers_before.
(** One function, two fields of each kind: h is "1", then "2" is declared, and g is its other name. *)
Definition dc_shared : list (stmt (D := string)) :=
  [SDef "h"; SDepend "g" "h" "1"; SDenorm "a" "h"; SCached "b" "g"; SDepend "h" "g" "2"; SDenorm "c" "g"; SCached "d" "h"; SDepend "e" "a" "3"].
Example shared_ex : stands_for (rev dc_shared) "e" = Some (made (rev (take 2 dc_shared))) ∧ stands_for (rev (take 2 dc_shared)) "h" = Some 0%nat ∧
  stands_for (rev dc_shared) "b" = Some (made (rev (take 3 dc_shared))) ∧
  declared (rev dc_shared) 0 = ["1"; "2"] ∧ declared (rev (take 3 dc_shared)) 0 = ["1"] ∧
  (λ s, (λ x, registered s x) <$> ["a"; "e"; "b"; "c"; "d"; "h"]) <$> (match run_body dc_shared empty_scope with Ok s => Some s | Err _ => None end) =
  Some [Some ["1"; "2"]; Some ["1"; "2"]; Some ["1"]; Some ["1"; "2"]; Some ["1"; "2"]; None].
Proof. repeat split; vm_compute; reflexivity. Qed.
(** Two fields; another function uses the name of a helper twice. *)
Definition dc_body : list (stmt (D := string)) :=
  decorated "a" ["x"; "y"] FDenorm [] ++ decorated "b" ["z"] FCached ["w"] ++ [SDef "h"; SDepend "h" "h" "v"; SDenorm "c" "h"].
Example decorated_ex : Forall (apart "a") (drop 4 dc_body) ∧
  (λ s, (λ x, registered s x) <$> ["a"; "b"; "c"; "h"]) <$> (match run_body dc_body empty_scope with Ok s => Some s | Err _ => None end) =
  Some [Some ["x"; "y"]; Some ["z"]; Some ["v"]; None].
Proof. split; [repeat (apply Forall_cons; split); simpl; try done; try apply Forall_nil; done|]. vm_compute. reflexivity. Qed.

(** ** C122 *)
(** "Every applied decorator is registered for its field, and nothing else": refuted.  A decorator
    above the field decorator sets an attribute of the field that nobody reads. *)
Theorem dependency_above_refuted : ∀ k : fkind, ∃ (body : list (stmt (D := string))) x c s l, SDepend x x c ∈ body ∧
  run_body body empty_scope = Ok s ∧ registered s x = Some l ∧ c ∉ l.
Proof.
  intros k. exists (decorated "a" ["x"] k ["y"]), "a", "y", (match run_body (decorated "a" ["x"] k ["y"]) empty_scope with Ok s => s | Err _ => empty_scope end), ["x"].
  split; [unfold decorated; simpl; set_solver|]. split; [destruct k; vm_compute; reflexivity|]. split; [destruct k; vm_compute; reflexivity|]. set_solver.
Qed.
Print Assumptions dependency_above_refuted.
(** A function used for two fields: the first registers what was declared for the second. *)
Theorem shared_function_refuted : ∃ (pre post : list (stmt (D := string))) x c s1 l s, run_body pre empty_scope = Ok s1 ∧ registered s1 x = Some l ∧ c ∉ l ∧
  Forall (apart x) post ∧ run_body post s1 = Ok s ∧ ∃ l', registered s x = Some l' ∧ c ∈ l'.
Proof.
  set (pre := [SDef "f"; SDepend "a" "f" "x"; SDenorm "a" "a"] : list (stmt (D := string))). set (post := [SDepend "b" "f" "y"; SDenorm "b" "b"] : list (stmt (D := string))).
  exists pre, post, "a", "y", (match run_body pre empty_scope with Ok s => s | Err _ => empty_scope end), ["x"], (match run_body (pre ++ post) empty_scope with Ok s => s | Err _ => empty_scope end).
  split; [vm_compute; reflexivity|]. split; [vm_compute; reflexivity|]. split; [set_solver|]. split; [repeat (apply Forall_cons; split); try apply Forall_nil; done|].
  split; [vm_compute; reflexivity|]. exists ["x"; "y"]. split; [vm_compute; reflexivity|]. set_solver.
Qed.
Print Assumptions shared_function_refuted.
(** A function without dependencies cannot be cached. *)
Theorem cached_without_dependency_refuted : ∃ x, run_body (decorated (D := string) x [] FCached []) empty_scope = Err EAttribute.
Proof. exists "a". vm_compute. reflexivity. Qed.
Print Assumptions cached_without_dependency_refuted.
