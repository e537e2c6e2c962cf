(** * C36, C37, C38, C74, C75: cache keys and @cached values. *)
From Verif Require Import Base Keys Cached.

(** C36 *)
Theorem cache_keys_fit (s : source) (k : Z) : draws s k -> (- 2 ^ 63 <= k < 2 ^ 63)%Z.
Proof. intros H. apply draws_range in H. lia. Qed.
Print Assumptions cache_keys_fit.
(** The smallest value is really drawn by PostgreSQL and MySQL when their random number
    is 0, and the largest one by Python. *)
Example smallest_key_ex : draws FromPostgres (- 2 ^ 63) /\ draws FromPython (2 ^ 63 - 1).
Proof. split; [exact smallest_drawn|]. split; vm_compute; discriminate. Qed.

(** C37.  [k ∉ c_used s1]: the key was drawn after s1.  The value the reader sees was
    returned by the function for this very row after that, and under this key. *)
Theorem cached_value_of_row s es1 s1 es2 s2 c r k v :
  cstart s -> crun s es1 = Some s1 -> k ∉ c_used s1 -> crun s1 es2 = Some s2 ->
  c_tasks s2 !! c = Some (TDone (Some r) k v) -> exists l, c_log s2 = l ++ c_log s1 /\ (Some r, k, v) ∈ l.
Proof. exact (cached_since s es1 s1 es2 s2 c r k v). Qed.
Print Assumptions cached_value_of_row.

(** If keys are redrawn whenever the value of the function changes and saves are not
    interrupted, the reader sees the current value as long as the key is still the one
    it read. *)
Theorem cached_value_current s s' c r k v :
  cstart s -> sync_run s s' -> c_tasks s' !! c = Some (TDone (Some r) k v) -> c_rows s' !! r = Some k -> c_cur s' !! r = Some v.
Proof. exact (cached_current s s' c r k v). Qed.
Print Assumptions cached_value_current.

Definition ex_c0 : cst := Cst {[1%Z := 10%Z; 2%Z := 11%Z]} {[1%Z := 5%Z; 2%Z := 6%Z]} ∅ {[0%Z; 10%Z; 11%Z]} ∅ [].
Lemma ex_c0_start : cstart ex_c0.
Proof.
  assert (H : forall r k, c_rows ex_c0 !! r = Some k -> r = 1%Z /\ k = 10%Z \/ r = 2%Z /\ k = 11%Z).
  { intros r k Hr. unfold ex_c0 in Hr. csimpl in Hr. apply lookup_insert_Some in Hr as [[<- <-]|[_ Hr]]; [by left|].
    apply lookup_singleton_Some in Hr as [<- <-]. by right. }
  split; [|split].
  - intros r r' k H1 H2. apply H in H1, H2. lia.
  - intros r k H1. apply H in H1. split; [destruct H1 as [[_ ->]|[_ ->]]; vm_compute; reflexivity|unfold default_key; lia].
  - split; [vm_compute; reflexivity|done].
Qed.
(** Row 1 is read by two clients, redrawn in between, and read again. *)
Definition ex_c_es : list cev :=
  [CStart 0 1; CLook 0; CCall 0 0; CRedraw 1 20 7; CPut 0; CStart 1 1; CLook 1; CCall 1 0; CPut 1; CStart 2 2; CLook 2; CCall 2 0; CPut 2].
Definition ex_c1 : cst := default ex_c0 (crun ex_c0 ex_c_es).
Example cached_value_ex : crun ex_c0 ex_c_es = Some ex_c1 /\ 20%Z ∉ c_used ex_c0 /\
  c_tasks ex_c1 !! 0%nat = Some (TDone (Some 1%Z) 10 5) /\ c_tasks ex_c1 !! 1%nat = Some (TDone (Some 1%Z) 20 7) /\ c_tasks ex_c1 !! 2%nat = Some (TDone (Some 2%Z) 11 6).
Proof. split; [vm_compute; reflexivity|]. split; [intros H; revert H; vm_compute; discriminate|]. vm_compute. auto. Qed.
Example cached_current_ex : exists s', sync_run ex_c0 s' /\ c_tasks s' !! 1%nat = Some (TDone (Some 1%Z) 20 7) /\ c_rows s' !! 1%Z = Some 20%Z.
Proof.
  eexists. split.
  - eapply (sr_save _ 0 2 12 9); [vm_compute; reflexivity|vm_compute; reflexivity|].
    eapply (sr_ev _ (CRedraw 1 20 7)); [exact I|vm_compute; reflexivity|].
    eapply (sr_ev _ (CStart 1 1)); [exact I|vm_compute; reflexivity|].
    eapply (sr_ev _ (CLook 1)); [exact I|vm_compute; reflexivity|].
    eapply (sr_ev _ (CCall 1 0)); [exact I|vm_compute; reflexivity|].
    eapply (sr_ev _ (CPut 1)); [exact I|vm_compute; reflexivity|]. apply sr_nil.
  - vm_compute. auto.
Qed.

(** Saves are not atomic: pre_save draws the key and caches the value first; a change of
    a dependency before the UPDATE redraws the key, and the UPDATE then brings back the
    key of the outdated value. *)
Theorem cached_value_current_refuted : exists s es s' c r k v,
  cstart s /\ crun s es = Some s' /\ c_tasks s' !! c = Some (TDone (Some r) k v) /\ c_rows s' !! r = Some k /\ c_cur s' !! r <> Some v.
Proof.
  exists ex_c0, [CSaveDraw 0 1 20 5; CRedraw 1 30 7; CSaveWrite 0 7; CStart 1 1; CLook 1]. eexists. exists 1%nat, 1%Z, 20%Z, 5%Z.
  split; [exact ex_c0_start|]. split; [vm_compute; reflexivity|]. vm_compute. split; [reflexivity|]. split; [reflexivity|discriminate].
Qed.
Print Assumptions cached_value_current_refuted.

(** C38: as long as every row has a drawn key, a value seen for one row was computed for
    it, and under its key nothing was ever computed for anything else. *)
Theorem cached_rows_apart s es s' c r k v :
  cstart s -> crun s es = Some s' -> c_tasks s' !! c = Some (TDone (Some r) k v) ->
  (Some r, k, v) ∈ c_log s' /\ forall r' v', (r', k, v') ∈ c_log s' -> r' = Some r.
Proof. exact (cached_logged s es s' c r k v). Qed.
Print Assumptions cached_rows_apart.
Example cached_rows_apart_ex : cstart ex_c0 /\ c_tasks ex_c1 !! 2%nat = Some (TDone (Some 2%Z) 11 6) /\ length (c_log ex_c1) = 3%nat.
Proof. split; [exact ex_c0_start|]. vm_compute. auto. Qed.

(** The column was just added, both rows have the default key: row 2 shows the value of
    row 1, although the function returns something else for row 2 and was never called
    for it. *)
Theorem default_keys_apart_refuted : exists s es s' c r k v,
  (forall r k, c_rows s !! r = Some k -> k = default_key) /\ c_cache s = ∅ /\ c_tasks s = ∅ /\
  crun s es = Some s' /\ c_tasks s' !! c = Some (TDone (Some r) k v) /\ c_cur s' !! r <> Some v /\ (forall k' v', (Some r, k', v') ∉ c_log s').
Proof.
  exists (Cst {[1%Z := 0%Z; 2%Z := 0%Z]} {[1%Z := 5%Z; 2%Z := 6%Z]} ∅ {[0%Z]} ∅ []),
    [CStart 0 1; CLook 0; CCall 0 0; CPut 0; CStart 1 2; CLook 1]. eexists. exists 1%nat, 2%Z, 0%Z, 5%Z.
  split; [|split; [done|split; [done|split; [vm_compute; reflexivity|]]]].
  - intros r k Hr. csimpl in Hr. apply lookup_insert_Some in Hr as [[<- <-]|[_ Hr]]; [done|]. by apply lookup_singleton_Some in Hr as [<- <-].
  - split; [vm_compute; reflexivity|]. split; [vm_compute; discriminate|]. csimpl. intros k' v' H. apply elem_of_list_singleton in H. discriminate H.
Qed.
Print Assumptions default_keys_apart_refuted.

(** Two unsaved instances share the key 0 too: the second shows the value of the first
    (7), the function is not called for it at all. *)
Theorem unsaved_apart_refuted : exists s es s' k v,
  cstart s /\ crun s es = Some s' /\ c_tasks s' !! 0%nat = Some (TDone None k v) /\ c_tasks s' !! 1%nat = Some (TDone None k v) /\ length (c_log s') = 1%nat.
Proof.
  exists ex_c0, [CNew 0; CLook 0; CCall 0 7; CPut 0; CNew 1; CLook 1]. eexists. exists 0%Z, 7%Z.
  split; [exact ex_c0_start|]. split; [vm_compute; reflexivity|]. vm_compute. auto.
Qed.
Print Assumptions unsaved_apart_refuted.

(** C74: as long as a key stays in the cache with a value that is not falsy, the
    function is not called again for it, whatever the clients do. *)
Theorem cached_not_called_again s0 es0 s es s' k v :
  cstart s0 -> crun s0 es0 = Some s -> c_cache s !! k = Some v -> v <> 0%Z -> nobody_computes k s ->
  CEvict k ∉ es -> crun s es = Some s' -> calls k (c_log s') = calls k (c_log s) /\ c_cache s' !! k = Some v.
Proof. exact (cached_hits s0 es0 s es s' k v). Qed.
Print Assumptions cached_not_called_again.
(** Row 1 was read once; it is read twice more, row 2 is saved and redrawn in between. *)
Definition ex_c2 : cst := default ex_c0 (crun ex_c0 [CStart 0 1; CLook 0; CCall 0 0; CPut 0]).
Definition ex_c2_es : list cev := [CStart 1 1; CSaveDraw 2 2 30 8; CLook 1; CSaveWrite 2 8; CRedraw 2 31 9; CStart 2 1; CLook 2; CEvict 30].
Definition ex_c3 : cst := default ex_c0 (crun ex_c2 ex_c2_es).
Example cached_not_called_again_ex : crun ex_c0 [CStart 0 1; CLook 0; CCall 0 0; CPut 0] = Some ex_c2 /\ c_cache ex_c2 !! 10%Z = Some 5%Z /\
  nobody_computes 10 ex_c2 /\ crun ex_c2 ex_c2_es = Some ex_c3 /\ c_tasks ex_c3 !! 2%nat = Some (TDone (Some 1%Z) 10 5) /\
  calls 10 (c_log ex_c3) = [(Some 1%Z, 10%Z, 5%Z)] /\ length (c_log ex_c3) = 2%nat.
Proof.
  split; [vm_compute; reflexivity|]. split; [vm_compute; reflexivity|]. split; [|vm_compute; auto].
  intros c r w. assert (H : map_to_list (c_tasks ex_c2) = [(0%nat, TDone (Some 1%Z) 10%Z 5%Z)]) by (vm_compute; reflexivity).
  split; intros Hx; apply elem_of_map_to_list in Hx; rewrite H in Hx; apply elem_of_list_singleton in Hx; discriminate Hx.
Qed.
(** A falsy value is cached, but never used (fields.py:304): the same client reads the
    same row three times under the same key, nothing is evicted, and the function is
    called three times. *)
Theorem falsy_called_again_refuted : exists s es s' k,
  cstart s /\ crun s es = Some s' /\ (forall k', CEvict k' ∉ es) /\ c_rows s' = c_rows s /\ c_cur s' = c_cur s /\
  c_cache s' !! k = Some 0%Z /\ length (calls k (c_log s')) = 3%nat.
Proof.
  exists (Cst {[1%Z := 10%Z]} {[1%Z := 0%Z]} ∅ {[0%Z; 10%Z]} ∅ []),
    (let read := [CStart 0 1; CLook 0; CCall 0 0; CPut 0] in read ++ read ++ read). eexists. exists 10%Z.
  split; [|split; [vm_compute; reflexivity|split; [|vm_compute; auto]]].
  - split; [|split; [|split; [vm_compute; reflexivity|done]]].
    + intros r r' k H1 H2. csimpl in *. apply lookup_singleton_Some in H1 as [<- _], H2 as [<- _]. done.
    + intros r k H1. csimpl in *. apply lookup_singleton_Some in H1 as [_ <-]. split; [vm_compute; reflexivity|discriminate].
  - intros k'. csimpl. rewrite !not_elem_of_cons. split_and!; try done. apply not_elem_of_nil.
Qed.
Print Assumptions falsy_called_again_refuted.
(** Nor is a client kept from computing what another one is computing. *)
Theorem called_twice_refuted : exists s es s' k v,
  cstart s /\ crun s es = Some s' /\ (forall k', CEvict k' ∉ es) /\ v <> 0%Z /\ calls k (c_log s') = [(Some 1%Z, k, v); (Some 1%Z, k, v)].
Proof.
  exists ex_c0, [CStart 0 1; CLook 0; CStart 1 1; CLook 1; CCall 0 0; CCall 1 0; CPut 0; CPut 1]. eexists. exists 10%Z, 5%Z.
  split; [exact ex_c0_start|]. split; [vm_compute; reflexivity|]. split; [|split; [done|vm_compute; reflexivity]].
  intros k'. rewrite !not_elem_of_cons. split_and!; try done. apply not_elem_of_nil.
Qed.
Print Assumptions called_twice_refuted.

(** C75: refresh_from_db().  An uninterrupted refresh shows the right value, but takes the
    value [v] for a key: it calls the function again and leaves a cache entry under [v]. *)
Theorem refresh_uninterrupted s c r k v :
  c_rows s !! r = Some k -> c_cur s !! r = Some v -> c_cache s !! k = Some v -> v <> 0%Z -> c_cache s !! v = None ->
  exists s', xrun s (refresh c r ++ (XEv <$> [CCall c 0; CPut c])) = Some s' /\ c_tasks s' !! c = Some (TDone (Some r) v v) /\
    c_cache s' = <[v := v]> (c_cache s) /\ c_log s' = (Some r, v, v) :: c_log s /\ c_rows s' = c_rows s.
Proof. exact (refresh_alone s c r k v). Qed.
Print Assumptions refresh_uninterrupted.
Example refresh_uninterrupted_ex : c_rows ex_c2 !! 1%Z = Some 10%Z /\ c_cur ex_c2 !! 1%Z = Some 5%Z /\ c_cache ex_c2 !! 10%Z = Some 5%Z /\ c_cache ex_c2 !! 5%Z = None.
Proof. vm_compute. auto. Qed.
(** Client 0 refreshes its instance of row 1 while the value of
    row 1 changes from 5 to 7; this leaves 7 in the cache under the key 5.  Client 1 then
    loads and refreshes row 2, whose value was 5 all the time: it sees 7. *)
Theorem refreshed_value_refuted : exists s es s' c r k v w,
  cstart s /\ xrun s es = Some s' /\ c_tasks s' !! c = Some (TDone (Some r) k v) /\ c_cur s !! r = Some w /\ c_cur s' !! r = Some w /\
  c_rows s' !! r = c_rows s !! r /\ v <> w.
Proof.
  exists (Cst {[1%Z := 10%Z; 2%Z := 11%Z]} {[1%Z := 5%Z; 2%Z := 5%Z]} ∅ {[0%Z; 10%Z; 11%Z]} ∅ []),
    ((XEv <$> [CStart 0 1; CLook 0; CCall 0 0; CPut 0]) ++ [XAssign 0; XEv (CLook 0); XEv (CRedraw 1 20 7); XEv (CCall 0 0); XEv (CPut 0)] ++
    (XEv <$> [CStart 1 2; CLook 1; CCall 1 0; CPut 1]) ++ refresh 1 2). eexists. exists 1%nat, 2%Z, 5%Z, 7%Z, 5%Z.
  split; [destruct ex_c0_start as (H1 & H2 & H3 & _); split; [exact H1|split; [exact H2|split; [exact H3|done]]]|].
  split; [vm_compute; reflexivity|]. vm_compute. split; [reflexivity|]. split; [reflexivity|]. split; [reflexivity|]. split; [reflexivity|discriminate].
Qed.
Print Assumptions refreshed_value_refuted.
