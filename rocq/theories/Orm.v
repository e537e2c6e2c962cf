(** * Saving instances: field pre_save, model save, m2m signals, operations.
    Models denorm/fields.py:56-80, 159-178, 282-285 and denorm/denorms.py:18-63
    on top of Django's Model.save. *)
From Verif Require Import Base Schema TrigSet Gen Exec.

(** Foreign keys of the schema (constraints created by Django). *)
Definition schema_fks (S : schema) : list (string * string * string) :=
  m ← s_models S;
  if m_proxy m then [] else
  (f ← m_fields m;
   match f_fk f ≫= find_model S with
   | Some o => if decide (f_owner f = m_name m) then [(m_table m, f_col f, m_table o)] else []
   | None => []
   end) ++
  (mm ← m_m2m m;
   (mm_table mm, mm_col mm, m_table m) ::
   match find_model S (mm_to mm) with
   | Some o => [(mm_table mm, mm_rev mm, m_table o)]
   | None => []
   end).

(** A database session with the triggers of [S] installed. *)
Definition mk_env (b : backend) (S : schema) (rand : nat → Z) (imm : bool) (depth : nat) : res env :=
  let* ts := installed b S in
  Ok (Env b (pk_of_table S) ts rand (schema_fks S) imm depth).

(** DenormDBField.pre_save, the value stored: fields.py:74-80.  [isinstance] is
    equality of the model name (subclasses of the related model not modelled).
    An instance returned for a non-relation field is not storable. *)
Definition store_value (f : field) (v : pyval) : res val :=
  match v, f_fk f with
  | PVal v, _ => Ok v
  | PInst m k, Some rm => if decide (m = rm) then Ok (VInt k) else Err EType
  | PInst _ _, None => Err EType
  end.

(** field.pre_save(instance, add): the attribute is also set on the instance.
    - DenormDBField: fields.py:56-80;
    - AggregateField: fields.py:159-178; [values_list(...)[0]] raises IndexError if
      [model.objects] does not return the row;
    - CacheKeyField: fields.py:282-285 with denorms.py:211. *)
Definition presave_field (E : env) (m : model) (add : bool) (pk : option Z) (p : db * row) (f : field) : res (db * row) :=
  let d := p.1 in let r := p.2 in
  match f_kind f with
  | KPlain => Ok (d, r)
  | KAutoNow => Ok (tick_now d, <[f_col f := VInt (Z.of_nat (d_now d))]> r)
  | KCallback fn _ _ =>
      let* pv := fn d pk r in
      let* v := store_value f pv in
      Ok (d, <[f_col f := v]> r)
  | KAgg _ =>
      if add then Ok (d, <[f_col f := VInt 0]> r)
      else match pk ≫= getrow d (m_table m) with
           | Some r0 => if m_visible m r0 then Ok (d, <[f_col f := col r0 (f_col f)]> r) else Err EIndex
           | None => Err EIndex
           end
  | KCacheKey _ => Ok (tick_rnd d, <[f_col f := VInt (e_rand E (d_rnd d))]> r)
  end.

Definition presave_all (E : env) (m : model) (add : bool) (pk : option Z) (d : db) (r : row) : res (db * row) :=
  foldM (presave_field E m add pk) (d, r) (m_fields m).

(** An unused key (AutoField). *)
Definition fresh_key (t : table) : Z := 1 + foldr Z.max 0 (map_to_list t).*1.

(** Keys linked to [k] through an m2m table. *)
Definition links (d : db) (mm : m2m) (k : Z) : list (Z * val) :=
  (λ p : Z * row, (p.1, col p.2 (mm_rev mm))) <$>
  filter (λ p : Z * row, col p.2 (mm_col mm) = VInt k) (map_to_list (tab d (mm_table mm))).

Fixpoint number (n : Z) (l : list row) : list change :=
  match l with [] => [] | r :: l' => CIns n r :: number (n + 1) l' end.

(** [getattr(instance, m2m.attname).set(values)] (denorms.py:47-51): Django removes
    the links not wanted any more, then bulk-inserts the missing ones. *)
Definition m2m_set (E : env) (mm : m2m) (k : Z) (vals : list Z) (d : db) : res db :=
  let old := links d mm k in
  let gone := filter (λ p : Z * val, p.2 ∉ VInt <$> vals) old in
  let new := filter (λ v, VInt v ∉ old.*2) (remove_dups vals) in
  let* d1 := exec E (mm_table mm) (CDel <$> gone.*1) d in
  exec E (mm_table mm)
    (number (fresh_key (tab d1 (mm_table mm)))
       ((λ v, <[mm_col mm := VInt k]> (<[mm_rev mm := VInt v]> ∅)) <$> new)) d1.

(** many_to_many_pre_save: denorms.py:18-51.  [if instance.pk]: 0 and None are falsy.
    The through_model branch (33-44) is unreachable for the supported Django
    versions (no attribute [through_model]) and not modelled. *)
Definition m2m_pre_save (E : env) (m : model) (pk : option Z) (r : row) (d : db) : res db :=
  match pk with
  | Some k =>
      if decide (k = 0) then Ok d else
      foldM (λ d mm,
        match mm_denorm mm with
        | Some (fn, _) => let* vals := fn d (Some k) r in m2m_set E mm k vals d
        | None => Ok d
        end) d (m_m2m m)
  | None => Ok d
  end.

(** check_resave: denorms.py:56-60. *)
Definition has_m2m_denorm (m : model) : bool :=
  existsb (λ mm, match mm_denorm mm with Some _ => true | None => false end) (m_m2m m).

(** The UPDATE of all columns of a stored instance. *)
Definition upd_all (k : Z) (r : row) : change := CUpd k (λ d _, Ok (r, d)).

(** Model.save() of a stored instance: pre_save signal, field pre_save, UPDATE of
    all columns, post_save (created=False: nothing, denorms.py:54-55). *)
Definition save_existing (E : env) (m : model) (k : Z) (r : row) (d : db) : res (db * row) :=
  let* d1 := m2m_pre_save E m (Some k) r d in
  let* p := presave_all E m false (Some k) d1 r in
  let* d2 := exec E (m_table m) [upd_all k p.2] p.1 in
  Ok (d2, p.2).

(** post_save with created=True: denorms.py:54-63: one more save if a
    denormalized m2m field exists. *)
Definition post_save_created (E : env) (m : model) (k : Z) (r : row) (d : db) : res (db * row) :=
  if has_m2m_denorm m then save_existing E m k r d else Ok (d, r).

(** Model.save(): Django tries UPDATE first if a primary key is set (calling
    pre_save(add=False)), and INSERTs (pre_save(add=True)) if no row matched. *)
Definition save (E : env) (m : model) (pk : option Z) (r : row) (d : db) : res (db * Z * row) :=
  match pk with
  | Some k =>
      match getrow d (m_table m) k with
      | Some _ => let* p := save_existing E m k r d in Ok (p.1, k, p.2)
      | None =>
          let* d1 := m2m_pre_save E m (Some k) r d in
          let* p := presave_all E m false (Some k) d1 r in
          let* q := presave_all E m true (Some k) p.1 p.2 in
          let* d2 := exec E (m_table m) [CIns k q.2] q.1 in
          let* s := post_save_created E m k q.2 d2 in Ok (s.1, k, s.2)
      end
  | None =>
      let* q := presave_all E m true None d r in
      let k := fresh_key (tab q.1 (m_table m)) in
      let* d2 := exec E (m_table m) [CIns k q.2] q.1 in
      let* s := post_save_created E m k q.2 d2 in Ok (s.1, k, s.2)
  end.

(** User operations: ORM save, raw/bulk insert, QuerySet.update or raw UPDATE
    (a function of the row), DELETE.  A statement changes a row at most once. *)
Inductive op :=
  | OSave (m : string) (pk : option Z) (r : row)
  | OInsert (t : string) (rows : list (Z * row))
  | OUpdate (t : string) (ks : list Z) (g : row → row)
  | ODelete (t : string) (ks : list Z).

(** A single statement on a table (not a function of the code, used in statements). *)
Definition is_statement (o : op) (t : string) : Prop :=
  match o with OSave _ _ _ => False | OInsert t' _ | OUpdate t' _ _ | ODelete t' _ => t' = t end.
(** The keys it names. *)
Definition stmt_keys (o : op) : list Z :=
  match o with OSave _ _ _ => [] | OInsert _ rows => rows.*1 | OUpdate _ ks _ | ODelete _ ks => ks end.

Definition run_op (E : env) (S : schema) (o : op) (d : db) : res db :=
  match o with
  | OSave mn pk r =>
      match find_model S mn with
      | Some m => let* p := save E m pk r d in Ok p.1.1
      | None => Err EValue
      end
  | OInsert t rows => exec E t ((λ p : Z * row, CIns p.1 p.2) <$> rows) d
  | OUpdate t ks g => exec E t ((λ k, CUpd k (λ d o, Ok (g o, d))) <$> remove_dups ks) d
  | ODelete t ks => exec E t (CDel <$> remove_dups ks) d
  end.

(** A failing operation is rolled back. *)
Definition step (E : env) (S : schema) (d : db) (o : op) : db :=
  match run_op E S o d with Ok d' => d' | Err _ => d end.
