(** * Specification vocabulary.

    Everything here is stated on the schema, the stored rows and the callbacks
    only; none of the trigger generation, statement execution, saving or
    flushing functions of the model is used. *)
From Verif Require Import Base Schema.

(** ** Consistency of callback fields *)

(** The value a field stores for a Python result: a model instance is stored as
    its primary key. *)
Definition stores (f : field) (pv : pyval) (v : val) : Prop :=
  match pv with
  | PVal w => v = w
  | PInst m k => f_fk f = Some m ∧ v = VInt k
  end.

(** The stored value is what the callback returns for the stored row. *)
Definition row_consistent (m : model) (d : db) (k : Z) (r : row) (f : field) : Prop :=
  match f_kind f with
  | KCallback fn _ _ => ∃ pv, fn d (Some k) r = Ok pv ∧ stores f pv (col r (f_col f))
  | _ => True
  end.
Definition consistent (S : schema) (d : db) : Prop :=
  ∀ m k r f, m ∈ s_models S → f ∈ m_fields m → getrow d (m_table m) k = Some r →
  row_consistent m d k r f.

(** A marker for the row [k] of model [m]. *)
Definition marker_of (m : model) (k : Z) : marker := (m_ct m, Some (pretty k)).

(** Every row is consistent or marked for recomputation. *)
Definition consistent_or_marked (S : schema) (d : db) : Prop :=
  ∀ m k r, m ∈ s_models S → getrow d (m_table m) k = Some r →
  marker_of m k ∈ d_dirty d ∨ ∀ f, f ∈ m_fields m → row_consistent m d k r f.

(** ** What a callback reads *)

Definition cols_of (cs : list string) (r : row) : list val := col r <$> cs.

(** The rows reached through a declared dependency, restricted to columns [cs].
    - forward: the row the foreign key points to;
    - backward: all rows pointing to this one;
    - m2m: all link rows of this row, with the row at the other end;
    - generic: all rows whose (content type, object id) is this row. *)
Inductive depview :=
  | DVRow (o : option (list val))
  | DVRows (g : gmap Z (list val))
  | DVLinks (g : gmap Z (val * option (list val)))
  | DVNone.
#[global] Instance depview_eq_dec : EqDecision depview.
Proof. solve_decision. Defined.

Definition dep_view (S : schema) (m : model) (d : db) (k : Z) (r : row) (dp : dep) (cs : list string) : depview :=
  match find_model S (dep_other dp) with
  | None => DVNone
  | Some o =>
      match dep_rel dp with
      | RelForward fk =>
          DVRow (match col r fk with VInt j => cols_of cs <$> getrow d (m_table o) j | _ => None end)
      | RelBackward fk =>
          DVRows (omap (λ r' : row, if decide (col r' fk = VInt k) then Some (cols_of cs r') else None) (tab d (m_table o)))
      | RelM2M t c rc =>
          DVLinks (omap (λ l : row, if decide (col l c = VInt k)
             then Some (col l rc, match col l rc with VInt j => cols_of cs <$> getrow d (m_table o) j | _ => None end)
             else None) (tab d t))
      | RelGenForward ctc oidc =>
          DVRows (omap (λ r' : row, if decide (col r' ctc = VInt (m_ct m) ∧ to_text (col r' oidc) = Some (pretty k))
             then Some (cols_of cs r') else None) (tab d (m_table o)))
      | RelGenBackward _ _ => DVNone
      end
  end.

(** A callback that only reads the columns [own] of its own row and the columns
    listed in [via] of the rows reached through dependencies. *)
Record reads := Reads { rd_own : list string; rd_via : list (dep * list string) }.

Definition reads_only (S : schema) (m : model) (fn : callback) (rd : reads) : Prop :=
  ∀ d d' k r r',
    (∀ c, c ∈ rd_own rd → col r c = col r' c) →
    (∀ dp cs, (dp, cs) ∈ rd_via rd → dep_view S m d k r dp cs = dep_view S m d' k r' dp cs) →
    fn d (Some k) r = fn d' (Some k) r'.

(** ** Which columns the installed triggers look at *)

(** A skip list applying to the update triggers on the table of [m]
    (README "skip", dependencies.py:268-270). *)
Definition field_deps (f : field) : list dep :=
  match f_kind f with KCallback _ ds _ | KCacheKey ds => ds | _ => [] end.
Definition is_gen (rl : relation) : bool :=
  match rl with RelGenForward _ _ | RelGenBackward _ _ => true | _ => false end.
Inductive skip_on (S : schema) (m : model) : list string → Prop :=
  | so_self f fn ds sk :
      f ∈ m_fields m → f_kind f = KCallback fn ds sk → skip_on S m sk
  | so_dep m' f dp :
      m' ∈ s_models S → f ∈ m_fields m' → dp ∈ field_deps f → is_gen (dep_rel dp) = false →
      find_model S (dep_other dp) = Some m → skip_on S m (dep_skip dp)
  | so_agg m' f a :
      m' ∈ s_models S → f ∈ m_fields m' → f_kind f = KAgg a →
      find_model S (ag_rel a) = Some m → skip_on S m (ag_skip a).

(** A column of [m] that no declaration excludes from change detection. *)
Definition tracked (S : schema) (m : model) (c : string) : Prop :=
  (∃ f, f ∈ m_fields m ∧ f_col f = c) ∧
  ∀ sk, skip_on S m sk → c ∉ (if decide (sk = []) then m_always_skip m else sk).

(** ** Well-formed schemas: what Django guarantees, plus the features that are
    left out (multi-table inheritance, proxies, db_column). *)
Definition plain_or_callback (f : field) : Prop :=
  match f_kind f with KAgg _ | KCacheKey _ => False | _ => True end.

Record wf_model (S : schema) (m : model) : Prop := WfModel {
  wf_noproxy : m_proxy m = false;
  wf_noswap : m_swapped m = false;
  wf_owner : ∀ f, f ∈ m_fields m → f_owner f = m_name m;
  wf_att : ∀ f, f ∈ m_fields m → f_att f = f_col f;
  wf_name : ∀ f, f ∈ m_fields m → plain_or_callback f ∨ f_name f = f_col f;
  wf_cols : NoDup (f_col <$> m_fields m);
  wf_pkcol : m_pk m ∉ f_col <$> m_fields m;
  wf_m2mtab : ∀ mm m', mm ∈ m_m2m m → m' ∈ s_models S → mm_table mm ≠ m_table m'
}.

Definition column_of (m : model) (c : string) : Prop :=
  ∃ f, f ∈ m_fields m ∧ f_col f = c ∧ plain_or_callback f.

(** The relation of a dependency exists. *)
Definition wf_dep (S : schema) (m : model) (dp : dep) : Prop :=
  ∀ o, find_model S (dep_other dp) = Some o →
  match dep_rel dp with
  | RelForward fk => column_of m fk
  | RelBackward fk => column_of o fk
  | RelM2M t c rc => (∀ m', m' ∈ s_models S → t ≠ m_table m') ∧ c ≠ "id" ∧ rc ≠ "id"
  | RelGenForward ctc oidc => column_of o ctc ∧ column_of o oidc
  | RelGenBackward ctc oidc => column_of m ctc ∧ column_of m oidc
  end.

Record wf_schema (S : schema) : Prop := WfSchema {
  wf_models : ∀ m, m ∈ s_models S → wf_model S m;
  wf_names : NoDup (m_name <$> s_models S);
  wf_tables : NoDup (m_table <$> s_models S);
  wf_cts : NoDup (m_ct <$> s_models S);
  wf_deps : ∀ m f dp, m ∈ s_models S → f ∈ m_fields m → dp ∈ field_deps f → wf_dep S m dp;
  wf_aggs : ∀ m f a rel, m ∈ s_models S → f ∈ m_fields m → f_kind f = KAgg a →
              find_model S (ag_rel a) = Some rel → column_of rel (ag_fk a)
}.

(** The columns of the link table of an m2m dependency do not depend on the
    dependency (each table belongs to one ManyToManyField). *)
Definition wf_links (S : schema) : Prop := ∀ m f dp m' f' dp' t c rc c' rc',
  m ∈ s_models S → f ∈ m_fields m → dp ∈ field_deps f → dep_rel dp = RelM2M t c rc →
  m' ∈ s_models S → f' ∈ m_fields m' → dp' ∈ field_deps f' → dep_rel dp' = RelM2M t c' rc' →
  (c = c' ∧ rc = rc') ∨ (c = rc' ∧ rc = c').

(** A callback whose reads are covered by its declarations: every dependency it
    follows is declared, every column it reads is tracked, and so is every column
    that decides which rows are related. *)
Record declared_reads (S : schema) (m : model) (ds : list dep) (rd : reads) : Prop := DeclReads {
  dr_own : ∀ c, c ∈ rd_own rd → tracked S m c;
  dr_dep : ∀ dp cs, (dp, cs) ∈ rd_via rd → dp ∈ ds;
  dr_cols : ∀ dp cs o c, (dp, cs) ∈ rd_via rd → find_model S (dep_other dp) = Some o → c ∈ cs → tracked S o c;
  dr_rel : ∀ dp cs o, (dp, cs) ∈ rd_via rd → find_model S (dep_other dp) = Some o →
    match dep_rel dp with
    | RelForward fk => fk ∈ rd_own rd
    | RelBackward fk => tracked S o fk
    | RelM2M _ _ _ => True
    | RelGenForward ctc oidc => tracked S o ctc ∧ tracked S o oidc
    | RelGenBackward _ _ => False
    end
}.

(** Everything the callback of row [k] of [m] can see: [None] if the row does not exist. *)
Definition row_view (S : schema) (m : model) (rd : reads) (k : Z) (d : db) : option (list val * list depview) :=
  match getrow d (m_table m) k with
  | None => None
  | Some r => Some (cols_of (rd_own rd) r, (λ p : dep * list string, dep_view S m d k r p.1 p.2) <$> rd_via rd)
  end.

(** Foreign keys point to existing rows (m2m link tables included). *)
Definition links_ok (S : schema) (d : db) : Prop := ∀ m f dp o t c rc,
  m ∈ s_models S → f ∈ m_fields m → dp ∈ field_deps f → dep_rel dp = RelM2M t c rc →
  find_model S (dep_other dp) = Some o →
  ∀ l r, getrow d t l = Some r → ∀ j, col r rc = VInt j → is_Some (getrow d (m_table o) j).

(** Every m2m dependency uses the link table of a ManyToManyField of the schema,
    in either direction, so that its columns carry foreign keys. *)
Definition m2m_declared (S : schema) : Prop := ∀ m f dp t c rc o,
  m ∈ s_models S → f ∈ m_fields m → dp ∈ field_deps f → dep_rel dp = RelM2M t c rc →
  find_model S (dep_other dp) = Some o →
  ∃ m' mm, m' ∈ s_models S ∧ mm ∈ m_m2m m' ∧ mm_table mm = t ∧
    ((mm_rev mm = rc ∧ find_model S (mm_to mm) = Some o) ∨ (mm_col mm = rc ∧ m' = o)).
(** No m2m dependency at all. *)
Definition no_m2m_dep (S : schema) : Prop := ∀ m f dp t c rc,
  m ∈ s_models S → f ∈ m_fields m → dp ∈ field_deps f → dep_rel dp ≠ RelM2M t c rc.

(** The callback of field [f] reads [rd], which its declarations cover. *)
Record covered (S : schema) (m : model) (f : field) (fn : callback) (ds : list dep) (rd : reads) : Prop := Covered {
  cv_reads : reads_only S m fn rd;
  cv_decl : declared_reads S m ds rd;
  cv_self : tracked S m (f_col f)
}.
Definition all_covered (S : schema) : Prop := ∀ m f fn ds sk,
  m ∈ s_models S → f ∈ m_fields m → f_kind f = KCallback fn ds sk → ∃ rd, covered S m f fn ds rd.

(** ** Immediate trigger updates (aggregates and cache keys) *)
(** A change in table [t] makes triggers update columns of model [m]. *)
Inductive upd_source (S : schema) (m : model) : string → Prop :=
  | us_agg f a rel : f ∈ m_fields m → f_kind f = KAgg a → find_model S (ag_rel a) = Some rel →
      upd_source S m (m_table rel)
  | us_dep f ds dp o : f ∈ m_fields m → f_kind f = KCacheKey ds → dp ∈ ds → find_model S (dep_other dp) = Some o →
      upd_source S m (m_table o)
  | us_link f ds dp o t c rc : f ∈ m_fields m → f_kind f = KCacheKey ds → dp ∈ ds → find_model S (dep_other dp) = Some o →
      dep_rel dp = RelM2M t c rc → upd_source S m t
  | us_gen f ds dp o ctc oidc : f ∈ m_fields m → f_kind f = KCacheKey ds → dp ∈ ds → find_model S (dep_other dp) = Some o →
      dep_rel dp = RelGenBackward ctc oidc → upd_source S m (m_table m).
(** The immediate updates flow towards tables of smaller rank. *)
Definition upd_acyclic (S : schema) (rank : string → nat) : Prop := ∀ m t,
  m ∈ s_models S → upd_source S m t → (rank (m_table m) < rank t)%nat.

(** ** Trigger names *)
(** A generic relation puts triggers on table [t], with content type column [cf] and
    content type [ct]. *)
Inductive gen_on (S : schema) : string → string → Z → Prop :=
  | go_fwd m f dp o cf oc : m ∈ s_models S → f ∈ m_fields m → dp ∈ field_deps f →
      find_model S (dep_other dp) = Some o → dep_rel dp = RelGenForward cf oc → gen_on S (m_table o) cf (m_ct m)
  | go_bwd m f dp o cf oc : m ∈ s_models S → f ∈ m_fields m → dp ∈ field_deps f →
      find_model S (dep_other dp) = Some o → dep_rel dp = RelGenBackward cf oc → gen_on S (m_table m) cf (m_ct m).
Inductive trigger_table (S : schema) : string → Prop :=
  | tt_model m : m ∈ s_models S → trigger_table S (m_table m)
  | tt_link m f dp t c rc : m ∈ s_models S → f ∈ m_fields m → dp ∈ field_deps f →
      dep_rel dp = RelM2M t c rc → trigger_table S t.
(** The content type suffix of generic triggers is unambiguous: no table is called
    like another one followed by the suffix, and one content type column is used per
    table and content type. *)
Definition names_apart (S : schema) : Prop :=
  (∀ t cf ct t', gen_on S t cf ct → trigger_table S t' → t' ≠ t +:+ "_" +:+ pretty ct) ∧
  (∀ t cf cf' ct, gen_on S t cf ct → gen_on S t cf' ct → cf = cf').

(** ** Settled callbacks: what flush needs on top of coverage *)
Definition plain_col (m : model) (c : string) : Prop :=
  ∃ f, f ∈ m_fields m ∧ f_col f = c ∧ f_kind f = KPlain.
(** Fields are recomputed in declaration order, so a callback may read ordinary
    columns, aggregates, and computed columns declared before it. *)
Definition reads_before (m : model) (f : field) (rd : reads) : Prop := ∀ g,
  g ∈ m_fields m → f_col g ∈ rd_own rd →
  match f_kind g with
  | KPlain | KAgg _ => True
  | _ => ∃ l1 l2 l3, m_fields m = l1 ++ g :: l2 ++ f :: l3
  end.
Record settled (S : schema) (rank : string → nat) (m : model) (f : field) (rd : reads) : Prop := Settled {
  se_order : reads_before m f rd;
  (** columns read in tables which the row's own triggers may update are not
      aggregates or cache keys *)
  se_via : ∀ dp cs o c, (dp, cs) ∈ rd_via rd → find_model S (dep_other dp) = Some o →
     (rank (m_table o) < rank (m_table m))%nat → c ∈ cs → column_of o c
}.
(** Relations within one table are stored in ordinary columns. *)
Definition self_deps_plain (S : schema) : Prop := ∀ m f fn ds sk dp,
  m ∈ s_models S → f ∈ m_fields m → f_kind f = KCallback fn ds sk → dp ∈ ds → dep_other dp = m_name m →
  match dep_rel dp with
  | RelForward fk | RelBackward fk => plain_col m fk
  | RelGenForward ctc oidc => plain_col m ctc ∧ plain_col m oidc
  | _ => True
  end.
Definition all_settled (S : schema) (rank : string → nat) : Prop := ∀ m f fn ds sk,
  m ∈ s_models S → f ∈ m_fields m → f_kind f = KCallback fn ds sk →
  ∃ rd, covered S m f fn ds rd ∧ settled S rank m f rd.

(** No row is related to itself through a dependency inside one table. *)
Definition self_related (m : model) (d : db) (k : Z) (r : row) (dp : dep) : Prop :=
  dep_other dp = m_name m ∧
  match dep_rel dp with
  | RelForward fk | RelBackward fk => col r fk = VInt k
  | RelM2M t c rc => ∃ l lr, getrow d t l = Some lr ∧ col lr c = VInt k ∧ col lr rc = VInt k
  | RelGenForward ctc oidc => col r ctc = VInt (m_ct m) ∧ to_text (col r oidc) = Some (pretty k)
  | RelGenBackward _ _ => False
  end.
Definition no_self_relation (S : schema) (d : db) : Prop := ∀ m f fn ds sk dp k r,
  m ∈ s_models S → f ∈ m_fields m → f_kind f = KCallback fn ds sk → dp ∈ ds →
  getrow d (m_table m) k = Some r → ¬ self_related m d k r dp.

Definition no_m2m_denorm (S : schema) : Prop := ∀ m mm, m ∈ s_models S → mm ∈ m_m2m m → mm_denorm mm = None.
Definition all_truthy (S : schema) : Prop := ∀ m r, m ∈ s_models S → m_truthy m r = true.

(** No dependency between rows of one table at all. *)
Definition no_self_dep (S : schema) : Prop := ∀ m f fn ds sk dp,
  m ∈ s_models S → f ∈ m_fields m → f_kind f = KCallback fn ds sk → dp ∈ ds → dep_other dp ≠ m_name m.

(** ** The conditions under which changes are tracked, and under which flush is correct *)
Record trackable (S : schema) (rank : string → nat) (imm : bool) (b : backend) : Prop := Trackable {
  tk_wf : wf_schema S;
  tk_links : wf_links S;
  tk_names : names_apart S;
  tk_safe : s_bulk_unsafe S = false;
  tk_m2m : no_m2m_dep S ∨ (imm = true ∧ m2m_declared S);
  (** SQLite does not run a trigger recursively *)
  tk_acyclic : b = SQLite → upd_acyclic S rank
}.
Record flushable (S : schema) (rank : string → nat) (imm : bool) : Prop := Flushable {
  fl_wf : wf_schema S;
  fl_links : wf_links S;
  fl_names : names_apart S;
  fl_safe : s_bulk_unsafe S = false;
  fl_m2m : no_m2m_dep S ∨ (imm = true ∧ m2m_declared S);
  fl_acyclic : upd_acyclic S rank;
  fl_self : self_deps_plain S;
  fl_nodm : no_m2m_denorm S;
  fl_truthy : all_truthy S;
  fl_settled : all_settled S rank
}.

(** ** What flush may change: nothing but computed columns and denormalized links *)
Definition denorm_link_table (S : schema) (t : string) : Prop :=
  ∃ m mm, m ∈ s_models S ∧ mm ∈ m_m2m m ∧ mm_table mm = t ∧ mm_denorm mm ≠ None.
(** Same rows, equal in the columns [P]. *)
Definition same_rows (t : string) (P : string → Prop) (d d' : db) : Prop := ∀ k,
  match getrow d t k, getrow d' t k with
  | None, None => True
  | Some r, Some r' => ∀ c, P c → col r c = col r' c
  | _, _ => False
  end.
Definition user_data_kept (S : schema) (d d' : db) : Prop :=
  (∀ m, m ∈ s_models S → same_rows (m_table m) (plain_col m) d d') ∧
  (∀ t, (∀ m, m ∈ s_models S → m_table m ≠ t) → ¬ denorm_link_table S t → same_rows t (λ _, True) d d').

(** ** Changes of a row between two databases *)
(** The row appeared, disappeared, or differs in a tracked column. *)
Definition touched (S : schema) (m : model) (d d' : db) (k : Z) : Prop :=
  match getrow d (m_table m) k, getrow d' (m_table m) k with
  | None, None => False
  | Some r, Some r' => ∃ c, tracked S m c ∧ col r c ≠ col r' c
  | _, _ => True
  end.
(** A row satisfying [P] before or after. *)
Definition before_or_after (t : string) (d d' : db) (k : Z) (P : row → Prop) : Prop :=
  (∃ r, getrow d t k = Some r ∧ P r) ∨ (∃ r, getrow d' t k = Some r ∧ P r).
(** A link row appeared, disappeared or was redirected. *)
Definition link_touched (t c rc : string) (d d' : db) (i : Z) : Prop :=
  match getrow d t i, getrow d' t i with
  | None, None => False
  | Some r, Some r' => col r c ≠ col r' c ∨ col r rc ≠ col r' rc
  | _, _ => True
  end.

(** ** Change detection *)
(** A column of table [t] at which some declaration looks: it is a column of the
    model that one of the skip lists applying to the table does not name, or the
    table is the target of a generic relation (generic triggers know no skip list),
    or it is a column of a link table. *)
Definition skipped_by (m : model) (sk : list string) (c : string) : Prop :=
  c ∈ (if decide (sk = []) then m_always_skip m else sk).
Inductive watched (S : schema) : string → string → Prop :=
  | wa_model m sk f : m ∈ s_models S → skip_on S m sk → f ∈ m_fields m → ¬ skipped_by m sk (f_col f) →
      watched S (m_table m) (f_col f)
  | wa_gen m cf ct f : m ∈ s_models S → gen_on S (m_table m) cf ct → f ∈ m_fields m →
      watched S (m_table m) (f_col f)
  | wa_link m f dp t c rc x : m ∈ s_models S → f ∈ m_fields m → dp ∈ field_deps f →
      dep_rel dp = RelM2M t c rc → x ∈ [c; rc] → watched S t x.

(** Nothing but the named rows changed, and no marker and no random key was made. *)
Definition rows_updated (t : string) (ks : list Z) (g : row → row) (d d' : db) : Prop :=
  d_dirty d' = d_dirty d ∧ d_rnd d' = d_rnd d ∧
  ∀ t' k, getrow d' t' k = if decide (t' = t ∧ k ∈ ks) then g <$> getrow d t' k else getrow d t' k.

(** ** Which fields are denormalized, and what rebuildall selects *)
(** Field [f] is declared by model [m]: some installed non-proxy model has it as a
    (possibly inherited) column field, its function, count, sum or key is maintained
    by denorm, and the declaring model is installed and not swapped out. *)
Definition declares (S : schema) (m : model) (f : field) : Prop :=
  find_model S (f_owner f) = Some m ∧ m_swapped m = false ∧
  (match f_kind f with KPlain | KAutoNow => False | _ => True end) ∧
  ∃ m', m' ∈ s_models S ∧ m_proxy m' = false ∧ f ∈ m_fields m'.
(** The model argument of rebuildall: nothing, an app label, a model name, or app.model. *)
Definition names_model (m : model) (arg : option string) : Prop :=
  match arg with None => True | Some n => n = m_app m ∨ n = m_name m ∨ n = m_app m +:+ "." +:+ m_name m end.
Definition names_field (f : field) (arg : option string) : Prop :=
  match arg with None => True | Some n => n = f_name f end.
