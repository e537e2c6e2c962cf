# Formal model of django-denorm in Rocq (Coq 8.16)

## 1. Approach

The model is a set of total Gallina functions mirroring the Python functions branch by branch;
exceptions are values of type `res`.  Each definition cites the file and lines it models and says where
it simplifies.  Three kinds of files:

* **model files** hold the definitions read off the code;
* **specification files** (`Spec.v`, `SpecAgg.v`, `SpecOrder.v`, `SpecSave.v`) hold the vocabulary of the theorems.  They use
  the schema and the stored rows only, and nothing of trigger generation, execution, saving or flushing;
* **property files** (`P_*.v`) hold the property theorems, mostly closed by `exact lemma`, each followed by
  `Print Assumptions` and by an `Example` that meets its hypotheses with a concrete, non-trivial case.

Everything else is proof.  `Check.v`, `CheckOrder.v` and `CheckSave.v` hold boolean checkers, proved sound, that are used to
establish the hypotheses for concrete schemas by computation.  `Ex*.v` hold concrete schemas.

### Model files

| file | models |
| --- | --- |
| `Base.v` | values with NULL, rows, tables, database, exceptions (Django/SQL substrate) |
| `Schema.v` | what the code reads from Django `_meta`: models, fields, relations, denorm declarations |
| `TrigSet.v` | `Trigger`, its name, `TriggerSet.append`, de-duplication of actions, conditions per backend (`db/base.py`, `db/*/triggers.py`) |
| `Gen.v` | `get_triggers` of all denorms and dependencies, `get_alldenorms`, `build_triggerset` (`denorms.py`, `dependencies.py`) |
| `Exec.v` | statements with row-level AFTER triggers: nested firing, SQL NULL, CHECK >= 0, SQLite's non-recursive triggers, MySQL's table-in-use error, per-row and end-of-statement firing, foreign keys |
| `Orm.v` | `pre_save` of all fields, `Model.save`, the m2m pre/post save signals, user operations |
| `Flush.v` | `flush`, `rebuildall`, the middleware |
| `Machine.v` | `flush` as single database accesses; several sessions; crash points |
| `Update.v` | `Denorm.update` and what a callback field stores |
| `Render.v` | SQL texts of actions, trigger names and their shortening |
| `Text.v` | complete trigger texts, Python's `%`, `denorm_sql` |
| `MultiDb.v` | several databases: which one each access of the code goes to |
| `Migrate.v` | constructors and `deconstruct()` of the fields, as used by makemigrations and migrate |
| `Meta.v` | the managers of aggregates and the entries of `_meta.get_fields()` as the code reads them, with the AttributeErrors; constructor of aggregates |
| `Resolve.v` | `find_fks`, `find_m2ms`, `resolved_model`, `setup` of the dependencies |
| `Md5.v` | MD5, as used by `truncate_name` |
| `Install.v` | `install_triggers`, `drop_triggers`, trigger catalogues, SQL LIKE, `denorm_init`, `denorm_drop` |
| `Keys.v` | drawing of cache keys in Python and in SQL, floating point included |
| `Cached.v` | `CacheWrapper`, `CachedField`; any interleaving of clients |
| `Daemon.v` | the `denorm_daemon` command, `daemonize`, descriptor table, pid file |
| `Commands.v` | the other management commands and their command lines |
| `SaveModes.v` | `save(update_fields=...)`, raw saves, `loaddata` and `dumpdata` |
| `SaveRace.v` | saves as separate statements, interleaved with other sessions |
| `DaemonData.v` | what the rounds of the daemon do to the database |
| `BulkCreate.v` | QuerySet.bulk_create() |
| `BulkPg.v` | bulk_create() with DENORM_BULK_UNSAFE_TRIGGERS: PostgreSQL, and models whose functions look at other tables only |
| `Declare.v` | which fields can be declared |
| `Request.v`, `ExRequest.v` | a request: view, middleware, later writes, end of the request |
| `Upgrade.v`, `ExUpgrade.v` | denorm_drop, denorm_init and denorm_rebuild on a database set up for other declarations |
| `Inherit.v`, `ExInherit.v` | saves through multi-table subclasses and proxies |
| `SaveInst.v` | what the attributes of a saved instance show |
| `TestApp.v`, `ExTestApp.v` | models.py and tests.py of the project's test application |
| `Deco.v` | the decorators of a class body: which dependencies a field registers |
| `MarkTable.v` | the table of markers as made by Django's and South's migrations, and INSERT on it |
| `M2mAgg.v` | aggregates over a ManyToManyField under Django 1.8 |
| `TypedSql.v` | the engine with types of columns; text object ids |
| `DecSum.v` | sums over decimal columns in integer columns |
| `SpanFilter.v` | filters of aggregates that follow foreign keys |
| `Locks.v` | row locks of concurrent transactions |
| `MarkIds.v` | ids of the markers |
| `DaemonLocks.v` | locks that the daemon holds while it sleeps |
| `RawSql.v` | TRUNCATE, REPLACE and INSERT IGNORE |
| `Writes.v` | what statements write besides what triggers keep up |
| `SaveKey.v` | saving draws cache keys |
| `KeysApart.v` | keys of different rows are different draws |
| `KeyFlush.v` | flush and rebuildall draw cache keys |
| `CachedDb.v` | @cached attributes over the database model |
| `CachedStmt.v` | @cached attributes after statements on related rows |
| `CachedFlush.v` | @cached attributes of rows whose key was just drawn |
| `Compat.v` | `flush` with the exception of each Django version; models without a manager called `objects` |
| `Classes.v` | field copying for abstract base classes, `contribute_to_class`, choice of the backend module |

### Specification files

| file | content |
| --- | --- |
| `Spec.v` | well-formed schemas; what a callback reads (`reads_only`); tracked columns and skip lists; relatedness of rows; `consistent`, `consistent_or_marked`; the conditions `trackable` and `flushable`; preservation of user data |
| `SpecAgg.v` | counting and summing related rows by a fold over the table; aggregates of a schema |
| `SpecOrder.v` | which cells a computed value depends on, acyclic value dependencies, rows rewritten by every save |
| `Read.v` | a reader of the SQL in trigger texts: tokens, reserved words, case folding, precedence, and the meaning of conditions (three-valued) and statements |
| `Refs.v` (head) | the columns that exist, and the tables, columns and rows a read trigger refers to |
| `SpecSave.v` | instances being saved, columns every save rewrites, the conditions without self triggers |

### Proof files

`Engine` (statement execution), `GenLemmas`, `Merge` (trigger sets), `Marking`, `Conditions`, `Invariant` ("every row
is consistent or marked" through statements and operations), `Settle`, `Sessions`, `Hist` (flush, crash points,
histories), `Frame` (what flush leaves alone), `Falsy` (rows with falsy instances), `Seen` (what a function sees during a save), `Repeat` (repeated rebuilds), `Passes` (how many passes flush needs, markers without a model), `Reach` (which rows a write marks), `Marks`, `Silent` (which rows are marked and which not), `Select`,
`Races`, `Apart` (runs of flush that keep off each other's rows), `Links`, `Erase`, `Agg`, `AggEngine`, `AggOps`, `AggChain`, `AggDefer`, `AggCheck`, `AggSave`, `AggKeep`, `AggDrift`, `AggSelf`, `Nest`, `SaveModesAgg`, `AggProps` (aggregates), `Names`,
`RenderProps`, `KeyDraw`, `KeyObs`, `KeyStmt`, `KeyFrame` (cache keys), `Unique`, `Terminate`, `Cursor`, `Order`
(uniqueness of the result, termination, order), `Bulk` (saves without self triggers), `Quiet` (flushing fresh data), `ReadProps`, `ReadStmt`,
`ReadTrig`, `ReadMeans`, `ReadGen`, `TextFmt` (reading the generated texts), `Refs` (references), `Installs` (success of install_triggers).

## 2. Properties

How each property is modelled and proved.  "Refuted as stated" means that the statement is false of the code: the
`…_refuted` theorem is the witness, and the other theorems of the row say what does hold.

| id | property | status | theorems | remark |
| --- | --- | --- | --- | --- |
| C01 | flush() leaves no dirty marker behind | proved | `flush_leaves_no_marker`, `flush_run_leaves_no_marker` | Any schema, database, order, backend. |
| C02 | flush() returns only when every callback field is correct | proved | `flush_makes_consistent`, `flush_makes_consistent_self`, `flush_run_makes_consistent` | The second allows dependencies inside one table as long as no row is related to itself; the third allows any cursor. |
| C03 | flush() consistency fails for out-of-order fields and self-related rows | partial | `flush_out_of_order_refuted`, `flush_self_related_refuted`, `save_sees_earlier_fields_only`, `repeated_rebuild_repairs` | Refuted as stated: flush returns with a stale column in both situations; C02 is the positive part, and rebuilding as often as there are ranks makes everything right. |
| C04 | A written row is marked dirty however it was written | proved | `written_row_is_marked` |  |
| C05 | Forward dependency: a change of the referenced row marks every row pointing at it | proved | `forward_change_marks` |  |
| C06 | Backward dependency: both the old and the new parent are marked | proved | `backward_change_marks` |  |
| C07 | Many-to-many dependency: link changes and far-side changes mark the near row | proved | `link_change_marks`, `far_change_marks` |  |
| C08 | Generic relation dependency: changes to generically related rows mark the right owner | proved | `generic_change_marks`, `other_content_type_unmarked` |  |
| C09 | A write that changes no tracked column is silent | proved | `unwatched_update_is_silent`, `idle_update_generic_refuted`, `all_skipped_mysql_refuted` | The refuted witnesses show why generic relations (PostgreSQL) and skip lists naming the key (MySQL) are excluded. |
| C10 | denorm_always_skip is always honoured | partial | `always_skip_honoured_partial`, `always_skip_honoured_refuted` | Refuted as stated: a field with a skip list of its own ignores denorm_always_skip; the partial theorem covers the remaining declarations. |
| C11 | The skip list of one field does not affect other fields | partial | `first_declaration_decides`, `skip_stays_local_refuted` | Refuted as stated: merged triggers keep the column list of the first declaration, so its skip list hides changes from the second. |
| C12 | CountField equals the number of related rows at all times | proved | `count_exact`, `count_exact_from_empty`, `filtered_count_sqlite_refuted` | Foreign keys are checked per statement (see C54); relations of a model to itself included. SQLite cannot install triggers of filtered counts at all. |
| C13 | SumField equals the sum over related rows at all times | proved | `sum_exact` | A NULL summand makes the statement fail, which leaves the database as it was. |
| C14 | Saving a stale instance never overwrites an aggregate | proved | `stale_save_keeps_aggregate`, `save_moves_aggregate` | The first theorem is for relations between two different models; in a relation of a model to itself the save may change the true value, and the second theorem says that the stored one changes with it. |
| C15 | Aggregate triggers never violate the non-negative check | proved | `no_check_violation`, `check_violation_refuted` | Every step of every history: statements with any number of rows, saves, flushes and rebuilds; summed columns non-negative (the refuted witness shows why). |
| C16 | A new row with a preset primary key can be saved | partial | `preset_key_never_saved`, `preset_key_save_refuted`, `new_row_aggregate_zero` | Refuted as stated: IndexError for every model, key and database; without a preset key the row is stored with aggregate 0. |
| C17 | rebuildall() repairs every callback field from any state | proved | `rebuild_repairs` |  |
| C18 | rebuildall() recalculates every denormalized field (aggregates too) | partial | `rebuild_recalculates_aggregates_refuted`, `rebuild_keeps_aggregates` | Refuted as stated: rebuildall leaves every aggregate over ordinary columns exactly as it was. |
| C19 | rebuildall() marks exactly the selected models | proved | `rebuild_marks_exactly`, `rebuild_marks_once`, `rebuild_is_mark_and_flush` |  |
| C20 | flush() never touches user data | partial | `flush_keeps_user_data`, `rebuild_keeps_user_data`, `flush_keeps_aggregates`, `flush_keeps_all_aggregates_refuted` | Ordinary columns, row sets, user links and aggregates over ordinary columns for any outcome; refuted as stated for aggregates that filter on a denormalized column. |
| C21 | flush() terminates on acyclic dependencies | proved | `flush_terminates`, `flush_passes_enough`, `any_cursor_terminates`, `flush_pass_is_round` | The loop ends, by returning or by raising, for any markers, order and backend; also if the cursor of a pass still reads while markers come and go. |
| C22 | flush() may diverge on cyclic dependencies | partial | `unsolvable_never_returns`, `flush_terminates_refuted` | Refuted as stated: never returns normally when no values fit the dependencies; for A.f = 1 - B.g, B.g = A.f flush is still running after any number of passes. |
| C23 | The result of flush() does not depend on the processing order | proved | `flush_order_irrelevant`, `flush_order_irrelevant_same`, `rebuild_equals_flush`, `flush_order_cyclic_refuted` | Also across backends and for different markers and stale values; the refuted witness shows that acyclic values are needed. |
| C24 | flush() is crash safe | proved | `flush_crash_safe`, `flush_is_run` |  |
| C25 | Writers running during flush() are not lost | partial | `flush_writer_between_safe`, `apart_runs_safe`, `writer_during_flush_refuted` | Refuted as stated: a write that marks a row between its save and the deletion of its markers loses its marker; writers between loop bodies are safe, and so are writers anywhere that keep off the row being processed. |
| C26 | Two concurrent flush() calls are safe | partial | `two_flushes_refuted`, `atomic_bodies_safe`, `apart_runs_safe` | Refuted as stated: two flushes lose a marker when their statements interleave; any interleaving of whole loop bodies is safe, and any interleaving in which no run touches the row another one is processing. |
| C27 | flush() does not overwrite concurrent user updates | partial | `concurrent_update_kept_refuted`, `flushes_keep_user_data` | Refuted as stated: flush writes back every column of the instance it loaded, so an update in between is lost; flushes alone keep all user data. |
| C28 | The middleware always returns the response | proved | `middleware_returns_response` |  |
| C29 | depend_on_related resolves uniquely or raises | partial | `resolves_iff_unique`, `no_relation_iff`, `resolving_again_same`, `resolves_other_case_refuted` | Proved for models told apart by the lower-cased representation the code compares; refuted for classes whose names differ in case only. |
| C30 | One trigger per table and event, with every requested action exactly once | proved | `one_trigger_per_event`, `requested_actions_exactly`, `registered_twice_same` |  |
| C31 | Trigger names never collide | partial | `names_never_collide`, `names_never_collide_refuted`, `shortened_names_refuted`, `random_names_refuted` | Refuted as stated: a generic relation to table t with content type n and an ordinary trigger on table t_n get one name; shortened names collide too. Names of the same kind that are not shortened are proved distinct. |
| C32 | denorm_drop removes all triggers of denorm and denorm_init restores them | partial | `drop_removes_ours`, `drop_then_install`, `drop_install_history`, `short_names_distinct`, `install_shortened_refuted`, `drop_other_schema_refuted`, `install_upper_case_refuted`, `install_partial_mysql_refuted` | Proved for any history of installs and drops with names that are not shortened and tables in the search path with lower-case names (PostgreSQL); refuted with witnesses otherwise and for a failing install on MySQL. |
| C33 | denorm_drop removes only triggers of denorm | partial | `selected_exactly`, `drop_keeps_others`, `drop_only_ours_refuted` | Refuted as stated: LIKE 'denorm_%' selects every trigger whose name starts with denorm and one more character, on SQLite in any case; triggers not selected stay. |
| C34 | Generated identifiers respect the length limits | proved | `names_fit`, `names_keep_prefix`, `short_names_kept` | Digest and random characters are parameters of the stated length; lengths are counted in characters. |
| C35 | A cache key is redrawn whenever a dependency changes | partial | `forward_change_redraws`, `backward_change_redraws`, `generic_change_redraws`, `link_change_redraws`, `far_change_redraws`, `unrelated_change_keeps_key`, `generic_target_redraws_refuted`, `chained_keys_redrawn_refuted` | Refuted as stated: changing the target of a GenericForeignKey redraws nothing, and on SQLite the key of a grandchild in a chain of rows is not redrawn. Proved for all other kinds of dependency (integer object ids), on SQLite without cycles of maintained tables; the frame for related tables that triggers do not update when the written table changes. |
| C36 | Cache keys fit into a BIGINT | proved | `cache_keys_fit` | Floating point draws are modelled with correctly rounded 53-bit arithmetic. |
| C37 | A @cached value is the value of the function for that row | proved | `cached_value_of_row`, `cached_value_current`, `cached_value_current_refuted` | The first theorem is the property, for any interleaving of clients. Being current at the time of reading is proved for atomic saves and refuted for saves that interleave with an invalidation. |
| C38 | @cached values of different rows do not mix | partial | `cached_rows_apart`, `default_keys_apart_refuted`, `unsaved_apart_refuted` | Refuted as stated: rows with the default key and unsaved instances share one cache entry; rows with drawn keys are apart. |
| C39 | A denormalized ManyToManyField holds exactly what its function returned | partial | `m2m_links_exact`, `m2m_new_row_links`, `m2m_links_zero_key_refuted` | Proved for every row with a key other than 0; refuted for the key 0, which pre_save takes for an unsaved row. |
| C40 | Denormalized ManyToManyFields get triggers for their dependencies | partial | `m2m_denorm_has_no_triggers`, `m2m_denorm_refreshed_refuted` | Refuted as stated: the installed triggers never depend on denormalized ManyToManyFields; the links stay stale after flush. |
| C41 | The daemon -o option runs one flush | partial | `daemon_rounds`, `daemon_last_round`, `daemon_command`, `run_once_never_flushes`, `run_once_flushes_refuted` | Refuted as stated: with -o nothing is flushed; the rounds without -o are proved. |
| C42 | At most one daemon runs per pid file | partial | `start_refused_iff`, `start_allowed`, `one_daemon_sequential`, `start_without_pidfile_refuted`, `start_garbled_pidfile_refuted`, `one_daemon_refuted`, `one_daemon_foreground_refuted`, `one_daemon_python3_refuted` | Refuted as stated: two overlapping starts, starts in the foreground and starts on Python 3 all run side by side; the check itself is exact before Python 3.7 and complete background starts on Python 2 leave at most one daemon. |
| C43 | After daemonizing the standard streams are the null device | partial | `streams_are_null`, `streams_follow_stdin`, `streams_are_null_refuted`, `no_terminal_left_refuted` | Refuted as stated: if standard input is not a terminal, output goes to standard input; proved if it is a terminal or closed. |
| C44 | daemonize leaves exactly one running process | proved | `one_process_returns`, `others_exit`, `fork_failure_reported`, `others_exit_refuted` | For POSIX systems, any outcome of every call. The refuted witness: with a pid file on Python 3 the first child leaves with a NameError instead of exiting. |
| C45 | A denormalized ForeignKey accepts an instance or a key | partial | `callback_value_stored`, `update_writes_iff_differs`, `update_m2m_writes_iff_differs`, `update_sets_stored`, `update_m2m_sets`, `update_instance_refuted`, `update_key_refuted` | The stored value, the comparison of plain values and link sets and what Denorm.update sets before Django 1.10 are proved; refuted for Denorm.update with an instance, which is written although the same key is stored, and which later versions assign to the attribute of the key. |
| C46 | Declarations in abstract base models work for every subclass | partial | `callback_every_subclass`, `cachekey_last_subclass`, `aggregate_last_subclass`, `aggregate_every_subclass_refuted`, `aggregate_no_subclass_refuted`, `cachekey_every_subclass_refuted` | Refuted as stated: aggregates and cache keys of an abstract model work for the last subclass at most; callbacks work for every subclass. |
| C47 | Dependencies through a non-primary-key ForeignKey are tracked | partial | `forward_marks_primary_keys`, `to_field_key_tracked_refuted` | Refuted as stated: the trigger compares the key column with the primary key, and marks exactly by it. |
| C48 | Backward generic dependencies are tracked | partial | `generic_backward_marks_nothing`, `generic_backward_tracked_refuted` | Refuted as stated: the triggers are put on the wrong table; writing the owner never marks anything. |
| C49 | Rows are refreshed whatever their Python truth value or default manager | partial | `falsy_row_never_refreshed`, `falsy_rows_refreshed_refuted`, `hidden_rows_rebuilt_refuted` | Refuted as stated: rows whose instance is falsy lose their marker without a refresh, rows hidden by the default manager are not rebuilt. |
| C50 | Proxy and swapped models add nothing | proved | `denorms_exactly`, `proxy_swapped_add_nothing` |  |
| C51 | The trigger backend matches the database engine | partial | `backend_as_named`, `backend_by_engine`, `backend_undotted_refuted` | Proved for every engine name with a dot; refuted for a name without one, which raises an IndexError. |
| C52 | Generated SQL identifies the action | proved | `same_sql_same_action`, `same_sql_equal`, `textual_dedup_complete`, `textual_dedup_is_dedup`, `same_sql_equal_refuted`, `same_sql_odd_names_refuted` | Actions over ordinary identifiers with one text have the same effect; the refuted witnesses show why equality of the actions holds only without filters and why identifiers must be ordinary. |
| C53 | Update triggers fire exactly on tracked changes | partial | `update_condition_exact_partial`, `update_condition_postgres_generic`, `update_condition_mysql_generic`, `generic_triggers_compare_type`, `update_condition_exact_refuted` | Refuted as stated: exact on SQLite and for all non-generic triggers; PostgreSQL and MySQL compute a different condition for generic relations, given exactly. |
| C54 | Aggregates stay exact under deferred foreign key checks | partial | `deferred_keys_count_refuted`, `deferred_count_exact` | Refuted as stated: a child inserted before its parent is never counted. Proved for every history in which no row is inserted that is already referred to, whatever the foreign key checks. |
| C55 | Self-relation counts and callbacks work on SQLite | partial | `changed_aggregate_marks`, `self_count_tracked_refuted` | Refuted as stated: on SQLite the running update trigger is not fired again; proved for PostgreSQL and MySQL, and for SQLite when triggers do not lead back to their table. |
| C56 | Changes to inherited columns are tracked | partial | `undeclared_table_marks_nothing`, `inherited_column_tracked_refuted` | Refuted as stated: no trigger on the parent table, so that writing it never marks anything. |
| C57 | A saved row is right at once | proved | `saved_row_is_fresh`, `saved_new_row_is_fresh`, `new_row_is_fresh_refuted`, `stale_count_is_fresh_refuted` | The refuted witnesses show why the functions of a new row must not read its primary key and why the counts of the instance must be current. |
| C58 | A raising function does not block other rows | partial | `flush_raise_loses_nothing`, `raising_row_blocks_others_refuted` | Refuted as stated: a row whose function raises and whose marker comes first keeps all others from being refreshed for ever; nothing is lost. |
| C59 | Flushing fresh data changes nothing | proved | `flush_of_fresh_data_is_idle`, `rebuild_of_fresh_data_is_idle` |  |
| C60 | DENORM_BULK_UNSAFE_TRIGGERS is only unsafe in bulk | proved | `bulk_unsafe_saves_are_safe`, `bulk_unsafe_rebuild_repairs`, `bulk_unsafe_update_refuted`, `bulk_unsafe_create_refuted` | The refuted witnesses show that QuerySet.update() and new rows whose function reads the primary key go unnoticed. |
| C61 | Trigger texts mean the triggers | proved | `trigger_text_reads_back`, `trigger_text_runs`, `trigger_text_rejected` | Against an independent reader of the SQL used (Read.v). Columns not nullable hold no NULL, and values compared as text differ as text. |
| C62 | Any legal name works | partial | `trigger_text_reads_back`, `any_name_works_refuted`, `table_name_kept_refuted` | Refuted as stated: tables and some columns are not quoted, so reserved words make every text invalid and PostgreSQL folds upper-case letters. Proved for ordinary names. |
| C63 | denorm_sql prints what denorm_init executes | partial | `denorm_sql_prints`, `denorm_sql_exact_sqlite`, `denorm_sql_text_refuted` | Refuted as stated: text values are printed without quotes. It never raises, and prints exactly the executed text if no values are bound, so always on SQLite. |
| C64 | Trigger texts refer to existing tables and columns | partial | `references_exist`, `references_exist_db_column_refuted` | Refuted as stated: with db_column the watched columns, keys, summed and aggregate columns are referred to by their attribute or field names. Proved without db_column, for ordinary names. |
| C65 | Aggregates work for every related manager | partial | `key_managers_count`, `m2m_manager_raises`, `any_manager_counts_refuted`, `generic_manager_own_table`, `generic_manager_counts_refuted` | Refuted as stated: a ManyToManyField's manager raises AttributeError and a GenericRelation's puts the triggers on the wrong table (Django >= 1.9). Managers of ForeignKeys and OneToOneFields give the triggers of C12 and C13. |
| C66 | Declarations that are accepted can be installed | partial | `triggers_install`, `accepted_installs_refuted`, `refused_fails_refuted` | Refuted as stated: exclude is not checked on SQLite, and a filter for NULL is refused although it could be installed. Success is proved under conditions on skip, models and lookups. |
| C67 | Building the triggers raises no exception | partial | `build_raises_iff`, `build_is_gen`, `class_fields_are_columns`, `generic_dependency_builds_refuted` | Refuted as stated: a generic dependency on a model with a reverse one-to-one relation raises AttributeError. The theorem says exactly when an exception is raised. |
| C68 | Other databases are maintained like the default one | partial | `default_as_single`, `one_database_changes`, `other_never_flushed`, `other_database_marked`, `flush_reaches_all_refuted`, `save_other_keeps_counts_refuted`, `save_other_works_refuted`, `other_content_types_refuted`, `other_dialect_unreadable` | Refuted as stated: flush and rebuildall work on the default database only; a save on another database writes the aggregate read from the default one or raises IndexError; the triggers contain the content types of the default database; with another engine the dialects are mixed. Proved: markers are written, and no database disturbs another one. |
| C69 | Migrations keep the columns of denormalized fields | partial | `migration_same_column`, `migration_no_callback`, `historical_usable`, `filter_change_detected_refuted`, `historical_aggregate_same_refuted`, `historical_cached_usable_refuted` | Refuted as stated: changes of filter, exclude, skip or the summed field are not found, and instances of historical models with a @cached field cannot be made. The first half is proved for every field and keyword. |
| C70 | An aggregate moves by exactly the change of the true value | proved | `aggregate_error_constant` | Raw statements that assign to the aggregate column are excluded, as in C12. |
| C71 | A model can count its own rows | partial | `self_count_works_refuted`, `self_aggregate_mysql_insert`, `self_aggregate_mysql_save`, `self_aggregate_mysql_delete`, `self_count_cycle_insert`, `self_count_cycle_update` | Refuted as stated: on MySQL no row of the model can be inserted, saved or deleted; on PostgreSQL no stack is large enough for a statement that closes a cycle. Both are proved for every schema and database. |
| C72 | Nested triggers end | proved | `nested_triggers_end` | The functions of the application must not raise these exceptions themselves. |
| C73 | Aggregates over aggregates | partial | `chained_exact`, `sum_of_counts`, `chained_self_refuted` | Proved when no chain of trigger updates leads from a table back to itself. Refuted as stated: with a relation of a model to itself SQLite does not fire the trigger recursively and the outer aggregate goes stale. |
| C74 | A cached function is not called again | partial | `cached_not_called_again`, `falsy_called_again_refuted`, `called_twice_refuted` | Proved for truthy values already stored in the cache. Refuted as stated: a falsy value is recomputed by every read, and two readers that both miss the cache both call the function. |
| C75 | refresh_from_db() of a cached field | partial | `refresh_uninterrupted`, `refreshed_value_refuted` | Proved for a refresh that nothing interrupts. Refuted as stated: refresh_from_db() assigns the value through the descriptor, which takes it for a key, so that the attribute of this row and of other rows shows a wrong value later. |
| C76 | Only rows that a write can affect are marked | proved | `marked_for_a_reason`, `marks_follow_dependencies` |  |
| C77 | Installing and dropping triggers is all or nothing | partial | `failed_install_rolled_back`, `failed_drop_rolled_back`, `success_on_any_database`, `install_only_adds`, `install_other_database_refuted`, `drop_other_database_refuted`, `install_partial_mysql_refuted` | Proved for SQLite and PostgreSQL on the default database. Refuted as stated: transaction.atomic() is called without the alias, so that with --database of another database every statement is committed by itself; on MySQL always. |
| C78 | flush() needs few passes | proved | `flush_passes_bounded`, `any_cursor_passes_bounded` | Any order and any cursor: R + M + 3 rounds of the loop, counting the one that finds nothing; flush_passes_tight shows a case that needs them all. |
| C79 | Markers of removed models do not block flush() | partial | `stale_marker_blocks`, `stale_marker_first`, `removed_model_refuted` | Refuted as stated: content_object raises AttributeError, every flush raises and keeps the marker; rows processed after it are never refreshed. |
| C80 | Rows deleted while flush() runs stay deleted | partial | `deleted_during_flush_refuted`, `deleted_stays_deleted` | Refuted as stated: a run that has read the row before the deletion inserts it again when it saves it; rows that no run has read stay deleted. |
| C81 | The management commands do what they say | partial | `flush_command_flushes`, `rebuild_command_rebuilds_all`, `init_command_installs`, `drop_command_drops`, `database_option_accepted`, `other_commands_change_nothing`, `words_rejected`, `rebuild_of_one_model_refuted`, `rebuild_of_one_model_called`, `daemon_words_rejected`, `daemon_interval_word_refuted` | Refuted as stated: denorm_rebuild declares no arguments, so argparse rejects every line that names a model, and so does denorm_daemon with the interval that the tutorial writes; everything else holds. |
| C82 | flush() works with every supported Django | partial | `flush_older_django`, `flush_newer_django`, `middleware_newer_django`, `rebuilds_newer_django`, `rebuild_newer_django_refuted` | Refuted as stated: since Django 2.1 the missing DISTINCT ON raises NotSupportedError, which flush() does not catch: on SQLite and MySQL every flush raises and does nothing, and the middleware hides it. |
| C83 | save(update_fields=...) keeps denormalized data right | partial | `update_fields_is_update`, `update_fields_ignores_others`, `update_fields_needs_names_and_row`, `any_save_then_flush`, `update_fields_moves_aggregate`, `update_fields_as_save`, `value_computed_by_every_save_refuted`, `bulk_unsafe_update_fields_refuted`, `cache_key_set_by_every_save_refuted` | Refuted as stated: computed columns and cache keys are written only if they are named; a flush repairs the former, but not with DENORM_BULK_UNSAFE_TRIGGERS. |
| C84 | Loading a fixture keeps aggregates right | partial | `loaded_aggregate`, `load_without_triggers`, `load_without_triggers_exact`, `loaddata_keeps_aggregates_refuted` | Refuted as stated: a loaded row has the value of the fixture plus what is loaded after it, so objects are counted twice where the triggers are installed; loading before denorm_init is right. |
| C85 | Managers may have any name | partial | `objects_everywhere`, `rebuild_without_objects`, `save_without_objects`, `flush_without_objects` | Refuted as stated: rebuildall() raises AttributeError at the first model without objects, and rows of such a model with an aggregate can not be saved again, so that flush() stops at their markers. |
| C86 | Concurrent saves keep aggregates and callback fields right | partial | `save_is_steps`, `concurrent_saves_then_flush`, `concurrent_saves_keep_aggregates`, `concurrent_save_error`, `concurrent_save_keeps_count_refuted` | Refuted as stated: a row that starts or ceases to count between the SELECT and the UPDATE of a save is lost from the aggregate for good; the error is proved to be exactly that, and aggregates to be exact otherwise. Callback fields are right after the next flush. |
| C87 | The daemon refreshes the marked rows and loses nothing | partial | `daemon_loses_nothing`, `failed_round_changes_nothing`, `raising_row_stops_daemon`, `daemon_updates_rows_refuted`, `snapshot_body_same`, `snapshot_flush_loses_nothing_refuted` | Refuted as stated: one marked row whose function raises makes every round roll back, so nothing is ever refreshed; and under REPEATABLE READ a change committed after the snapshot can be lost. Proved: between the rounds every row is right or marked, and completed rounds leave everything right. |
| C88 | bulk_create() keeps denormalized data right | partial | `bulk_batch_is_insert`, `bulk_batch_outcome`, `bulk_create_then_flush`, `bulk_create_keeps_aggregates`, `created_row_is_fresh_refuted`, `bulk_unsafe_bulk_create_refuted`, `bulk_unsafe_bulk_create_postgres`, `bulk_unsafe_bulk_create_other_rows`, `preset_key_bulk_create`, `bulk_create_refuses_children` | Refuted as stated: a row that refers to a row of the same batch gets its value before that row is stored: wrong until the next flush, and for good with DENORM_BULK_UNSAFE_TRIGGERS on SQLite and MySQL. Aggregates are proved exact at once, callback fields right after a flush with the default setting, and with the other one on PostgreSQL or if the functions depend on no rows of their own table. |
| C89 | Denormalized fields can be declared and are never editable | partial | `denorm_fields_not_editable`, `copy_field_never_declared`, `copy_field_usable_refuted`, `cached_function_needs_dependencies`, `cached_any_function_refuted` | Refuted as stated: CopyField raises TypeError whatever its arguments, and @cached raises AttributeError for a function without depend_on_related. The fixed attributes are proved for all declarations. |
| C90 | After a request the denormalized data are right | partial | `requests_lose_nothing`, `request_leaves_all_right`, `middleware_request_right_refuted`, `request_answer`, `raising_row_spoils_requests` | Refuted as stated: what is written after process_response waits for the next request, and a marked row whose function raises turns the responses of all later requests into errors. Proved: every row is right or marked after any requests, right after the middleware if it logged and raised nothing, and right at the end with the setting. |
| C91 | After the declarations change, denorm_drop, denorm_init and denorm_rebuild bring the database up to date | partial | `drop_init_session`, `upgrade_repairs`, `init_needs_drop`, `init_updates_triggers_refuted`, `init_leaves_dangling_refuted`, `upgrade_counts_rows_refuted` | Refuted as stated: denorm_init drops nothing: if a name is taken it raises and the old triggers go on, otherwise triggers of removed declarations keep firing; a new CountField is never filled. Proved: after denorm_drop and denorm_init exactly the present triggers fire, and denorm_rebuild then repairs every callback field. |
| C92 | Rows may be saved through subclasses and proxies | partial | `plain_class_save`, `proxy_save`, `proxy_save_without_links`, `any_class_then_flush`, `class_save_moves_aggregate`, `class_save_keeps_aggregates`, `child_with_aggregate_raises`, `child_save_refuted`, `subclass_save_sets_links_refuted`, `subclass_value_kept_refuted` | Refuted as stated: the links of the parent's denormalized ManyToManyField are not set by saves of subclasses and proxies, save() of a new child with an aggregate of its own raises IndexError, and flush replaces values computed by overridden methods. Proved: callback columns are right or marked whatever the class, and aggregates stay exact. |
| C93 | Sessions that keep off each other's rows lose no marker | proved | `flush_writer_between_safe`, `atomic_bodies_safe`, `apart_runs_safe` | What holds of C25 and C26. |
| C94 | What flush() and rebuildall() never change | proved | `flush_keeps_user_data`, `rebuild_keeps_user_data`, `flush_keeps_aggregates`, `rebuild_keeps_aggregates` | What holds of C18 and C20. |
| C95 | Overlapping flush() calls keep user data and deleted rows deleted | proved | `flushes_keep_user_data`, `deleted_stays_deleted` | What holds of C27 and C80. |
| C96 | Callback fields are right after a flush however concurrent saves interleave | proved | `save_is_steps`, `concurrent_saves_then_flush` | What holds of C86 for callback fields. |
| C97 | A concurrent save can be wrong by exactly the change it did not see | proved | `concurrent_saves_keep_aggregates`, `concurrent_save_error` | What holds of C86 for aggregates. |
| C98 | save(update_fields=...) is an update of the named columns | proved | `update_fields_is_update`, `update_fields_ignores_others`, `update_fields_needs_names_and_row`, `any_save_then_flush`, `update_fields_moves_aggregate`, `update_fields_as_save` | What holds of C83. |
| C99 | bulk_create() keeps counts and sums exact, and a flush the rest | proved | `bulk_batch_is_insert`, `bulk_create_then_flush`, `bulk_create_keeps_aggregates` | What holds of C88. |
| C100 | Requests lose nothing | proved | `requests_lose_nothing`, `request_leaves_all_right` | What holds of C90. |
| C101 | Between the rounds of the daemon every row is right or marked | proved | `daemon_loses_nothing`, `failed_round_changes_nothing`, `daemon_rounds`, `daemon_last_round` | What holds of C87 and C41. |
| C102 | denorm_drop, denorm_init and denorm_rebuild bring any database up to date | proved | `drop_removes_ours`, `drop_then_install`, `drop_install_history`, `short_names_distinct`, `drop_init_session`, `upgrade_repairs` | What holds of C32 and C91. |
| C103 | A failed installation on the default database changes nothing | proved | `failed_install_rolled_back`, `failed_drop_rolled_back`, `success_on_any_database`, `install_only_adds` | What holds of C77. |
| C104 | What denorm_drop takes for its own triggers | proved | `selected_exactly`, `drop_keeps_others` | What holds of C33. |
| C105 | Saves through any class keep callback fields and aggregates right | proved | `plain_class_save`, `proxy_save`, `proxy_save_without_links`, `any_class_then_flush`, `class_save_moves_aggregate`, `class_save_keeps_aggregates` | What holds of C92. |
| C106 | Sums and counts over aggregates | proved | `chained_exact`, `sum_of_counts` | What holds of C73. |
| C107 | depend_on_related resolves to the only relation or raises | proved | `resolves_iff_unique`, `no_relation_iff`, `resolving_again_same` | What holds of C29. |
| C108 | Cache keys are redrawn by changes of related rows | proved | `forward_change_redraws`, `backward_change_redraws`, `generic_change_redraws`, `link_change_redraws`, `far_change_redraws`, `unrelated_change_keeps_key` | What holds of C35. |
| C109 | A save sets the links of a denormalized ManyToManyField exactly | proved | `m2m_links_exact`, `m2m_new_row_links` | What holds of C39. |
| C110 | Aggregates without foreign key checks | proved | `deferred_count_exact` | What holds of C54. |
| C111 | Loading a fixture before denorm_init restores everything; afterwards counts are known | proved | `load_without_triggers`, `load_without_triggers_exact`, `loaded_aggregate` | What holds of C84. |
| C112 | A flush that raises loses nothing | proved | `flush_raise_loses_nothing` | What holds of C58. |
| C113 | Repeated rebuilds make everything right | proved | `repeated_rebuild_repairs`, `save_sees_earlier_fields_only` | What holds of C03. |
| C114 | When update triggers fire | proved | `update_trigger_fires_iff`, `first_declaration_decides` | What holds of C11 and C53. |
| C115 | Cached values of rows with drawn keys | proved | `cached_rows_apart`, `cached_not_called_again` | What holds of C38 and C74. |
| C116 | Databases do not disturb each other, and the default one behaves as if alone | proved | `default_as_single`, `one_database_changes`, `other_database_marked` | What holds of C68. |
| C117 | When building the triggers raises | proved | `build_raises_iff`, `build_is_gen`, `triggers_install`, `key_managers_count` | What holds of C65, C66 and C67. |
| C118 | Migrations of denormalized fields give the same column | proved | `migration_same_column`, `migration_no_callback`, `historical_usable` | What holds of C69. |
| C119 | After save() the instance shows the stored row | partial | `saved_instance_shows_row_refuted`, `saved_instance_is_row` | Refuted as stated: the triggers of the statement that stores the row run after pre_save, so a row that counts itself shows the old count, and a row whose cache key depends on itself shows a key that has been replaced. Proved: the instance is the row when trigger updates are acyclic. |
| C120 | A saved instance shows ordinary columns, callbacks and counts over other tables as stored | proved | `saved_instance_shows_columns`, `saved_instance_shows_aggregates`, `saved_instance_is_row` | What holds of C119. |
| C121 | The fields of the project's test application say what they promise | proved | `test_app_flush`, `test_app_post_count`, `test_app_filtered` | The general theorems at the project's own models. Beside them tests.py itself is run in the model: every test passes on every backend (project_tests_pass). The callback of the denormalized ManyToManyField Forum.authors, CallCounter and its proxy are run by the tests but are outside the theorem. |
| C122 | Every declared dependency is registered for its field | partial | `dependency_above_refuted`, `shared_function_refuted`, `cached_without_dependency_refuted`, `decorated_registers_below` | Refuted as stated: a decorator above @denormalized or @cached sets an attribute of the field that nobody reads; a function used for two denormalized fields gives the first the dependencies of the second; @cached needs a dependency. Proved: functions decorated in one place register what is below. |
| C123 | A decorated function registers the dependencies below the field decorator | proved | `decorated_registers_below`, `decorated_accepted`, `denormalized_registers_all`, `cached_registers_before` | What holds of C122. The last two give the registered dependencies for any class body. |
| C124 | South's and Django's migrations make the same table of markers | proved | `migrations_agree`, `south_0002_keeps`, `migrated_table_appends` |  |
| C125 | The unique constraint of South's first migration makes no difference | partial | `south_0002_undo_refuted`, `unique_loses_markers_refuted`, `south_0002_undone`, `postgres_statement_lost`, `unique_same_markers` | Refuted as stated: a marker that is there twice stops the way back; on Postgres the block that catches unique_violation drops all rows of a statement if one of them is marked already. Proved: exactly when either happens, and that SQLite and MySQL mark the same rows. |
| C126 | A CountField over a ManyToManyField counts the linked rows (Django 1.8) | partial | `m2m_count_refuted`, `m2m_count_formula`, `m2m_count_older`, `m2m_mysql_no_links`, `m2m_mysql_link_raises` | Refuted as stated: the triggers on the table of links look for the key of the linked row in the aggregate's own table, so that other links are not counted and may become impossible to remove; on MySQL no rows can be linked. Proved: exactly which links are counted, and that all are if related.model is the declaring model, as before Django 1.8. |
| C127 | A SumField over a ManyToManyField is the sum of the linked rows (Django 1.8) | partial | `m2m_sum_refuted`, `m2m_sum_stays_zero`, `m2m_sum_update_raises` | Refuted as stated: the triggers on the table of links add a value of the aggregate's own column: sums stay 0 until a linked row is updated, and lowering a value raises an IntegrityError. |
| C128 | Which aggregates over a ManyToManyField can be installed (Django 1.8) | proved | `m2m_install_iff`, `m2m_install_raises` |  |
| C129 | Cache keys follow generic relations whose object ids are texts | partial | `text_ids_refuted`, `text_ids_pg_raise`, `text_ids_redraw`, `text_ids_select` | Refuted as stated: on PostgreSQL the trigger compares an integer with a text, so that related rows can not be inserted, deleted or changed. Proved for SQLite and MySQL (ids in the notation that Django writes). |
| C130 | Types of columns make no difference to the triggers otherwise | proved | `types_agree` | Single statements; saves are made of them. |
| C131 | A SumField over a DecimalField is the sum of the values | partial | `dec_sum_refuted`, `dec_sum_lost`, `dec_sum_sqlite_refuted`, `dec_sum_mysql_refuted`, `dec_sum_limit_refuted` | Refuted as stated: every change of a row worth x.5 raises the sum by 1, values below one half are lost; on SQLite a save of the parent cuts the fraction off, on MySQL a row worth 0.4 can not be deleted; a sum close to the limit keeps values from being changed since the increment comes first. |
| C132 | What a SumField over a DecimalField holds | proved | `dec_sum_formula`, `dec_sum_close`, `dec_sum_sqlite`, `dec_sum_whole`, `dec_sum_no_check` | Two tables, one row per statement; arithmetic of SQLite taken as exact. |
| C133 | The filter of an aggregate may follow foreign keys | partial | `span_other_raises`, `span_parent_refuted` | Refuted as stated: a lookup on a third table makes every write of the counted model raise; one on the aggregate's own model goes stale and can keep rows from being deleted. |
| C134 | Filters on columns that do not change count right | proved | `span_count`, `span_count_own`, `span_writes` | Three tables, one row per statement. |
| C135 | The content types may be numbered anew | partial | `renumbered_refuted`, `upgrade_repairs` | Refuted as stated: the triggers hold the numbers of the day they were installed, so a marker is taken for one of a row of another model. denorm_drop, denorm_init and denorm_rebuild repair it. |
| C136 | The triggers of aggregates do not make transactions lock each other out | partial | `plain_finish`, `crossing_refuted`, `moving_refuted`, `mysql_insert_refuted` | Refuted as stated: two transactions that write posts of two forums in another order deadlock, as do two UPDATEs that move posts in opposite directions, and on MySQL two INSERTs for the same forum. Proved: without the triggers all commit. |
| C137 | Transactions that come to the parents in order always commit | proved | `ordered_pg`, `ordered_mysql`, `ordered_unmoved`, `sqlite_finish` | Row locks only; the condition that no row of the counted model is written by two transactions is that of C136. |
| C138 | Markers can always be inserted | partial | `restored_refuted`, `restored_recovers`, `exhausted_refuted`, `exhausted_mysql_refuted` | Refuted as stated: on PostgreSQL the clash of ids is caught and the markers are lost silently; when the 32 bits of the id are used up every write of a tracked row raises, on MySQL the markers are lost silently. |
| C139 | Markers are inserted while there are ids left | proved | `ids_mark`, `ids_enough`, `never_silent`, `reset_repairs` | The table of markers alone. |
| C140 | The daemon blocks writers only while it flushes | partial | `asleep_refuted`, `asleep_with_locks` | Refuted as stated: the daemon commits after it has slept, so the rows of a round stay locked for the whole interval, on SQLite the whole database. |
| C141 | The daemon blocks a writer for at most one interval | proved | `daemon_wait`, `wait_bounded`, `daemon_awake`, `daemon_ends_free` | Flush and commit take no time in the model. |
| C142 | Rows may be written by any SQL statement | partial | `raw_truncate_refuted`, `raw_replace_refuted` | Refuted as stated: TRUNCATE fires no triggers on PostgreSQL and MySQL, REPLACE no DELETE trigger on SQLite. |
| C143 | Statements that fire the triggers keep everything right | proved | `raw_noticed`, `raw_drift`, `raw_rebuild`, `raw_rows`, `raw_raises`, `raw_parents` | Two models, one count and one callback field. |
| C144 | A statement writes its rows and triggers only what they keep up | proved | `insert_writes`, `update_writes`, `delete_writes`, `plain_table_writes` |  |
| C145 | Saving draws a new cache key | proved | `save_draws_key`, `save_fields_draws_key`, `saved_key_is_new` |  |
| C146 | Keys of different rows are different draws | proved | `keys_stay_apart`, `different_rows_different_keys`, `inserted_keys_apart_refuted` | The refuted witness shows why rows must be created by save(): rows inserted otherwise share the default. |
| C147 | flush and rebuildall draw new cache keys | proved | `flush_draws_marked_keys`, `rebuild_draws_keys` |  |
| C148 | A cache key that was given up never comes back | proved | `key_belongs_to_row`, `given_up_key_is_gone` |  |
| C149 | Cached attributes show values of their own row under its present key | proved | `cached_shows_own_value`, `cached_shows_current_value`, `cached_current_refuted` | The refuted witness shows the last part of the statement: an UPDATE of the row itself keeps its key until the flush. |
| C150 | Cached attributes are current after statements on related rows | proved | `cached_current_after_statements` | What the function returns must have changed only together with the key before, too; on SQLite without cycles of maintained tables. |
| C151 | Cached attributes are current after the row was saved, flushed or rebuilt | proved | `cached_current_after_save`, `cached_current_after_flush`, `cached_current_after_rebuild` | Assumes of what a save itself stores in the cache that it is what the function returns for the stored row (C37 shows the race in which it is not). |


The main arguments:

* C01-C03, C17, C24: the invariant "every row is consistent or marked" is kept by every statement (nested trigger
  firing included, by induction on the nesting), every save and every step of flush; a marker is only deleted after
  its row was made consistent.  The order in which markers are processed is an arbitrary function.
* C04-C09, C53: one theorem per kind of relation; the generated condition is compared with "some tracked column differs".
* C12-C15: "column + pending changes = recount" through nested firing, lifted to all histories.
* C21: the measure is lexicographic: cells that do not yet have their final value (weighted by rank), then
  the pending markers by the rank of their content type.  C23: the user data determine the consistent values.
* C25-C27, C80: a small-step machine with sessions; every database access is a step, and saving an instance whose row
  is gone inserts it, as Django does.
* C35: as C05-C08 with "key redrawn" instead of "row marked".
* C57, C60: the saved row is compared column by column with what its functions return afterwards; other rows
  see a change only through declared dependencies, whose triggers are installed with and without the setting.
* C61: characters to tokens to syntax trees to meaning, each step for all names, filters and lists of actions.
* C93-C118: where an earlier property is refuted as users would state it, these say what does hold, with the
  conditions under which it holds, and are proved without exception; the remark names the refuted property.
* C37, C38, C42, C43: state machines of clients, processes and descriptors with arbitrary interleavings.

## 3. Trusted base

* Coq 8.16.1's kernel, including `vm_compute`, and the OCaml compiler and runtime that run it.  No `native_compute`.
* `Print Assumptions` under every property theorem prints "Closed under the global context": the theorems use no axioms at
  all.  No axiom, parameter, section-less variable, functor, module type, `Admitted` or disabled check is in the development.
  A scan of all loaded modules lists seven constants of `Coq.ssr.ssrunder` (`Under_rel`, `over_rel` and their
  lemmas), which are axioms through the module type in that library file; std++ loads it, no theorem depends on it.
* std++ (finite maps, lists, decidability) is used as a library; it is axiom-free.
* The reading of the Python code, of Django's documented behaviour and of the three databases' trigger semantics
  in the model files.  The code was not run.  As a check of this reading, models.py and tests.py of the project's test
  application are written out in `TestApp.v`: every test of the suite passes in the model on every backend, and most fail
  when the triggers are left out (`P_TestApp.v`).

### What is modelled

All of `__init__.py`, `denorms.py`, `dependencies.py`, `fields.py`, `middleware.py`, `daemon.py`, `db/base.py`, `db/__init__.py`, `models.py`, `helpers.py`, the migrations, the three
`db/*/triggers.py`, and the management commands `denorm_daemon`, `denorm_drop`, `denorm_init`, `denorm_sql`, `denorm_flush`, `denorm_rebuild`, `denormalize`,
in the sense of the table above, and the test application.

### What is not modelled

* Django itself beyond what the code relies on: the ORM's SQL generation is replaced by operations on tables;
  transactions only as far as "a failing statement changes nothing" and "a failing save in flush changes
  nothing" (savepoints); running migrations (of the fields see `Migrate.v`); South beyond the table of markers (`MarkTable.v`); the admin; `helpers.py`'s `find_fks`/`find_m2ms` are in
  `Resolve.v`.
* Time and randomness: `auto_now` and the random draws are oracles.
* Performance, memory, the network, and failures of the database server other than crashes between two accesses.

### Simplifications

* Primary keys are integers and called by `m_pk`; text object ids of generic relations are compared as text (`pretty`).
* Tables are finite maps; SQL types are integers, texts and NULL.  Floats, dates and other types are texts or integers.
* A failing save during flush is rolled back as a whole, also after m2m `pre_save` signals.
* The session machine may fetch any marker (`fs_fetch`); the refuting runs in `Races.v` are restricted to what a cursor
  can return (`real_step`).  `flush` takes the markers of a pass from a snapshot; `Cursor.v` does without it.
* Foreign keys are checked per row (immediate) or not at all (deferred), by a parameter.
* Filter columns of aggregates are ordinary or callback columns; filters are comparisons with constants.
* `Render.v`: lengths are counted in characters.  `Text.v`: line breaks of the `%` template are those of the source.
* `Read.v`: only the statements that are generated; the reserved words of the three databases are taken together (a word
  reserved by one of them is ordinary for none).
* `Install.v`: one namespace of functions; SQLite and MySQL match table names exactly; MySQL's limit of one trigger per
  event before 5.7 is ignored.
* `Meta.v`: Django >= 1.9; an attribute of a model class that is no descriptor is `MgNone`.
* `MultiDb.v`: no database routers; the quoting of a mixed dialect is not modelled.
* `Migrate.v`: a field class is its path and its parameters with defaults; arguments are given by keyword.
* `Resolve.v`: `lower()` on ASCII only.
* `SaveModes.v`: a fixture names rows by their keys; natural keys, deferred fields and `force_insert` are left out.
* `SaveRace.v`: autocommit, so every statement sees all earlier ones; the m2m part of a save, an INSERT after a missed UPDATE
  and a body of flush are one step each (`Machine.v` splits the body instead).
* `DaemonData.v`: a round starts from what is committed; others commit only between the rounds, except in `process_view`, which
  has one body of flush reading an older state than it writes to (REPEATABLE READ, models without denormalized m2m fields).
* `BulkCreate.v`: the caller gives the batches; functions read related rows from the database (not from objects of the same
  batch that Django may have cached on the instance).
* `Request.v`: requests one after the other; the view is its list of writing operations and stops at the first that raises.
* `Upgrade.v`: the columns of the tables are those of the new models (migrations have run); foreign triggers leave the tables of the models alone.
* `Inherit.v`: one parent class each; Django 1.8 to 2.0 (later versions pass force_insert on to the child's table); the foreign key
  from the child's to the parent's table is not checked; update_fields is left out.
* `TestApp.v`: related objects that Django caches on an instance are read from the database; tags are created with their two columns instead of a GenericForeignKey; users are left out.
* `MarkTable.v`: ids of markers left out, keys not negative; South's checks for existing tables and constraints as exceptions.
* `M2mAgg.v`: three tables with the columns that matter, one row per statement, foreign keys checked at once; that `related.model` is the
  model with the manager in Django 1.8 is taken from its documentation of `_meta`; the counterfactual is modelled too (`QRel`).
* `TypedSql.v`: a text equals a number if it is its decimal notation (SQLite and MySQL accept others, such as 01); single statements; constants in filters are not typed.
* `DecSum.v`: two tables, one row per statement, no NULLs and filters; SQLite's floating point arithmetic as exact; PostgreSQL and MySQL round halves away from zero, MySQL in strict mode
  rejects negative numbers for UNSIGNED columns before rounding.
* `SpanFilter.v`: three tables, one row per statement, one foreign key followed, predicates of one column that is not NULL; the aliases of joins are those of Django's `Query.table_alias`.
* `Locks.v`: row locks only (no gaps, indexes, queues and timeouts); the compatibility of the locks and the time of foreign key checks are taken from the databases' documentation; parents are not deleted.
* `MarkIds.v`: the table of markers alone; the behaviour of sequences and of AUTO_INCREMENT at their ends is taken from the databases' documentation.
* `DaemonLocks.v`: flush() and commit() take no time; the rows that a flush writes are given.
* `RawSql.v`: two models, parents are not deleted, flush() in one step; which statements fire row triggers is taken from the databases' documentation.
* `Compat.v`: the two versions differ in the exception only; other changes of Django since 2.1 are left out.
* `Keys.v`: floating point exponents are unbounded, arithmetic is correctly rounded.
* `Cached.v`: the cache key text is represented by its number (formatting is injective); cached values are integers with 0 falsy.
* `CachedDb.v`: reads are atomic (single steps of concurrent readers: `Cached.v`); what a save stores under the key it draws is assumed to be what the function returns for the row after the step; keys drawn in a rolled back step are left out. C146, C148 and C149 speak of draws; that different draws are different numbers is a hypothesis where it is needed.
* `Daemon.v`: process ids are not reused by unrelated processes.
* `Classes.v`: a dependency list is one object; availability of managers is an oracle.
* Outside `TypedSql.v` a generic CacheKey dependency needs integer object ids: SQL equality of an integer and a text is false there.
* A model's name serves as its identity and as `__name__`, except in `Resolve.v`, where they are apart.

## 4. Findings

Behaviour of the code that contradicts what its documentation or its names promise.  Each is traced to a
`…_refuted` theorem where the model expresses it.

* flush deletes all markers of a row after saving it, also those written in between (`writer_during_flush_refuted`).
* flush saves whole instances, so a concurrent update of another column is lost (`concurrent_update_kept_refuted`).
* Callbacks reading computed columns declared later keep stale values (`flush_out_of_order_refuted`).
* A row related to itself keeps stale values (`flush_self_related_refuted`).
* `skip or () + always_skip` is parsed as `skip or (() + always_skip)`, so a skip list replaces denorm_always_skip (C10).
* `TriggerSet.append` keeps the column list of the first trigger of a name (C11).
* The PostgreSQL condition of generic triggers mixes AND and OR without parentheses; MySQL drops the content type (C53).
* `AggregateField.pre_save` raises IndexError for a new row with a preset key (C16).
* rebuildall recomputes no aggregates (C18); `Denorm.update` is never called.
* A summed NULL makes the statement fail; with deferred foreign keys a child inserted before its parent is never counted (C54).
* SQLite does not fire a trigger recursively, so trees of counts and cache keys go stale (C55, C35).
* Triggers compare foreign key columns with the primary key although `to_field` may name another column (C47).
* Backward generic dependencies put their triggers on the wrong table; on MySQL such rows cannot be inserted (C48, C35).
* A falsy instance is never refreshed and a primary key 0 is taken for an unsaved row (C49, C39).
* Only local fields are watched with multi-table inheritance (C56).
* Denormalized ManyToManyFields get no triggers since only `_meta.fields` is scanned (C40).
* `LIKE 'denorm_%'` treats the underscore as a wildcard (C33); PostgreSQL folds unquoted table names and drops without a schema (C32).
* `denorm_init` does not drop first and is not atomic on MySQL (C32).
* Abstract aggregates and cache keys share one denorm object between subclasses (C46).
* `denorm_daemon -o` never flushes (C41); the pid file check races and is broken on Python 3 (C42); with a non-terminal standard
  input the daemon's output goes there (C43).
* A row whose function raises can keep all other rows from being refreshed (C58).
* A CountField of an instance loaded earlier is out of date for the functions declared before it (C57).
* Table names and some columns are not quoted (C62); `denorm_sql` prints text values without quotes (C63).
* With db_column, triggers refer to columns that do not exist (C64).
* CountFields over ManyToManyFields make install_triggers raise, those over GenericRelations put triggers on the wrong table (C65).
* exclude of an aggregate is not checked on SQLite (C66); a generic dependency on a model with a reverse one-to-one relation raises (C67).
* flush and rebuildall reach the default database only, and saving on another database writes or looks up aggregates on the default one (C68).
* Migrations do not store filter, exclude, skip and the summed field, and historical models with @cached fields cannot be instantiated (C69).
* With a CountField of a model over itself MySQL rejects every insert, save and delete, and PostgreSQL exceeds every stack when a row
  is put on a cycle (C71); on SQLite a SumField over such a CountField goes stale (C73).
* A @cached function with a falsy value is called by every read (C74). refresh_from_db() assigns the value of a @cached attribute, which
  the descriptor takes for a cache key; the entry stored under it is later served to the row that has this number as its key (C75).
* denorm_init and denorm_drop with --database open a transaction of the default database, so that a failure leaves half of the triggers on
  the other one (C77).
* A marker of a model that was removed from the code makes every flush() raise and is never deleted; rows returned after it are never refreshed (C79).
* flush() inserts a row again that was deleted between loading and saving it (C80).
* `denorm_rebuild` takes a `model_name` that no command line can give: the command declares no argument (C81).  The tutorial's `denorm_daemon 10` is rejected as well; it has to be `denorm_daemon -i 10`.
* Since Django 2.1, flush() always raises on SQLite and MySQL, and the middleware logs that and goes on (C82).
* `save(update_fields=...)` neither computes values nor redraws cache keys unless they are named; with
  `DENORM_BULK_UNSAFE_TRIGGERS` the value stays wrong (C83).
* `loaddata` with the triggers installed counts rows twice, and nothing repairs the counts (C84).
* Models without a manager called `objects` break rebuildall() and, with an aggregate, flush() (C85).
* A save of a row reads its counts and writes them back in another statement; rows counted in between are lost (C86).
* The daemon rolls the whole flush back when one function raises, so one such row stops it for all rows; under
  REPEATABLE READ its flush also loses changes committed after its snapshot (C87).
* bulk_create() computes the values of a batch before it stores any of its rows (C88).
* CopyField cannot be declared at all, and @cached needs depend_on_related (C89).
* What is written after the middleware waits for the next request; one raising function makes every response an error (C90).
* denorm_init does not drop: a taken name makes it raise, triggers of removed declarations stay, and a new CountField stays 0 (C91).
* Saves through a subclass or a proxy do not set the parent's denormalized links; save() of a new child with its own CountField raises (C92).
* After save() a row that counts itself, or whose cache key depends on itself, shows the value before the triggers ran (C119).
* An UPDATE of a row keeps its cache key until the flush saves the row, so its @cached attributes are outdated until then (C149). Rows created by bulk_create share the key 0 (C146).
* @depend_on_related above @denormalized or @cached is ignored without an error; a function shared by two fields mixes their dependencies; @cached without a dependency raises AttributeError (C122).
* With the unique constraint of South's first migration (also after undoing the second) a Postgres trigger that marks several rows marks none of them if one is marked already; the second migration cannot be undone while a marker is there twice (C125).
* Under Django 1.8 a CountField over a ManyToManyField counts a link only if the aggregate's own table has a row with the key of the linked row; a link made before that row can not be removed after it; on MySQL no link can be made (C126). A SumField stays 0 when rows are linked, and lowering a linked value raises (C127).
* On PostgreSQL a CacheKeyField that depends on a generic relation with text object ids makes it impossible to write related rows: `id = NEW.object_id` has no operator (C129).
* A SumField over a DecimalField is stored in an integer column: on PostgreSQL and MySQL every update of a row worth x.5 raises the sum by 1 and values below one half are lost; on SQLite saving the parent cuts the fraction off (C131).
* The filter of an aggregate loses its joins: a lookup on a third table makes every write of the counted model raise, one on the aggregate's own model goes stale (C133).
* The triggers hold the numbers of the content types; if those are numbered anew the markers are taken for rows of other models (C135).
* The triggers of an aggregate lock the parent's row until the transaction ends: transactions that have no row in common deadlock, on MySQL already two single INSERTs for the same parent (C136).
* The ids of the markers are 32 bits and used once: after 2147483647 markers every write of a tracked row raises on PostgreSQL, on MySQL INSERT IGNORE drops markers silently; on PostgreSQL markers restored with their ids make the trigger's exception handler drop new ones (C138).
* The daemon sleeps between flush() and commit(), so the rows it has saved stay locked for the whole interval; on SQLite every writer is kept out, and raises "database is locked" if the interval is longer than the timeout (C140).
* TRUNCATE on PostgreSQL and MySQL and REPLACE on SQLite remove rows without firing the triggers: counts stay too high for good, callback fields until denorm_rebuild (C142).
* tests.py leaves out test_without_skip because flush() is said to loop for ever; in the model it returns (`commented_out_test_passes`).
