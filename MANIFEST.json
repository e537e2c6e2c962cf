{
 "claims": [
  {
   "property": "C01",
   "status": "proved",
   "theorems": [
    "flush_leaves_no_marker",
    "flush_run_leaves_no_marker"
   ],
   "note": "Any schema, database, order, backend."
  },
  {
   "property": "C02",
   "status": "proved",
   "theorems": [
    "flush_makes_consistent",
    "flush_makes_consistent_self",
    "flush_run_makes_consistent"
   ],
   "note": "The second allows dependencies inside one table as long as no row is related to itself; the third allows any cursor."
  },
  {
   "property": "C03",
   "status": "partial",
   "theorems": [
    "flush_out_of_order_refuted",
    "flush_self_related_refuted",
    "save_sees_earlier_fields_only",
    "repeated_rebuild_repairs"
   ],
   "note": "Refuted as stated: flush returns with a stale column in both situations; C02 is the positive part, and rebuilding as often as there are ranks makes everything right."
  },
  {
   "property": "C04",
   "status": "proved",
   "theorems": [
    "written_row_is_marked"
   ],
   "note": ""
  },
  {
   "property": "C05",
   "status": "proved",
   "theorems": [
    "forward_change_marks"
   ],
   "note": ""
  },
  {
   "property": "C06",
   "status": "proved",
   "theorems": [
    "backward_change_marks"
   ],
   "note": ""
  },
  {
   "property": "C07",
   "status": "proved",
   "theorems": [
    "link_change_marks",
    "far_change_marks"
   ],
   "note": ""
  },
  {
   "property": "C08",
   "status": "proved",
   "theorems": [
    "generic_change_marks",
    "other_content_type_unmarked"
   ],
   "note": ""
  },
  {
   "property": "C09",
   "status": "proved",
   "theorems": [
    "unwatched_update_is_silent",
    "idle_update_generic_refuted",
    "all_skipped_mysql_refuted"
   ],
   "note": "The refuted witnesses show why generic relations (PostgreSQL) and skip lists naming the key (MySQL) are excluded."
  },
  {
   "property": "C10",
   "status": "partial",
   "theorems": [
    "always_skip_honoured_partial",
    "always_skip_honoured_refuted"
   ],
   "note": "Refuted as stated: a field with a skip list of its own ignores denorm_always_skip; the partial theorem covers the remaining declarations."
  },
  {
   "property": "C11",
   "status": "partial",
   "theorems": [
    "first_declaration_decides",
    "skip_stays_local_refuted"
   ],
   "note": "Refuted as stated: merged triggers keep the column list of the first declaration, so its skip list hides changes from the second."
  },
  {
   "property": "C17",
   "status": "proved",
   "theorems": [
    "rebuild_repairs"
   ],
   "note": ""
  },
  {
   "property": "C12",
   "status": "proved",
   "theorems": [
    "count_exact",
    "count_exact_from_empty",
    "filtered_count_sqlite_refuted"
   ],
   "note": "Foreign keys are checked per statement (see C54); relations of a model to itself included. SQLite cannot install triggers of filtered counts at all."
  },
  {
   "property": "C13",
   "status": "proved",
   "theorems": [
    "sum_exact"
   ],
   "note": "A NULL summand makes the statement fail, which leaves the database as it was."
  },
  {
   "property": "C14",
   "status": "proved",
   "theorems": [
    "stale_save_keeps_aggregate",
    "save_moves_aggregate"
   ],
   "note": "The first theorem is for relations between two different models; in a relation of a model to itself the save may change the true value, and the second theorem says that the stored one changes with it."
  },
  {
   "property": "C15",
   "status": "proved",
   "theorems": [
    "no_check_violation",
    "check_violation_refuted"
   ],
   "note": "Every step of every history: statements with any number of rows, saves, flushes and rebuilds; summed columns non-negative (the refuted witness shows why)."
  },
  {
   "property": "C16",
   "status": "partial",
   "theorems": [
    "preset_key_never_saved",
    "preset_key_save_refuted",
    "new_row_aggregate_zero"
   ],
   "note": "Refuted as stated: IndexError for every model, key and database; without a preset key the row is stored with aggregate 0."
  },
  {
   "property": "C18",
   "status": "partial",
   "theorems": [
    "rebuild_recalculates_aggregates_refuted",
    "rebuild_keeps_aggregates"
   ],
   "note": "Refuted as stated: rebuildall leaves every aggregate over ordinary columns exactly as it was."
  },
  {
   "property": "C20",
   "status": "partial",
   "theorems": [
    "flush_keeps_user_data",
    "rebuild_keeps_user_data",
    "flush_keeps_aggregates",
    "flush_keeps_all_aggregates_refuted"
   ],
   "note": "Ordinary columns, row sets, user links and aggregates over ordinary columns for any outcome; refuted as stated for aggregates that filter on a denormalized column."
  },
  {
   "property": "C54",
   "status": "partial",
   "theorems": [
    "deferred_keys_count_refuted",
    "deferred_count_exact"
   ],
   "note": "Refuted as stated: a child inserted before its parent is never counted. Proved for every history in which no row is inserted that is already referred to, whatever the foreign key checks."
  },
  {
   "property": "C19",
   "status": "proved",
   "theorems": [
    "rebuild_marks_exactly",
    "rebuild_marks_once",
    "rebuild_is_mark_and_flush"
   ],
   "note": ""
  },
  {
   "property": "C28",
   "status": "proved",
   "theorems": [
    "middleware_returns_response"
   ],
   "note": ""
  },
  {
   "property": "C45",
   "status": "partial",
   "theorems": [
    "callback_value_stored",
    "update_writes_iff_differs",
    "update_m2m_writes_iff_differs",
    "update_sets_stored",
    "update_m2m_sets",
    "update_instance_refuted",
    "update_key_refuted"
   ],
   "note": "The stored value, the comparison of plain values and link sets and what Denorm.update sets before Django 1.10 are proved; refuted for Denorm.update with an instance, which is written although the same key is stored, and which later versions assign to the attribute of the key."
  },
  {
   "property": "C49",
   "status": "partial",
   "theorems": [
    "falsy_row_never_refreshed",
    "falsy_rows_refreshed_refuted",
    "hidden_rows_rebuilt_refuted"
   ],
   "note": "Refuted as stated: rows whose instance is falsy lose their marker without a refresh, rows hidden by the default manager are not rebuilt."
  },
  {
   "property": "C50",
   "status": "proved",
   "theorems": [
    "denorms_exactly",
    "proxy_swapped_add_nothing"
   ],
   "note": ""
  },
  {
   "property": "C21",
   "status": "proved",
   "theorems": [
    "flush_terminates",
    "flush_passes_enough",
    "any_cursor_terminates",
    "flush_pass_is_round"
   ],
   "note": "The loop ends, by returning or by raising, for any markers, order and backend; also if the cursor of a pass still reads while markers come and go."
  },
  {
   "property": "C23",
   "status": "proved",
   "theorems": [
    "flush_order_irrelevant",
    "flush_order_irrelevant_same",
    "rebuild_equals_flush",
    "flush_order_cyclic_refuted"
   ],
   "note": "Also across backends and for different markers and stale values; the refuted witness shows that acyclic values are needed."
  },
  {
   "property": "C22",
   "status": "partial",
   "theorems": [
    "unsolvable_never_returns",
    "flush_terminates_refuted"
   ],
   "note": "Refuted as stated: never returns normally when no values fit the dependencies; for A.f = 1 - B.g, B.g = A.f flush is still running after any number of passes."
  },
  {
   "property": "C40",
   "status": "partial",
   "theorems": [
    "m2m_denorm_has_no_triggers",
    "m2m_denorm_refreshed_refuted"
   ],
   "note": "Refuted as stated: the installed triggers never depend on denormalized ManyToManyFields; the links stay stale after flush."
  },
  {
   "property": "C47",
   "status": "partial",
   "theorems": [
    "forward_marks_primary_keys",
    "to_field_key_tracked_refuted"
   ],
   "note": "Refuted as stated: the trigger compares the key column with the primary key, and marks exactly by it."
  },
  {
   "property": "C48",
   "status": "partial",
   "theorems": [
    "generic_backward_marks_nothing",
    "generic_backward_tracked_refuted"
   ],
   "note": "Refuted as stated: the triggers are put on the wrong table; writing the owner never marks anything."
  },
  {
   "property": "C55",
   "status": "partial",
   "theorems": [
    "changed_aggregate_marks",
    "self_count_tracked_refuted"
   ],
   "note": "Refuted as stated: on SQLite the running update trigger is not fired again; proved for PostgreSQL and MySQL, and for SQLite when triggers do not lead back to their table."
  },
  {
   "property": "C56",
   "status": "partial",
   "theorems": [
    "undeclared_table_marks_nothing",
    "inherited_column_tracked_refuted"
   ],
   "note": "Refuted as stated: no trigger on the parent table, so that writing it never marks anything."
  },
  {
   "property": "C24",
   "status": "proved",
   "theorems": [
    "flush_crash_safe",
    "flush_is_run"
   ],
   "note": ""
  },
  {
   "property": "C53",
   "status": "partial",
   "theorems": [
    "update_condition_exact_partial",
    "update_condition_postgres_generic",
    "update_condition_mysql_generic",
    "generic_triggers_compare_type",
    "update_condition_exact_refuted"
   ],
   "note": "Refuted as stated: exact on SQLite and for all non-generic triggers; PostgreSQL and MySQL compute a different condition for generic relations, given exactly."
  },
  {
   "property": "C25",
   "status": "partial",
   "theorems": [
    "flush_writer_between_safe",
    "apart_runs_safe",
    "writer_during_flush_refuted"
   ],
   "note": "Refuted as stated: a write that marks a row between its save and the deletion of its markers loses its marker; writers between loop bodies are safe, and so are writers anywhere that keep off the row being processed."
  },
  {
   "property": "C26",
   "status": "partial",
   "theorems": [
    "two_flushes_refuted",
    "atomic_bodies_safe",
    "apart_runs_safe"
   ],
   "note": "Refuted as stated: two flushes lose a marker when their statements interleave; any interleaving of whole loop bodies is safe, and any interleaving in which no run touches the row another one is processing."
  },
  {
   "property": "C27",
   "status": "partial",
   "theorems": [
    "concurrent_update_kept_refuted",
    "flushes_keep_user_data"
   ],
   "note": "Refuted as stated: flush writes back every column of the instance it loaded, so an update in between is lost; flushes alone keep all user data."
  },
  {
   "property": "C39",
   "status": "partial",
   "theorems": [
    "m2m_links_exact",
    "m2m_new_row_links",
    "m2m_links_zero_key_refuted"
   ],
   "note": "Proved for every row with a key other than 0; refuted for the key 0, which pre_save takes for an unsaved row."
  },
  {
   "property": "C30",
   "status": "proved",
   "theorems": [
    "one_trigger_per_event",
    "requested_actions_exactly",
    "registered_twice_same"
   ],
   "note": ""
  },
  {
   "property": "C31",
   "status": "partial",
   "theorems": [
    "names_never_collide",
    "names_never_collide_refuted",
    "shortened_names_refuted",
    "random_names_refuted"
   ],
   "note": "Refuted as stated: a generic relation to table t with content type n and an ordinary trigger on table t_n get one name; shortened names collide too. Names of the same kind that are not shortened are proved distinct."
  },
  {
   "property": "C34",
   "status": "proved",
   "theorems": [
    "names_fit",
    "names_keep_prefix",
    "short_names_kept"
   ],
   "note": "Digest and random characters are parameters of the stated length; lengths are counted in characters."
  },
  {
   "property": "C52",
   "status": "proved",
   "theorems": [
    "same_sql_same_action",
    "same_sql_equal",
    "textual_dedup_complete",
    "textual_dedup_is_dedup",
    "same_sql_equal_refuted",
    "same_sql_odd_names_refuted"
   ],
   "note": "Actions over ordinary identifiers with one text have the same effect; the refuted witnesses show why equality of the actions holds only without filters and why identifiers must be ordinary."
  },
  {
   "property": "C29",
   "status": "partial",
   "theorems": [
    "resolves_iff_unique",
    "no_relation_iff",
    "resolving_again_same",
    "resolves_other_case_refuted"
   ],
   "note": "Proved for models told apart by the lower-cased representation the code compares; refuted for classes whose names differ in case only."
  },
  {
   "property": "C32",
   "status": "partial",
   "theorems": [
    "drop_removes_ours",
    "drop_then_install",
    "drop_install_history",
    "short_names_distinct",
    "install_shortened_refuted",
    "drop_other_schema_refuted",
    "install_upper_case_refuted",
    "install_partial_mysql_refuted"
   ],
   "note": "Proved for any history of installs and drops with names that are not shortened and tables in the search path with lower-case names (PostgreSQL); refuted with witnesses otherwise and for a failing install on MySQL."
  },
  {
   "property": "C33",
   "status": "partial",
   "theorems": [
    "selected_exactly",
    "drop_keeps_others",
    "drop_only_ours_refuted"
   ],
   "note": "Refuted as stated: LIKE 'denorm_%' selects every trigger whose name starts with denorm and one more character, on SQLite in any case; triggers not selected stay."
  },
  {
   "property": "C36",
   "status": "proved",
   "theorems": [
    "cache_keys_fit"
   ],
   "note": "Floating point draws are modelled with correctly rounded 53-bit arithmetic."
  },
  {
   "property": "C37",
   "status": "proved",
   "theorems": [
    "cached_value_of_row",
    "cached_value_current",
    "cached_value_current_refuted"
   ],
   "note": "The first theorem is the property, for any interleaving of clients. Being current at the time of reading is proved for atomic saves and refuted for saves that interleave with an invalidation."
  },
  {
   "property": "C38",
   "status": "partial",
   "theorems": [
    "cached_rows_apart",
    "default_keys_apart_refuted",
    "unsaved_apart_refuted"
   ],
   "note": "Refuted as stated: rows with the default key and unsaved instances share one cache entry; rows with drawn keys are apart."
  },
  {
   "property": "C41",
   "status": "partial",
   "theorems": [
    "daemon_rounds",
    "daemon_last_round",
    "daemon_command",
    "run_once_never_flushes",
    "run_once_flushes_refuted"
   ],
   "note": "Refuted as stated: with -o nothing is flushed; the rounds without -o are proved."
  },
  {
   "property": "C42",
   "status": "partial",
   "theorems": [
    "start_refused_iff",
    "start_allowed",
    "one_daemon_sequential",
    "start_without_pidfile_refuted",
    "start_garbled_pidfile_refuted",
    "one_daemon_refuted",
    "one_daemon_foreground_refuted",
    "one_daemon_python3_refuted"
   ],
   "note": "Refuted as stated: two overlapping starts, starts in the foreground and starts on Python 3 all run side by side; the check itself is exact before Python 3.7 and complete background starts on Python 2 leave at most one daemon."
  },
  {
   "property": "C43",
   "status": "partial",
   "theorems": [
    "streams_are_null",
    "streams_follow_stdin",
    "streams_are_null_refuted",
    "no_terminal_left_refuted"
   ],
   "note": "Refuted as stated: if standard input is not a terminal, output goes to standard input; proved if it is a terminal or closed."
  },
  {
   "property": "C44",
   "status": "proved",
   "theorems": [
    "one_process_returns",
    "others_exit",
    "fork_failure_reported",
    "others_exit_refuted"
   ],
   "note": "For POSIX systems, any outcome of every call. The refuted witness: with a pid file on Python 3 the first child leaves with a NameError instead of exiting."
  },
  {
   "property": "C46",
   "status": "partial",
   "theorems": [
    "callback_every_subclass",
    "cachekey_last_subclass",
    "aggregate_last_subclass",
    "aggregate_every_subclass_refuted",
    "aggregate_no_subclass_refuted",
    "cachekey_every_subclass_refuted"
   ],
   "note": "Refuted as stated: aggregates and cache keys of an abstract model work for the last subclass at most; callbacks work for every subclass."
  },
  {
   "property": "C35",
   "status": "partial",
   "theorems": [
    "forward_change_redraws",
    "backward_change_redraws",
    "generic_change_redraws",
    "link_change_redraws",
    "far_change_redraws",
    "unrelated_change_keeps_key",
    "generic_target_redraws_refuted",
    "chained_keys_redrawn_refuted"
   ],
   "note": "Refuted as stated: changing the target of a GenericForeignKey redraws nothing, and on SQLite the key of a grandchild in a chain of rows is not redrawn. Proved for all other kinds of dependency (integer object ids), on SQLite without cycles of maintained tables; the frame for related tables that triggers do not update when the written table changes."
  },
  {
   "property": "C51",
   "status": "partial",
   "theorems": [
    "backend_as_named",
    "backend_by_engine",
    "backend_undotted_refuted"
   ],
   "note": "Proved for every engine name with a dot; refuted for a name without one, which raises an IndexError."
  },
  {
   "property": "C57",
   "status": "proved",
   "theorems": [
    "saved_row_is_fresh",
    "saved_new_row_is_fresh",
    "new_row_is_fresh_refuted",
    "stale_count_is_fresh_refuted"
   ],
   "note": "The refuted witnesses show why the functions of a new row must not read its primary key and why the counts of the instance must be current."
  },
  {
   "property": "C58",
   "status": "partial",
   "theorems": [
    "flush_raise_loses_nothing",
    "raising_row_blocks_others_refuted"
   ],
   "note": "Refuted as stated: a row whose function raises and whose marker comes first keeps all others from being refreshed for ever; nothing is lost."
  },
  {
   "property": "C59",
   "status": "proved",
   "theorems": [
    "flush_of_fresh_data_is_idle",
    "rebuild_of_fresh_data_is_idle"
   ],
   "note": ""
  },
  {
   "property": "C60",
   "status": "proved",
   "theorems": [
    "bulk_unsafe_saves_are_safe",
    "bulk_unsafe_rebuild_repairs",
    "bulk_unsafe_update_refuted",
    "bulk_unsafe_create_refuted"
   ],
   "note": "The refuted witnesses show that QuerySet.update() and new rows whose function reads the primary key go unnoticed."
  },
  {
   "property": "C61",
   "status": "proved",
   "theorems": [
    "trigger_text_reads_back",
    "trigger_text_runs",
    "trigger_text_rejected"
   ],
   "note": "Against an independent reader of the SQL used (Read.v). Columns not nullable hold no NULL, and values compared as text differ as text."
  },
  {
   "property": "C62",
   "status": "partial",
   "theorems": [
    "trigger_text_reads_back",
    "any_name_works_refuted",
    "table_name_kept_refuted"
   ],
   "note": "Refuted as stated: tables and some columns are not quoted, so reserved words make every text invalid and PostgreSQL folds upper-case letters. Proved for ordinary names."
  },
  {
   "property": "C63",
   "status": "partial",
   "theorems": [
    "denorm_sql_prints",
    "denorm_sql_exact_sqlite",
    "denorm_sql_text_refuted"
   ],
   "note": "Refuted as stated: text values are printed without quotes. It never raises, and prints exactly the executed text if no values are bound, so always on SQLite."
  },
  {
   "property": "C64",
   "status": "partial",
   "theorems": [
    "references_exist",
    "references_exist_db_column_refuted"
   ],
   "note": "Refuted as stated: with db_column the watched columns, keys, summed and aggregate columns are referred to by their attribute or field names. Proved without db_column, for ordinary names."
  },
  {
   "property": "C65",
   "status": "partial",
   "theorems": [
    "key_managers_count",
    "m2m_manager_raises",
    "any_manager_counts_refuted",
    "generic_manager_own_table",
    "generic_manager_counts_refuted"
   ],
   "note": "Refuted as stated: a ManyToManyField's manager raises AttributeError and a GenericRelation's puts the triggers on the wrong table (Django >= 1.9). Managers of ForeignKeys and OneToOneFields give the triggers of C12 and C13."
  },
  {
   "property": "C66",
   "status": "partial",
   "theorems": [
    "triggers_install",
    "accepted_installs_refuted",
    "refused_fails_refuted"
   ],
   "note": "Refuted as stated: exclude is not checked on SQLite, and a filter for NULL is refused although it could be installed. Success is proved under conditions on skip, models and lookups."
  },
  {
   "property": "C67",
   "status": "partial",
   "theorems": [
    "build_raises_iff",
    "build_is_gen",
    "class_fields_are_columns",
    "generic_dependency_builds_refuted"
   ],
   "note": "Refuted as stated: a generic dependency on a model with a reverse one-to-one relation raises AttributeError. The theorem says exactly when an exception is raised."
  },
  {
   "property": "C68",
   "status": "partial",
   "theorems": [
    "default_as_single",
    "one_database_changes",
    "other_never_flushed",
    "other_database_marked",
    "flush_reaches_all_refuted",
    "save_other_keeps_counts_refuted",
    "save_other_works_refuted",
    "other_content_types_refuted",
    "other_dialect_unreadable"
   ],
   "note": "Refuted as stated: flush and rebuildall work on the default database only; a save on another database writes the aggregate read from the default one or raises IndexError; the triggers contain the content types of the default database; with another engine the dialects are mixed. Proved: markers are written, and no database disturbs another one."
  },
  {
   "property": "C69",
   "status": "partial",
   "theorems": [
    "migration_same_column",
    "migration_no_callback",
    "historical_usable",
    "filter_change_detected_refuted",
    "historical_aggregate_same_refuted",
    "historical_cached_usable_refuted"
   ],
   "note": "Refuted as stated: changes of filter, exclude, skip or the summed field are not found, and instances of historical models with a @cached field cannot be made. The first half is proved for every field and keyword."
  },
  {
   "property": "C70",
   "status": "proved",
   "theorems": [
    "aggregate_error_constant"
   ],
   "note": "Raw statements that assign to the aggregate column are excluded, as in C12."
  },
  {
   "property": "C71",
   "status": "partial",
   "theorems": [
    "self_count_works_refuted",
    "self_aggregate_mysql_insert",
    "self_aggregate_mysql_save",
    "self_aggregate_mysql_delete",
    "self_count_cycle_insert",
    "self_count_cycle_update"
   ],
   "note": "Refuted as stated: on MySQL no row of the model can be inserted, saved or deleted; on PostgreSQL no stack is large enough for a statement that closes a cycle. Both are proved for every schema and database."
  },
  {
   "property": "C72",
   "status": "proved",
   "theorems": [
    "nested_triggers_end"
   ],
   "note": "The functions of the application must not raise these exceptions themselves."
  },
  {
   "property": "C73",
   "status": "partial",
   "theorems": [
    "chained_exact",
    "sum_of_counts",
    "chained_self_refuted"
   ],
   "note": "Proved when no chain of trigger updates leads from a table back to itself. Refuted as stated: with a relation of a model to itself SQLite does not fire the trigger recursively and the outer aggregate goes stale."
  },
  {
   "property": "C74",
   "status": "partial",
   "theorems": [
    "cached_not_called_again",
    "falsy_called_again_refuted",
    "called_twice_refuted"
   ],
   "note": "Proved for truthy values already stored in the cache. Refuted as stated: a falsy value is recomputed by every read, and two readers that both miss the cache both call the function."
  },
  {
   "property": "C75",
   "status": "partial",
   "theorems": [
    "refresh_uninterrupted",
    "refreshed_value_refuted"
   ],
   "note": "Proved for a refresh that nothing interrupts. Refuted as stated: refresh_from_db() assigns the value through the descriptor, which takes it for a key, so that the attribute of this row and of other rows shows a wrong value later."
  },
  {
   "property": "C76",
   "status": "proved",
   "theorems": [
    "marked_for_a_reason",
    "marks_follow_dependencies"
   ],
   "note": ""
  },
  {
   "property": "C77",
   "status": "partial",
   "theorems": [
    "failed_install_rolled_back",
    "failed_drop_rolled_back",
    "success_on_any_database",
    "install_only_adds",
    "install_other_database_refuted",
    "drop_other_database_refuted",
    "install_partial_mysql_refuted"
   ],
   "note": "Proved for SQLite and PostgreSQL on the default database. Refuted as stated: transaction.atomic() is called without the alias, so that with --database of another database every statement is committed by itself; on MySQL always."
  },
  {
   "property": "C78",
   "status": "proved",
   "theorems": [
    "flush_passes_bounded",
    "any_cursor_passes_bounded"
   ],
   "note": "Any order and any cursor: R + M + 3 rounds of the loop, counting the one that finds nothing; flush_passes_tight shows a case that needs them all."
  },
  {
   "property": "C79",
   "status": "partial",
   "theorems": [
    "stale_marker_blocks",
    "stale_marker_first",
    "removed_model_refuted"
   ],
   "note": "Refuted as stated: content_object raises AttributeError, every flush raises and keeps the marker; rows processed after it are never refreshed."
  },
  {
   "property": "C80",
   "status": "partial",
   "theorems": [
    "deleted_during_flush_refuted",
    "deleted_stays_deleted"
   ],
   "note": "Refuted as stated: a run that has read the row before the deletion inserts it again when it saves it; rows that no run has read stay deleted."
  },
  {
   "property": "C81",
   "status": "partial",
   "theorems": [
    "flush_command_flushes",
    "rebuild_command_rebuilds_all",
    "init_command_installs",
    "drop_command_drops",
    "database_option_accepted",
    "other_commands_change_nothing",
    "words_rejected",
    "rebuild_of_one_model_refuted",
    "rebuild_of_one_model_called",
    "daemon_words_rejected",
    "daemon_interval_word_refuted"
   ],
   "note": "Refuted as stated: denorm_rebuild declares no arguments, so argparse rejects every line that names a model, and so does denorm_daemon with the interval that the tutorial writes; everything else holds."
  },
  {
   "property": "C82",
   "status": "partial",
   "theorems": [
    "flush_older_django",
    "flush_newer_django",
    "middleware_newer_django",
    "rebuilds_newer_django",
    "rebuild_newer_django_refuted"
   ],
   "note": "Refuted as stated: since Django 2.1 the missing DISTINCT ON raises NotSupportedError, which flush() does not catch: on SQLite and MySQL every flush raises and does nothing, and the middleware hides it."
  },
  {
   "property": "C83",
   "status": "partial",
   "theorems": [
    "update_fields_is_update",
    "update_fields_ignores_others",
    "update_fields_needs_names_and_row",
    "any_save_then_flush",
    "update_fields_moves_aggregate",
    "update_fields_as_save",
    "value_computed_by_every_save_refuted",
    "bulk_unsafe_update_fields_refuted",
    "cache_key_set_by_every_save_refuted"
   ],
   "note": "Refuted as stated: computed columns and cache keys are written only if they are named; a flush repairs the former, but not with DENORM_BULK_UNSAFE_TRIGGERS."
  },
  {
   "property": "C84",
   "status": "partial",
   "theorems": [
    "loaded_aggregate",
    "load_without_triggers",
    "load_without_triggers_exact",
    "loaddata_keeps_aggregates_refuted"
   ],
   "note": "Refuted as stated: a loaded row has the value of the fixture plus what is loaded after it, so objects are counted twice where the triggers are installed; loading before denorm_init is right."
  },
  {
   "property": "C85",
   "status": "partial",
   "theorems": [
    "objects_everywhere",
    "rebuild_without_objects",
    "save_without_objects",
    "flush_without_objects"
   ],
   "note": "Refuted as stated: rebuildall() raises AttributeError at the first model without objects, and rows of such a model with an aggregate can not be saved again, so that flush() stops at their markers."
  },
  {
   "property": "C86",
   "status": "partial",
   "theorems": [
    "save_is_steps",
    "concurrent_saves_then_flush",
    "concurrent_saves_keep_aggregates",
    "concurrent_save_error",
    "concurrent_save_keeps_count_refuted"
   ],
   "note": "Refuted as stated: a row that starts or ceases to count between the SELECT and the UPDATE of a save is lost from the aggregate for good; the error is proved to be exactly that, and aggregates to be exact otherwise. Callback fields are right after the next flush."
  },
  {
   "property": "C87",
   "status": "partial",
   "theorems": [
    "daemon_loses_nothing",
    "failed_round_changes_nothing",
    "raising_row_stops_daemon",
    "daemon_updates_rows_refuted",
    "snapshot_body_same",
    "snapshot_flush_loses_nothing_refuted"
   ],
   "note": "Refuted as stated: one marked row whose function raises makes every round roll back, so nothing is ever refreshed; and under REPEATABLE READ a change committed after the snapshot can be lost. Proved: between the rounds every row is right or marked, and completed rounds leave everything right."
  },
  {
   "property": "C88",
   "status": "partial",
   "theorems": [
    "bulk_batch_is_insert",
    "bulk_batch_outcome",
    "bulk_create_then_flush",
    "bulk_create_keeps_aggregates",
    "created_row_is_fresh_refuted",
    "bulk_unsafe_bulk_create_refuted",
    "bulk_unsafe_bulk_create_postgres",
    "bulk_unsafe_bulk_create_other_rows",
    "preset_key_bulk_create",
    "bulk_create_refuses_children"
   ],
   "note": "Refuted as stated: a row that refers to a row of the same batch gets its value before that row is stored: wrong until the next flush, and for good with DENORM_BULK_UNSAFE_TRIGGERS on SQLite and MySQL. Aggregates are proved exact at once, callback fields right after a flush with the default setting, and with the other one on PostgreSQL or if the functions depend on no rows of their own table."
  },
  {
   "property": "C89",
   "status": "partial",
   "theorems": [
    "denorm_fields_not_editable",
    "copy_field_never_declared",
    "copy_field_usable_refuted",
    "cached_function_needs_dependencies",
    "cached_any_function_refuted"
   ],
   "note": "Refuted as stated: CopyField raises TypeError whatever its arguments, and @cached raises AttributeError for a function without depend_on_related. The fixed attributes are proved for all declarations."
  },
  {
   "property": "C90",
   "status": "partial",
   "theorems": [
    "requests_lose_nothing",
    "request_leaves_all_right",
    "middleware_request_right_refuted",
    "request_answer",
    "raising_row_spoils_requests"
   ],
   "note": "Refuted as stated: what is written after process_response waits for the next request, and a marked row whose function raises turns the responses of all later requests into errors. Proved: every row is right or marked after any requests, right after the middleware if it logged and raised nothing, and right at the end with the setting."
  },
  {
   "property": "C91",
   "status": "partial",
   "theorems": [
    "drop_init_session",
    "upgrade_repairs",
    "init_needs_drop",
    "init_updates_triggers_refuted",
    "init_leaves_dangling_refuted",
    "upgrade_counts_rows_refuted"
   ],
   "note": "Refuted as stated: denorm_init drops nothing: if a name is taken it raises and the old triggers go on, otherwise triggers of removed declarations keep firing; a new CountField is never filled. Proved: after denorm_drop and denorm_init exactly the present triggers fire, and denorm_rebuild then repairs every callback field."
  },
  {
   "property": "C92",
   "status": "partial",
   "theorems": [
    "plain_class_save",
    "proxy_save",
    "proxy_save_without_links",
    "any_class_then_flush",
    "class_save_moves_aggregate",
    "class_save_keeps_aggregates",
    "child_with_aggregate_raises",
    "child_save_refuted",
    "subclass_save_sets_links_refuted",
    "subclass_value_kept_refuted"
   ],
   "note": "Refuted as stated: the links of the parent's denormalized ManyToManyField are not set by saves of subclasses and proxies, save() of a new child with an aggregate of its own raises IndexError, and flush replaces values computed by overridden methods. Proved: callback columns are right or marked whatever the class, and aggregates stay exact."
  },
  {
   "property": "C93",
   "status": "proved",
   "theorems": [
    "flush_writer_between_safe",
    "atomic_bodies_safe",
    "apart_runs_safe"
   ],
   "note": "What holds of C25 and C26."
  },
  {
   "property": "C94",
   "status": "proved",
   "theorems": [
    "flush_keeps_user_data",
    "rebuild_keeps_user_data",
    "flush_keeps_aggregates",
    "rebuild_keeps_aggregates"
   ],
   "note": "What holds of C18 and C20."
  },
  {
   "property": "C95",
   "status": "proved",
   "theorems": [
    "flushes_keep_user_data",
    "deleted_stays_deleted"
   ],
   "note": "What holds of C27 and C80."
  },
  {
   "property": "C96",
   "status": "proved",
   "theorems": [
    "save_is_steps",
    "concurrent_saves_then_flush"
   ],
   "note": "What holds of C86 for callback fields."
  },
  {
   "property": "C97",
   "status": "proved",
   "theorems": [
    "concurrent_saves_keep_aggregates",
    "concurrent_save_error"
   ],
   "note": "What holds of C86 for aggregates."
  },
  {
   "property": "C98",
   "status": "proved",
   "theorems": [
    "update_fields_is_update",
    "update_fields_ignores_others",
    "update_fields_needs_names_and_row",
    "any_save_then_flush",
    "update_fields_moves_aggregate",
    "update_fields_as_save"
   ],
   "note": "What holds of C83."
  },
  {
   "property": "C99",
   "status": "proved",
   "theorems": [
    "bulk_batch_is_insert",
    "bulk_create_then_flush",
    "bulk_create_keeps_aggregates"
   ],
   "note": "What holds of C88."
  },
  {
   "property": "C100",
   "status": "proved",
   "theorems": [
    "requests_lose_nothing",
    "request_leaves_all_right"
   ],
   "note": "What holds of C90."
  },
  {
   "property": "C101",
   "status": "proved",
   "theorems": [
    "daemon_loses_nothing",
    "failed_round_changes_nothing",
    "daemon_rounds",
    "daemon_last_round"
   ],
   "note": "What holds of C87 and C41."
  },
  {
   "property": "C102",
   "status": "proved",
   "theorems": [
    "drop_removes_ours",
    "drop_then_install",
    "drop_install_history",
    "short_names_distinct",
    "drop_init_session",
    "upgrade_repairs"
   ],
   "note": "What holds of C32 and C91."
  },
  {
   "property": "C103",
   "status": "proved",
   "theorems": [
    "failed_install_rolled_back",
    "failed_drop_rolled_back",
    "success_on_any_database",
    "install_only_adds"
   ],
   "note": "What holds of C77."
  },
  {
   "property": "C104",
   "status": "proved",
   "theorems": [
    "selected_exactly",
    "drop_keeps_others"
   ],
   "note": "What holds of C33."
  },
  {
   "property": "C105",
   "status": "proved",
   "theorems": [
    "plain_class_save",
    "proxy_save",
    "proxy_save_without_links",
    "any_class_then_flush",
    "class_save_moves_aggregate",
    "class_save_keeps_aggregates"
   ],
   "note": "What holds of C92."
  },
  {
   "property": "C106",
   "status": "proved",
   "theorems": [
    "chained_exact",
    "sum_of_counts"
   ],
   "note": "What holds of C73."
  },
  {
   "property": "C107",
   "status": "proved",
   "theorems": [
    "resolves_iff_unique",
    "no_relation_iff",
    "resolving_again_same"
   ],
   "note": "What holds of C29."
  },
  {
   "property": "C108",
   "status": "proved",
   "theorems": [
    "forward_change_redraws",
    "backward_change_redraws",
    "generic_change_redraws",
    "link_change_redraws",
    "far_change_redraws",
    "unrelated_change_keeps_key"
   ],
   "note": "What holds of C35."
  },
  {
   "property": "C109",
   "status": "proved",
   "theorems": [
    "m2m_links_exact",
    "m2m_new_row_links"
   ],
   "note": "What holds of C39."
  },
  {
   "property": "C110",
   "status": "proved",
   "theorems": [
    "deferred_count_exact"
   ],
   "note": "What holds of C54."
  },
  {
   "property": "C111",
   "status": "proved",
   "theorems": [
    "load_without_triggers",
    "load_without_triggers_exact",
    "loaded_aggregate"
   ],
   "note": "What holds of C84."
  },
  {
   "property": "C112",
   "status": "proved",
   "theorems": [
    "flush_raise_loses_nothing"
   ],
   "note": "What holds of C58."
  },
  {
   "property": "C113",
   "status": "proved",
   "theorems": [
    "repeated_rebuild_repairs",
    "save_sees_earlier_fields_only"
   ],
   "note": "What holds of C03."
  },
  {
   "property": "C114",
   "status": "proved",
   "theorems": [
    "update_trigger_fires_iff",
    "first_declaration_decides"
   ],
   "note": "What holds of C11 and C53."
  },
  {
   "property": "C115",
   "status": "proved",
   "theorems": [
    "cached_rows_apart",
    "cached_not_called_again"
   ],
   "note": "What holds of C38 and C74."
  },
  {
   "property": "C116",
   "status": "proved",
   "theorems": [
    "default_as_single",
    "one_database_changes",
    "other_database_marked"
   ],
   "note": "What holds of C68."
  },
  {
   "property": "C117",
   "status": "proved",
   "theorems": [
    "build_raises_iff",
    "build_is_gen",
    "triggers_install",
    "key_managers_count"
   ],
   "note": "What holds of C65, C66 and C67."
  },
  {
   "property": "C118",
   "status": "proved",
   "theorems": [
    "migration_same_column",
    "migration_no_callback",
    "historical_usable"
   ],
   "note": "What holds of C69."
  },
  {
   "property": "C119",
   "status": "partial",
   "theorems": [
    "saved_instance_shows_row_refuted",
    "saved_instance_is_row"
   ],
   "note": "Refuted as stated: the triggers of the statement that stores the row run after pre_save, so a row that counts itself shows the old count, and a row whose cache key depends on itself shows a key that has been replaced. Proved: the instance is the row when trigger updates are acyclic."
  },
  {
   "property": "C120",
   "status": "proved",
   "theorems": [
    "saved_instance_shows_columns",
    "saved_instance_shows_aggregates",
    "saved_instance_is_row"
   ],
   "note": "What holds of C119."
  },
  {
   "property": "C121",
   "status": "proved",
   "theorems": [
    "test_app_flush",
    "test_app_post_count",
    "test_app_filtered"
   ],
   "note": "The general theorems at the project's own models. Beside them tests.py itself is run in the model: every test passes on every backend (project_tests_pass). The callback of the denormalized ManyToManyField Forum.authors, CallCounter and its proxy are run by the tests but are outside the theorem."
  },
  {
   "property": "C122",
   "status": "partial",
   "theorems": [
    "dependency_above_refuted",
    "shared_function_refuted",
    "cached_without_dependency_refuted",
    "decorated_registers_below"
   ],
   "note": "Refuted as stated: a decorator above @denormalized or @cached sets an attribute of the field that nobody reads; a function used for two denormalized fields gives the first the dependencies of the second; @cached needs a dependency. Proved: functions decorated in one place register what is below."
  },
  {
   "property": "C123",
   "status": "proved",
   "theorems": [
    "decorated_registers_below",
    "decorated_accepted",
    "denormalized_registers_all",
    "cached_registers_before"
   ],
   "note": "What holds of C122. The last two give the registered dependencies for any class body."
  },
  {
   "property": "C124",
   "status": "proved",
   "theorems": [
    "migrations_agree",
    "south_0002_keeps",
    "migrated_table_appends"
   ],
   "note": ""
  },
  {
   "property": "C125",
   "status": "partial",
   "theorems": [
    "south_0002_undo_refuted",
    "unique_loses_markers_refuted",
    "south_0002_undone",
    "postgres_statement_lost",
    "unique_same_markers"
   ],
   "note": "Refuted as stated: a marker that is there twice stops the way back; on Postgres the block that catches unique_violation drops all rows of a statement if one of them is marked already. Proved: exactly when either happens, and that SQLite and MySQL mark the same rows."
  },
  {
   "property": "C126",
   "status": "partial",
   "theorems": [
    "m2m_count_refuted",
    "m2m_count_formula",
    "m2m_count_older",
    "m2m_mysql_no_links",
    "m2m_mysql_link_raises"
   ],
   "note": "Refuted as stated: the triggers on the table of links look for the key of the linked row in the aggregate's own table, so that other links are not counted and may become impossible to remove; on MySQL no rows can be linked. Proved: exactly which links are counted, and that all are if related.model is the declaring model, as before Django 1.8."
  },
  {
   "property": "C127",
   "status": "partial",
   "theorems": [
    "m2m_sum_refuted",
    "m2m_sum_stays_zero",
    "m2m_sum_update_raises"
   ],
   "note": "Refuted as stated: the triggers on the table of links add a value of the aggregate's own column: sums stay 0 until a linked row is updated, and lowering a value raises an IntegrityError."
  },
  {
   "property": "C128",
   "status": "proved",
   "theorems": [
    "m2m_install_iff",
    "m2m_install_raises"
   ],
   "note": ""
  },
  {
   "property": "C129",
   "status": "partial",
   "theorems": [
    "text_ids_refuted",
    "text_ids_pg_raise",
    "text_ids_redraw",
    "text_ids_select"
   ],
   "note": "Refuted as stated: on PostgreSQL the trigger compares an integer with a text, so that related rows can not be inserted, deleted or changed. Proved for SQLite and MySQL (ids in the notation that Django writes)."
  },
  {
   "property": "C130",
   "status": "proved",
   "theorems": [
    "types_agree"
   ],
   "note": "Single statements; saves are made of them."
  },
  {
   "property": "C131",
   "status": "partial",
   "theorems": [
    "dec_sum_refuted",
    "dec_sum_lost",
    "dec_sum_sqlite_refuted",
    "dec_sum_mysql_refuted",
    "dec_sum_limit_refuted"
   ],
   "note": "Refuted as stated: every change of a row worth x.5 raises the sum by 1, values below one half are lost; on SQLite a save of the parent cuts the fraction off, on MySQL a row worth 0.4 can not be deleted; a sum close to the limit keeps values from being changed since the increment comes first."
  },
  {
   "property": "C132",
   "status": "proved",
   "theorems": [
    "dec_sum_formula",
    "dec_sum_close",
    "dec_sum_sqlite",
    "dec_sum_whole",
    "dec_sum_no_check"
   ],
   "note": "Two tables, one row per statement; arithmetic of SQLite taken as exact."
  },
  {
   "property": "C133",
   "status": "partial",
   "theorems": [
    "span_other_raises",
    "span_parent_refuted"
   ],
   "note": "Refuted as stated: a lookup on a third table makes every write of the counted model raise; one on the aggregate's own model goes stale and can keep rows from being deleted."
  },
  {
   "property": "C134",
   "status": "proved",
   "theorems": [
    "span_count",
    "span_count_own",
    "span_writes"
   ],
   "note": "Three tables, one row per statement."
  },
  {
   "property": "C135",
   "status": "partial",
   "theorems": [
    "renumbered_refuted",
    "upgrade_repairs"
   ],
   "note": "Refuted as stated: the triggers hold the numbers of the day they were installed, so a marker is taken for one of a row of another model. denorm_drop, denorm_init and denorm_rebuild repair it."
  },
  {
   "property": "C136",
   "status": "partial",
   "theorems": [
    "plain_finish",
    "crossing_refuted",
    "moving_refuted",
    "mysql_insert_refuted"
   ],
   "note": "Refuted as stated: two transactions that write posts of two forums in another order deadlock, as do two UPDATEs that move posts in opposite directions, and on MySQL two INSERTs for the same forum. Proved: without the triggers all commit."
  },
  {
   "property": "C137",
   "status": "proved",
   "theorems": [
    "ordered_pg",
    "ordered_mysql",
    "ordered_unmoved",
    "sqlite_finish"
   ],
   "note": "Row locks only; the condition that no row of the counted model is written by two transactions is that of C136."
  },
  {
   "property": "C138",
   "status": "partial",
   "theorems": [
    "restored_refuted",
    "restored_recovers",
    "exhausted_refuted",
    "exhausted_mysql_refuted"
   ],
   "note": "Refuted as stated: on PostgreSQL the clash of ids is caught and the markers are lost silently; when the 32 bits of the id are used up every write of a tracked row raises, on MySQL the markers are lost silently."
  },
  {
   "property": "C139",
   "status": "proved",
   "theorems": [
    "ids_mark",
    "ids_enough",
    "never_silent",
    "reset_repairs"
   ],
   "note": "The table of markers alone."
  },
  {
   "property": "C140",
   "status": "partial",
   "theorems": [
    "asleep_refuted",
    "asleep_with_locks"
   ],
   "note": "Refuted as stated: the daemon commits after it has slept, so the rows of a round stay locked for the whole interval, on SQLite the whole database."
  },
  {
   "property": "C141",
   "status": "proved",
   "theorems": [
    "daemon_wait",
    "wait_bounded",
    "daemon_awake",
    "daemon_ends_free"
   ],
   "note": "Flush and commit take no time in the model."
  },
  {
   "property": "C142",
   "status": "partial",
   "theorems": [
    "raw_truncate_refuted",
    "raw_replace_refuted"
   ],
   "note": "Refuted as stated: TRUNCATE fires no triggers on PostgreSQL and MySQL, REPLACE no DELETE trigger on SQLite."
  },
  {
   "property": "C143",
   "status": "proved",
   "theorems": [
    "raw_noticed",
    "raw_drift",
    "raw_rebuild",
    "raw_rows",
    "raw_raises",
    "raw_parents"
   ],
   "note": "Two models, one count and one callback field."
  },
  {
   "property": "C144",
   "status": "proved",
   "theorems": [
    "insert_writes",
    "update_writes",
    "delete_writes",
    "plain_table_writes"
   ],
   "note": ""
  },
  {
   "property": "C145",
   "status": "proved",
   "theorems": [
    "save_draws_key",
    "save_fields_draws_key",
    "saved_key_is_new"
   ],
   "note": ""
  },
  {
   "property": "C146",
   "status": "proved",
   "theorems": [
    "keys_stay_apart",
    "different_rows_different_keys",
    "inserted_keys_apart_refuted"
   ],
   "note": "The refuted witness shows why rows must be created by save(): rows inserted otherwise share the default."
  },
  {
   "property": "C147",
   "status": "proved",
   "theorems": [
    "flush_draws_marked_keys",
    "rebuild_draws_keys"
   ],
   "note": ""
  },
  {
   "property": "C148",
   "status": "proved",
   "theorems": [
    "key_belongs_to_row",
    "given_up_key_is_gone"
   ],
   "note": ""
  },
  {
   "property": "C149",
   "status": "proved",
   "theorems": [
    "cached_shows_own_value",
    "cached_shows_current_value",
    "cached_current_refuted"
   ],
   "note": "The refuted witness shows the last part of the statement: an UPDATE of the row itself keeps its key until the flush."
  },
  {
   "property": "C150",
   "status": "proved",
   "theorems": [
    "cached_current_after_statements"
   ],
   "note": "What the function returns must have changed only together with the key before, too; on SQLite without cycles of maintained tables."
  },
  {
   "property": "C151",
   "status": "proved",
   "theorems": [
    "cached_current_after_save",
    "cached_current_after_flush",
    "cached_current_after_rebuild"
   ],
   "note": "Assumes of what a save itself stores in the cache that it is what the function returns for the stored row (C37 shows the race in which it is not)."
  }
 ]
}