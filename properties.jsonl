{"id": "C01", "title": "flush() leaves no dirty marker behind", "statement": "Whenever denorm.flush() returns normally, the DirtyInstance table is empty; this includes markers with a NULL object id and markers of rows that no longer exist.", "quantifier": "every schema, every database content, every iteration order of the marker query, every backend", "why_tests_cant": "a test runs flush on a handful of hand-made marker tables and one iteration order", "anchors": [{"file": "denorm/denorms.py", "symbols": ["flush"]}, {"file": "denorm/models.py", "symbols": ["DirtyInstance"]}]}
{"id": "C02", "title": "flush() returns only when every callback field is correct", "statement": "If the triggers are installed, the dependencies are declared, and the callbacks of a row read of that very row only ordinary columns and denormalized columns declared earlier, then after any history of creates, saves, bulk updates, raw inserts, deletes and m2m changes, in any processing order of the markers, once no marker is left every @denormalized column of every row equals what its function returns on the current database.", "quantifier": "every schema meeting the stated conditions, every history of operations, every marker processing order, all three backends", "why_tests_cant": "it quantifies over all histories and all schemas; tests only replay a few scripted sequences", "anchors": [{"file": "denorm/denorms.py", "symbols": ["flush", "CallbackDenorm.get_triggers", "build_triggerset"]}, {"file": "denorm/dependencies.py", "symbols": ["CallbackDependOnRelated.get_triggers"]}, {"file": "denorm/fields.py", "symbols": ["DenormDBField.pre_save"]}]}
{"id": "C03", "title": "flush() consistency fails for out-of-order fields and self-related rows", "statement": "The docstring promise of flush (\"all denormalized fields have consistent data\") without side conditions: after flush every denormalized field is consistent even if a function reads a denormalized field of the same row that is declared later, or a row related to itself.", "quantifier": "every schema and database", "why_tests_cant": "the failing configuration must be found among all schemas; the test models avoid it", "anchors": [{"file": "denorm/denorms.py", "symbols": ["flush"]}, {"file": "denorm/fields.py", "symbols": ["DenormDBField.pre_save"]}]}
{"id": "C04", "title": "A written row is marked dirty however it was written", "statement": "Whenever a statement (ORM save, QuerySet.update, raw SQL, bulk insert) inserts a row of a model with an @denormalized field, or changes one of its tracked columns, a dirty marker for exactly that row exists when the statement ends.", "quantifier": "every schema, every statement, every database state, every backend", "why_tests_cant": "all statements and all states cannot be enumerated", "anchors": [{"file": "denorm/denorms.py", "symbols": ["CallbackDenorm.get_triggers"]}, {"file": "denorm/db/base.py", "symbols": ["Trigger"]}]}
{"id": "C05", "title": "Forward dependency: a change of the referenced row marks every row pointing at it", "statement": "With @depend_on_related resolved to a forward ForeignKey, any statement that changes a tracked column of the referenced row, inserts it or deletes it leaves a marker for every row whose key points at it.", "quantifier": "every statement on every table, any number of referring rows, every backend, firing per row or at end of statement", "why_tests_cant": "unbounded number of referring rows and statements", "anchors": [{"file": "denorm/dependencies.py", "symbols": ["CallbackDependOnRelated.get_triggers"]}]}
{"id": "C06", "title": "Backward dependency: both the old and the new parent are marked", "statement": "With a backward ForeignKey dependency, inserting, deleting, changing or re-parenting a child marks the parent it points at before and the one it points at after the statement.", "quantifier": "every statement, every database state, every backend", "why_tests_cant": "as above; the two-parent case must hold for every pair", "anchors": [{"file": "denorm/dependencies.py", "symbols": ["CallbackDependOnRelated.get_triggers"]}]}
{"id": "C07", "title": "Many-to-many dependency: link changes and far-side changes mark the near row", "statement": "With an m2m dependency in either direction, adding, removing or redirecting a link row and changing a tracked column of a linked row each leave a marker for the near row.", "quantifier": "every statement and state, both directions, every backend", "why_tests_cant": "unbounded numbers of links and rows", "anchors": [{"file": "denorm/dependencies.py", "symbols": ["CallbackDependOnRelated.get_triggers"]}]}
{"id": "C08", "title": "Generic relation dependency: changes to generically related rows mark the right owner", "statement": "With a GenericRelation dependency, inserting, deleting, changing or re-targeting a generically related row marks the owner before and after; on SQLite and PostgreSQL rows whose content type is another model neither before nor after are not marked.", "quantifier": "every statement and state, every backend", "why_tests_cant": "unbounded states; backend-specific conditions", "anchors": [{"file": "denorm/dependencies.py", "symbols": ["CallbackDependOnRelated.get_triggers"]}, {"file": "denorm/db/sqlite3/triggers.py", "symbols": ["Trigger.sql"]}, {"file": "denorm/db/postgresql/triggers.py", "symbols": ["Trigger.sql"]}, {"file": "denorm/db/mysql/triggers.py", "symbols": ["Trigger.sql"]}]}
{"id": "C09", "title": "A write that changes no tracked column is silent", "statement": "An UPDATE that changes only skipped columns, or nothing, creates no dirty marker, changes no cache key and changes no aggregate.", "quantifier": "every schema without generic relations whose skip lists do not name the primary key, every row, every backend", "why_tests_cant": "needs every column subset and every row content", "anchors": [{"file": "denorm/db/base.py", "symbols": ["Trigger"]}, {"file": "denorm/db/sqlite3/triggers.py", "symbols": ["Trigger.sql"]}, {"file": "denorm/db/postgresql/triggers.py", "symbols": ["Trigger.sql"]}, {"file": "denorm/db/mysql/triggers.py", "symbols": ["Trigger.sql"]}]}
{"id": "C10", "title": "denorm_always_skip is always honoured", "statement": "A column listed in denorm_always_skip of a model never makes its rows dirty, also when the field declares its own skip list.", "quantifier": "every model declaration", "why_tests_cant": "needs the combination of both options, for every declaration", "anchors": [{"file": "denorm/db/base.py", "symbols": ["Trigger.__init__"]}]}
{"id": "C11", "title": "The skip list of one field does not affect other fields", "statement": "skip= on one denormalized field never suppresses markers another field relies on, even when both watch the same table.", "quantifier": "every pair of declarations on the same table", "why_tests_cant": "the merge order of all pairs of declarations", "anchors": [{"file": "denorm/db/base.py", "symbols": ["TriggerSet.append", "Trigger.append"]}, {"file": "denorm/denorms.py", "symbols": ["build_triggerset"]}]}
{"id": "C12", "title": "CountField equals the number of related rows at all times", "statement": "After every statement of every history, without any flush, a CountField over a ForeignKey equals the number of rows that point at the row and satisfy filter/exclude.", "quantifier": "every history of inserts, updates (including re-parenting and filter-flipping), deletes, bulk statements, flushes; every backend", "why_tests_cant": "an invariant over unbounded histories", "anchors": [{"file": "denorm/denorms.py", "symbols": ["CountDenorm", "AggregateDenorm.get_triggers"]}, {"file": "denorm/fields.py", "symbols": ["AggregateField.pre_save"]}]}
{"id": "C13", "title": "SumField equals the sum over related rows at all times", "statement": "As C12 for SumField: it equals the sum of the summed column over the related rows satisfying filter/exclude.", "quantifier": "every history, every backend with filter support", "why_tests_cant": "an invariant over unbounded histories", "anchors": [{"file": "denorm/denorms.py", "symbols": ["SumDenorm", "AggregateDenorm.get_triggers"]}]}
{"id": "C14", "title": "Saving a stale instance never overwrites an aggregate", "statement": "Saving an in-memory instance with any stale CountField/SumField value keeps the stored aggregate and refreshes the in-memory value to it.", "quantifier": "every instance content, every database state", "why_tests_cant": "all stale values and all states", "anchors": [{"file": "denorm/fields.py", "symbols": ["AggregateField.pre_save"]}]}
{"id": "C15", "title": "Aggregate triggers never violate the non-negative check", "statement": "While the aggregate is exact, no trigger action of any statement drives the column below zero, not even between increment and decrement.", "quantifier": "every statement, every exact state", "why_tests_cant": "intermediate states are invisible to tests", "anchors": [{"file": "denorm/denorms.py", "symbols": ["AggregateDenorm.get_triggers"]}]}
{"id": "C16", "title": "A new row with a preset primary key can be saved", "statement": "Calling save() on a new instance whose primary key was set by the user stores the row (with aggregate 0).", "quantifier": "every model with an aggregate field, every key", "why_tests_cant": "exists for one input pattern only", "anchors": [{"file": "denorm/fields.py", "symbols": ["AggregateField.pre_save"]}]}
{"id": "C17", "title": "rebuildall() repairs every callback field from any state", "statement": "After rebuildall() returns, every callback field of every row is correct no matter what the database held before, even if markers or triggers had been lost earlier.", "quantifier": "every database state (not only reachable ones), every schema meeting the conditions of C02", "why_tests_cant": "every corrupted state", "anchors": [{"file": "denorm/denorms.py", "symbols": ["rebuildall", "flush"]}]}
{"id": "C18", "title": "rebuildall() recalculates every denormalized field (aggregates too)", "statement": "The help text of denorm_rebuild: the value of every single denormalized field, including CountField and SumField, is recalculated.", "quantifier": "every database state", "why_tests_cant": "requires a state in which the aggregate is wrong", "anchors": [{"file": "denorm/denorms.py", "symbols": ["rebuildall"]}, {"file": "denorm/fields.py", "symbols": ["AggregateField.pre_save"]}, {"file": "denorm/management/commands/denorm_rebuild.py", "symbols": ["Command.handle"]}]}
{"id": "C19", "title": "rebuildall() marks exactly the selected models", "statement": "rebuildall(model_name, field_name) marks exactly the visible rows of the models that own a non-m2m denormalized field matching app label, model name or app.model and the field name, and no others.", "quantifier": "every schema and every name argument", "why_tests_cant": "all name collisions", "anchors": [{"file": "denorm/denorms.py", "symbols": ["rebuildall", "get_alldenorms"]}]}
{"id": "C20", "title": "flush() never touches user data", "statement": "flush() changes only denormalized, cache-key and auto_now columns and denormalized m2m links: ordinary columns, the set of rows and aggregates stay as they are.", "quantifier": "every schema, every state, every marker content, also when flush fails half way", "why_tests_cant": "frame condition over all states", "anchors": [{"file": "denorm/denorms.py", "symbols": ["flush"]}, {"file": "denorm/fields.py", "symbols": ["DenormDBField.pre_save", "AggregateField.pre_save", "CacheKeyField.pre_save"]}]}
{"id": "C21", "title": "flush() terminates on acyclic dependencies", "statement": "If callbacks do not raise and the value dependencies between cells are acyclic and rows rewritten by every save do not mark each other in a cycle, flush() terminates.", "quantifier": "every acyclic schema and database, every order", "why_tests_cant": "termination is not testable", "anchors": [{"file": "denorm/denorms.py", "symbols": ["flush"]}]}
{"id": "C22", "title": "flush() may diverge on cyclic dependencies", "statement": "flush() always terminates, for every declared dependency structure.", "quantifier": "every schema", "why_tests_cant": "non-termination cannot be observed by a test", "anchors": [{"file": "denorm/denorms.py", "symbols": ["flush"]}]}
{"id": "C23", "title": "The result of flush() does not depend on the processing order", "statement": "For acyclic value dependencies the final values of all callback fields are the same whatever order the markers are processed in and whichever backend duplicates markers.", "quantifier": "all pairs of processing orders", "why_tests_cant": "all permutations of unbounded marker lists", "anchors": [{"file": "denorm/denorms.py", "symbols": ["flush"]}]}
{"id": "C24", "title": "flush() is crash safe", "statement": "If flush() (or rebuildall after its marking phase) is killed or raises at any point, every inconsistent row still has a marker, so running flush() again completes the work.", "quantifier": "every crash point of every run", "why_tests_cant": "all crash points of all runs", "anchors": [{"file": "denorm/denorms.py", "symbols": ["flush"]}]}
{"id": "C25", "title": "Writers running during flush() are not lost", "statement": "If another session changes a dependency of a row while flush() is processing that row, the row is correct or marked once both are done.", "quantifier": "every interleaving of writer statements with flush steps", "why_tests_cant": "all schedules", "anchors": [{"file": "denorm/denorms.py", "symbols": ["flush"]}]}
{"id": "C26", "title": "Two concurrent flush() calls are safe", "statement": "Two flush() calls running concurrently leave every row correct or marked, without any writer.", "quantifier": "every interleaving of two flush runs", "why_tests_cant": "all schedules", "anchors": [{"file": "denorm/denorms.py", "symbols": ["flush"]}, {"file": "denorm/middleware.py", "symbols": ["DenormMiddleware"]}]}
{"id": "C27", "title": "flush() does not overwrite concurrent user updates", "statement": "An ordinary column updated by another session while flush() runs keeps the value the user wrote.", "quantifier": "every interleaving", "why_tests_cant": "all schedules", "anchors": [{"file": "denorm/denorms.py", "symbols": ["flush"]}]}
{"id": "C28", "title": "The middleware always returns the response", "statement": "DenormMiddleware.process_response returns the response object it was given whenever flush succeeds or fails with a DatabaseError; other exceptions propagate unchanged, and the database is left as flush left it.", "quantifier": "every response, every outcome of flush", "why_tests_cant": "all outcomes", "anchors": [{"file": "denorm/middleware.py", "symbols": ["DenormMiddleware.process_response"]}]}
{"id": "C29", "title": "depend_on_related resolves uniquely or raises", "statement": "Resolving a dependency returns a relation iff exactly one ForeignKey, ManyToManyField or GenericRelation between the two models matches the given name and type; otherwise ValueError. Resolving again gives the same answer.", "quantifier": "every pair of models, every set of relations, every foreign_key/type argument", "why_tests_cant": "all model graphs", "anchors": [{"file": "denorm/dependencies.py", "symbols": ["DependOnRelated.resolved_model", "DependOnRelated.setup"]}, {"file": "denorm/helpers.py", "symbols": ["find_fks", "find_m2ms"]}]}
{"id": "C30", "title": "One trigger per table and event, with every requested action exactly once", "statement": "build_triggerset yields at most one trigger per table, event and (if generic) content type; it contains each action requested by any denormalization exactly once and no other; registering a denormalization twice (multi-table inheritance) changes nothing.", "quantifier": "every list of denormalizations, every order", "why_tests_cant": "all lists", "anchors": [{"file": "denorm/db/base.py", "symbols": ["TriggerSet.append", "Trigger.append"]}, {"file": "denorm/db/sqlite3/triggers.py", "symbols": ["Trigger.sql"]}, {"file": "denorm/denorms.py", "symbols": ["build_triggerset", "get_alldenorms"]}]}
{"id": "C31", "title": "Trigger names never collide", "statement": "Triggers of different tables, events or content types have different names, so no action is attached to the wrong table.", "quantifier": "every pair of table names and content types", "why_tests_cant": "all name pairs", "anchors": [{"file": "denorm/db/base.py", "symbols": ["Trigger.name"]}, {"file": "denorm/db/sqlite3/triggers.py", "symbols": ["Trigger.name"]}, {"file": "denorm/db/postgresql/triggers.py", "symbols": ["Trigger.name"]}]}
{"id": "C32", "title": "denorm_drop removes all triggers of denorm and denorm_init restores them", "statement": "After drop_triggers() no trigger created by install_triggers() of this or any former schema is left; install after drop leaves exactly the triggers of the current schema, whatever was installed before.", "quantifier": "every database catalogue, every former schema, all backends", "why_tests_cant": "all catalogues", "anchors": [{"file": "denorm/denorms.py", "symbols": ["drop_triggers", "install_triggers"]}, {"file": "denorm/db/sqlite3/triggers.py", "symbols": ["TriggerSet.drop"]}, {"file": "denorm/db/postgresql/triggers.py", "symbols": ["TriggerSet.drop"]}, {"file": "denorm/db/mysql/triggers.py", "symbols": ["TriggerSet.drop"]}]}
{"id": "C33", "title": "denorm_drop removes only triggers of denorm", "statement": "Triggers not created by django-denorm survive drop_triggers().", "quantifier": "every catalogue and trigger name", "why_tests_cant": "all names; LIKE wildcards", "anchors": [{"file": "denorm/db/sqlite3/triggers.py", "symbols": ["TriggerSet.drop_atomic"]}, {"file": "denorm/db/postgresql/triggers.py", "symbols": ["TriggerSet.drop_atomic"]}, {"file": "denorm/db/mysql/triggers.py", "symbols": ["TriggerSet.drop"]}]}
{"id": "C34", "title": "Generated identifiers respect the length limits", "statement": "The trigger name sent to PostgreSQL is at most 58 characters (63 with the func_ prefix) and the one sent to MySQL at most 50, for every table name, and keeps the denorm_ prefix.", "quantifier": "every table name", "why_tests_cant": "all lengths", "anchors": [{"file": "denorm/db/postgresql/triggers.py", "symbols": ["Trigger.sql"]}, {"file": "denorm/db/mysql/triggers.py", "symbols": ["Trigger.sql"]}]}
{"id": "C35", "title": "A cache key is redrawn whenever a dependency changes", "statement": "For every statement that changes a tracked column of a row related through a declared CacheKeyField dependency, or adds or removes such a row, the key of the depending row has been redrawn when the statement ends, without flush; keys of rows no trigger selects keep their value.", "quantifier": "every statement, state, dependency type, backend", "why_tests_cant": "all statements; randomness", "anchors": [{"file": "denorm/dependencies.py", "symbols": ["CacheKeyDependOnRelated.get_triggers"]}, {"file": "denorm/fields.py", "symbols": ["CacheKeyField"]}]}
{"id": "C36", "title": "Cache keys fit into a BIGINT", "statement": "Every value the key expression can produce, in Python or on any backend, lies in the signed 64-bit range.", "quantifier": "every random draw", "why_tests_cant": "2^53 draws", "anchors": [{"file": "denorm/db/sqlite3/triggers.py", "symbols": ["RandomBigInt"]}, {"file": "denorm/db/postgresql/triggers.py", "symbols": ["RandomBigInt"]}, {"file": "denorm/db/mysql/triggers.py", "symbols": ["RandomBigInt"]}, {"file": "denorm/denorms.py", "symbols": ["BaseCacheKeyDenorm.__init__"]}]}
{"id": "C37", "title": "A @cached value is the value of the function for that row", "statement": "Reading a @cached attribute after loading a row yields what the function returned for this row since its key was last redrawn, provided keys of different rows differ and are never reused.", "quantifier": "every sequence of loads, saves and invalidations over any number of rows", "why_tests_cant": "all histories", "anchors": [{"file": "denorm/fields.py", "symbols": ["CacheWrapper.__set__", "CachedField"]}]}
{"id": "C38", "title": "@cached values of different rows do not mix", "statement": "Two rows (or a new unsaved instance and a row) never see each other's cached value, including rows whose key is still the column default.", "quantifier": "every pair of rows", "why_tests_cant": "needs equal keys", "anchors": [{"file": "denorm/fields.py", "symbols": ["CacheWrapper.__set__", "CacheKeyField.__init__"]}]}
{"id": "C39", "title": "A denormalized ManyToManyField holds exactly what its function returned", "statement": "After save() of a stored row with a truthy primary key, the linked keys of a denormalized m2m field are exactly those the function returned at the start of the save; saving a new row stores it and sets the links as well, with exactly one additional save.", "quantifier": "every model, every old and new link set", "why_tests_cant": "all link sets", "anchors": [{"file": "denorm/denorms.py", "symbols": ["many_to_many_pre_save", "many_to_many_post_save"]}]}
{"id": "C40", "title": "Denormalized ManyToManyFields get triggers for their dependencies", "statement": "A denormalized ManyToManyField is recomputed by flush after its declared dependency changed.", "quantifier": "every schema", "why_tests_cant": "the test model shares its dependency with another field", "anchors": [{"file": "denorm/denorms.py", "symbols": ["get_alldenorms"]}]}
{"id": "C41", "title": "The daemon -o option runs one flush", "statement": "denorm_daemon with run_once flushes exactly once and stops; without it every round flushes and then commits.", "quantifier": "every option combination, every number of rounds", "why_tests_cant": "the existing test cannot see the missing flush", "anchors": [{"file": "denorm/management/commands/denorm_daemon.py", "symbols": ["Command.handle"]}]}
{"id": "C42", "title": "At most one daemon runs per pid file", "statement": "Starting the daemon is refused exactly when the pid in the pid file is alive (or owned by someone else); two starts never both run.", "quantifier": "every pid file content, every interleaving of two starts", "why_tests_cant": "all schedules", "anchors": [{"file": "denorm/management/commands/denorm_daemon.py", "symbols": ["Command.pid_exists", "Command.handle"]}, {"file": "denorm/daemon.py", "symbols": ["daemonize"]}]}
{"id": "C43", "title": "After daemonizing the standard streams are the null device", "statement": "daemonize(noClose=False) leaves file descriptors 0, 1 and 2 on the null device and no terminal open, whatever was open before.", "quantifier": "every initial descriptor table and limit", "why_tests_cant": "all descriptor tables", "anchors": [{"file": "denorm/daemon.py", "symbols": ["_redirectFileDescriptors"]}]}
{"id": "C44", "title": "daemonize leaves exactly one running process", "statement": "Exactly one process returns from daemonize(); it is not a session leader; every fork failure surfaces as DaemonException.", "quantifier": "every outcome of the two forks", "why_tests_cant": "all failure points", "anchors": [{"file": "denorm/daemon.py", "symbols": ["daemonize", "_fork"]}]}
{"id": "C45", "title": "A denormalized ForeignKey accepts an instance or a key", "statement": "The stored column is the key, whether the function returned the related instance, its key or None; Denorm.update writes exactly when the value differs.", "quantifier": "every returned value", "why_tests_cant": "all values", "anchors": [{"file": "denorm/fields.py", "symbols": ["DenormDBField.pre_save"]}, {"file": "denorm/denorms.py", "symbols": ["Denorm.update"]}]}
{"id": "C46", "title": "Declarations in abstract base models work for every subclass", "statement": "A CountField, SumField, CacheKeyField or @denormalized field declared on an abstract model is maintained for every concrete subclass.", "quantifier": "every number and order of subclasses", "why_tests_cant": "needs several subclasses", "anchors": [{"file": "denorm/fields.py", "symbols": ["AggregateField.contribute_to_class", "CacheKeyField.contribute_to_class", "DenormDBField.contribute_to_class"]}]}
{"id": "C47", "title": "Dependencies through a non-primary-key ForeignKey are tracked", "statement": "depend_on_related over a ForeignKey with to_field marks the referring rows like any other ForeignKey.", "quantifier": "every schema", "why_tests_cant": "specific schema", "anchors": [{"file": "denorm/dependencies.py", "symbols": ["CallbackDependOnRelated.get_triggers"]}]}
{"id": "C48", "title": "Backward generic dependencies are tracked", "statement": "A field that depends on the object a GenericRelation reaches it from is recomputed when that object changes.", "quantifier": "every schema", "why_tests_cant": "specific schema", "anchors": [{"file": "denorm/dependencies.py", "symbols": ["CallbackDependOnRelated.get_triggers"]}]}
{"id": "C49", "title": "Rows are refreshed whatever their Python truth value or default manager", "statement": "flush() recomputes a dirty row even if the instance is falsy, and rebuildall() reaches rows hidden by the default manager.", "quantifier": "every model class", "why_tests_cant": "specific classes", "anchors": [{"file": "denorm/denorms.py", "symbols": ["flush", "rebuildall"]}]}
{"id": "C50", "title": "Proxy and swapped models add nothing", "statement": "Proxy models and swapped-out models contribute no denormalization; every other concrete model contributes each of its non-m2m denormalized fields.", "quantifier": "every list of installed models", "why_tests_cant": "all lists", "anchors": [{"file": "denorm/denorms.py", "symbols": ["get_alldenorms"]}]}
{"id": "C51", "title": "The trigger backend matches the database engine", "statement": "The backend module is the one named in DENORM_BACKEND, otherwise the last component of the engine name, with postgis and postgresql_psycopg2 mapped to postgresql.", "quantifier": "every engine string", "why_tests_cant": "all strings", "anchors": [{"file": "denorm/db/__init__.py", "symbols": ["backend_for_dbname"]}]}
{"id": "C52", "title": "Generated SQL identifies the action", "statement": "Two different trigger actions never have the same SQL text and parameters, so dropping textual duplicates loses no action.", "quantifier": "every pair of actions over ordinary identifiers", "why_tests_cant": "all pairs of actions", "anchors": [{"file": "denorm/db/sqlite3/triggers.py", "symbols": ["TriggerActionInsert.sql", "TriggerActionUpdate.sql", "TriggerNestedSelect.sql"]}, {"file": "denorm/db/postgresql/triggers.py", "symbols": ["TriggerActionInsert.sql"]}, {"file": "denorm/db/mysql/triggers.py", "symbols": ["TriggerActionInsert.sql"]}]}
{"id": "C53", "title": "Update triggers fire exactly on tracked changes", "statement": "The condition in front of an update trigger is true exactly when a watched column changed (NULL-safe) and, for generic relations, the old or new content type matches.", "quantifier": "every pair of rows, every backend", "why_tests_cant": "all row pairs including NULLs", "anchors": [{"file": "denorm/db/sqlite3/triggers.py", "symbols": ["Trigger.sql"]}, {"file": "denorm/db/postgresql/triggers.py", "symbols": ["Trigger.sql"]}, {"file": "denorm/db/mysql/triggers.py", "symbols": ["Trigger.sql"]}]}
{"id": "C54", "title": "Aggregates stay exact under deferred foreign key checks", "statement": "The CountField invariant also holds if children may be inserted before their parent within a transaction (deferred constraints, the default Django creates).", "quantifier": "every history", "why_tests_cant": "specific order", "anchors": [{"file": "denorm/fields.py", "symbols": ["AggregateField.pre_save"]}]}
{"id": "C55", "title": "Self-relation counts and callbacks work on SQLite", "statement": "A callback that reads a CountField of its own row is refreshed when the count changes, also for a CountField over a self relation on SQLite.", "quantifier": "every backend", "why_tests_cant": "recursive trigger semantics", "anchors": [{"file": "denorm/denorms.py", "symbols": ["AggregateDenorm.get_triggers"]}, {"file": "denorm/db/sqlite3/triggers.py", "symbols": ["Trigger.sql"]}]}
{"id": "C56", "title": "Changes to inherited columns are tracked", "statement": "A denormalized field of a multi-table child model is refreshed when a column of its parent table changes.", "quantifier": "every multi-table schema", "why_tests_cant": "specific schema", "anchors": [{"file": "denorm/db/base.py", "symbols": ["Trigger.__init__", "get_fields_with_model"]}]}
{"id": "C57", "title": "A saved row is right at once", "statement": "When save() of an instance of a stored row returns, every callback field of the stored row equals what its function returns for the stored data, without flush; the ordinary columns are those of the instance. Conditions: the functions read declared columns only, in declaration order; the row is not related to itself; the counts held by the instance are those stored. The same holds for a new instance if its functions give the same value with and without the new primary key and read no count of their own row.", "quantifier": "every schema meeting the conditions, database, instance and backend, with and without DENORM_BULK_UNSAFE_TRIGGERS", "why_tests_cant": "all instances and all callback functions", "anchors": [{"file": "denorm/fields.py", "symbols": ["denormalized"]}, {"file": "denorm/denorms.py", "symbols": ["BaseCallbackDenorm"]}]}
{"id": "C58", "title": "A raising function does not block other rows", "statement": "If the function of one row raises during flush(), the markers of all rows that were not refreshed stay, and repeated flush() calls refresh the other rows.", "quantifier": "every schema, database and order of markers", "why_tests_cant": "needs every order and number of calls", "anchors": [{"file": "denorm/denorms.py", "symbols": ["flush"]}]}
{"id": "C59", "title": "Flushing fresh data changes nothing", "statement": "flush() and rebuildall() on a database whose callback fields are all right change no stored value except auto_now columns and cache keys, add no marker, and stop after one pass, whatever rows are marked; for schemas in which no function reads such columns and no trigger watches them.", "quantifier": "every such schema, database, set of markers and order", "why_tests_cant": "all databases and marker sets", "anchors": [{"file": "denorm/denorms.py", "symbols": ["flush", "rebuildall"]}]}
{"id": "C60", "title": "DENORM_BULK_UNSAFE_TRIGGERS is only unsafe in bulk", "statement": "With DENORM_BULK_UNSAFE_TRIGGERS set, any history of saves of stored rows, saves of new rows whose functions give the same value with and without the new primary key, deletions of single rows and flushes, followed by flush(), leaves every callback field right; so does rebuildall() from any database.", "quantifier": "every schema whose functions read only ordinary and callback columns of their own row, every history and backend", "why_tests_cant": "all histories", "anchors": [{"file": "denorm/fields.py", "symbols": ["denormalized"]}, {"file": "denorm/denorms.py", "symbols": ["BaseCallbackDenorm", "CallbackDenorm", "flush"]}]}
{"id": "C61", "title": "Trigger texts mean the triggers", "statement": "The SQL text generated for a trigger is valid SQL of its backend exactly if an UPDATE trigger watches some column (SQLite, PostgreSQL) and no filter values are bound (SQLite); it then creates a trigger of the final name on the model's table and event, whose condition and statements do what the declaration asks for, duplicates dropped.", "quantifier": "every schema with ordinary table and column names, every generated trigger, backend, way of quoting, database and event", "why_tests_cant": "tests see some texts of one backend; the claim is for all names, filters and merged triggers, including precedence of AND, OR and NOT and SQL NULL", "anchors": [{"file": "denorm/db/sqlite3/triggers.py", "symbols": ["Trigger.sql", "TriggerActionInsert.sql", "TriggerActionUpdate.sql", "TriggerNestedSelect.sql"]}, {"file": "denorm/db/postgresql/triggers.py", "symbols": ["Trigger.sql", "TriggerActionInsert.sql"]}, {"file": "denorm/db/mysql/triggers.py", "symbols": ["Trigger.sql", "TriggerActionInsert.sql"]}]}
{"id": "C62", "title": "Any legal name works", "statement": "Every table and column name Django accepts can be used with denormalized fields: the generated trigger texts are valid and refer to these tables and columns.", "quantifier": "every schema and backend", "why_tests_cant": "needs all names", "anchors": [{"file": "denorm/db/base.py", "symbols": ["TriggerActionUpdate", "Trigger"]}, {"file": "denorm/db/postgresql/triggers.py", "symbols": ["TriggerActionUpdate.sql", "Trigger.sql"]}]}
{"id": "C63", "title": "denorm_sql prints what denorm_init executes", "statement": "denorm_sql prints, for every trigger, a text that creates the same trigger as denorm_init does, and never raises.", "quantifier": "every schema with ordinary names, backend and filter", "why_tests_cant": "all filters and names", "anchors": [{"file": "denorm/management/commands/denorm_sql.py", "symbols": ["Command.handle"]}]}
{"id": "C64", "title": "Trigger texts refer to existing tables and columns", "statement": "Every generated trigger is created on a table of the schema, and every table and column its condition and statements refer to exists, also NEW and OLD: an INSERT trigger does not use OLD and a DELETE trigger does not use NEW. So no statement of the application fails because of a trigger that refers to something missing.", "quantifier": "every schema, every generated trigger, backend and way of quoting", "why_tests_cant": "tests use a handful of models without db_column; the claim is about all declarations and all merged triggers", "anchors": [{"file": "denorm/db/base.py", "symbols": ["Trigger", "TriggerNestedSelect"]}, {"file": "denorm/dependencies.py", "symbols": ["CallbackDependOnRelated.get_triggers", "CacheKeyDependOnRelated.get_triggers"]}, {"file": "denorm/denorms.py", "symbols": ["AggregateDenorm.get_triggers"]}]}
{"id": "C65", "title": "Aggregates work for every related manager", "statement": "CountField and SumField keep the number or sum of the related rows for every related manager of the model: ForeignKeys, OneToOneFields, ManyToManyFields and GenericRelations.", "quantifier": "every schema, aggregate and manager", "why_tests_cant": "needs all managers; the exception appears at trigger installation only", "anchors": [{"file": "denorm/denorms.py", "symbols": ["AggregateDenorm.setup", "AggregateDenorm.get_related_where", "AggregateDenorm.m2m_triggers", "AggregateDenorm.get_triggers"]}]}
{"id": "C66", "title": "Declarations that are accepted can be installed", "statement": "If the classes of the application can be created, install_triggers succeeds, and the constructors of aggregates refuse only what cannot be installed.", "quantifier": "every schema and backend", "why_tests_cant": "all combinations of filter, exclude, skip and backends", "anchors": [{"file": "denorm/fields.py", "symbols": ["AggregateField.__init__"]}, {"file": "denorm/denorms.py", "symbols": ["install_triggers", "build_triggerset"]}]}
{"id": "C67", "title": "Building the triggers raises no exception", "statement": "build_triggerset returns the triggers of all denormalized fields whatever other relations the models have; reverse relations are passed over.", "quantifier": "every schema with every list of entries of _meta.get_fields()", "why_tests_cant": "the entries of _meta depend on all other models of the project", "anchors": [{"file": "denorm/db/base.py", "symbols": ["get_fields_with_model", "Trigger.__init__"]}, {"file": "denorm/denorms.py", "symbols": ["build_triggerset"]}]}
{"id": "C68", "title": "Other databases are maintained like the default one", "statement": "After install_triggers(using=u) the denormalized data of the database u is maintained like that of the default database: its stale rows are marked, flush and rebuildall bring them up to date, and saving works the same; what happens on one database leaves the others alone.", "quantifier": "every schema, every history of operations on any number of databases", "why_tests_cant": "tests use one database; histories interleave operations on several", "anchors": [{"file": "denorm/denorms.py", "symbols": ["install_triggers", "build_triggerset", "flush", "rebuildall"]}, {"file": "denorm/fields.py", "symbols": ["AggregateField.pre_save"]}, {"file": "denorm/management/commands/denorm_init.py", "symbols": ["Command"]}]}
{"id": "C69", "title": "Migrations keep the columns of denormalized fields", "statement": "What deconstruct() stores of a denormalized field can be turned back into a field; the column of the rebuilt field has the class and attributes of the declared one, makemigrations finds no difference between them, a change of the declaration is found, and instances of historical models can be made.", "quantifier": "every field class, every keyword argument, every kind of denormalized field", "why_tests_cant": "tests run the migrations of a few models; all combinations of arguments are not tried", "anchors": [{"file": "denorm/fields.py", "symbols": ["denormalized", "AggregateField.deconstruct", "AggregateField.__init__", "CountField", "SumField", "CacheKeyField", "CachedField", "CacheWrapper"]}]}
{"id": "C70", "title": "An aggregate moves by exactly the change of the true value", "statement": "Whatever a database holds, and whether or not it checks foreign keys: as long as a row is not deleted, its stored aggregate minus the true value stays the same through every statement, save, flush and rebuild that does not assign to the column directly.", "quantifier": "every schema, database (also with wrong aggregates), history and backend; relations of a model to itself included", "why_tests_cant": "a statement about wrong databases and unbounded histories", "anchors": [{"file": "denorm/denorms.py", "symbols": ["AggregateDenorm.get_triggers", "flush", "rebuildall"]}, {"file": "denorm/fields.py", "symbols": ["AggregateField.pre_save"]}]}
{"id": "C71", "title": "A model can count its own rows", "statement": "With a CountField over a ForeignKey of a model to itself, rows of the model can be inserted, moved, saved and deleted on every backend as without the field.", "quantifier": "every schema with such a field, every row and database, every backend and stack size", "why_tests_cant": "the failure on PostgreSQL needs rows in a cycle and is about every stack size; MySQL is not run by most developers", "anchors": [{"file": "denorm/denorms.py", "symbols": ["AggregateDenorm.get_triggers"]}, {"file": "denorm/db/postgresql/triggers.py", "symbols": ["Trigger.sql"]}, {"file": "denorm/db/mysql/triggers.py", "symbols": ["Trigger.sql"]}, {"file": "denorm/db/base.py", "symbols": ["Trigger.__init__"]}]}
{"id": "C72", "title": "Nested triggers end", "statement": "If the immediate updates of aggregates and cache keys lead from table to table without a cycle, no statement, save, flush or rebuild fails because triggers are nested too deeply or write a table in use.", "quantifier": "every schema, database and history; every backend", "why_tests_cant": "an invariant over unbounded schemas and histories", "anchors": [{"file": "denorm/denorms.py", "symbols": ["AggregateDenorm.get_triggers", "CacheKeyDenorm", "flush", "rebuildall"]}]}
{"id": "C73", "title": "Aggregates over aggregates", "statement": "A SumField or CountField that sums, filters by or excludes by an aggregate column of the related model is exact after every history, like one over ordinary columns; a SumField over a CountField stores the number of rows two relations away.", "quantifier": "every schema, database and history of statements, saves, flushes and rebuilds; every backend; any number of levels", "why_tests_cant": "nested triggers of unbounded depth and batches of any size; the project's tests have no aggregate over an aggregate", "anchors": [{"file": "denorm/denorms.py", "symbols": ["AggregateDenorm.get_triggers", "CountDenorm", "SumDenorm"]}, {"file": "denorm/fields.py", "symbols": ["SumField", "CountField", "AggregateField"]}, {"file": "denorm/db/sqlite3/triggers.py", "symbols": ["Trigger.sql"]}]}
{"id": "C74", "title": "A cached function is not called again", "statement": "While the key stored in a row stays in the cache and does not change, reading the attribute of a @cached function returns the cached value and does not call the function, however many processes read it in whatever order.", "quantifier": "every sequence of steps of every number of concurrent readers, every cache state, every function", "why_tests_cant": "unbounded interleavings of processes and falsy values; the tests read an attribute from one process", "anchors": [{"file": "denorm/fields.py", "symbols": ["CacheWrapper", "CachedField", "cached"]}]}
{"id": "C75", "title": "refresh_from_db() of a cached field", "statement": "After instance.refresh_from_db() the attribute of a @cached function shows the value the function has for the row, and no other row is affected.", "quantifier": "every cache state and every interleaving with other readers", "why_tests_cant": "the value is taken for a cache key, so the fault shows up in other rows and depends on which numbers are returned", "anchors": [{"file": "denorm/fields.py", "symbols": ["CacheWrapper", "CachedField", "cached"]}]}
{"id": "C76", "title": "Only rows that a write can affect are marked", "statement": "An operation adds a marker for a row only if the model of the row has a computed field and the row itself, a row it depends on or a link of it was written, by the operation or by an aggregate or cache key that the operation changed.", "quantifier": "every well-formed schema without denormalized ManyToManyFields (those make one save several writes), every database, every operation, every backend", "why_tests_cant": "the tests check that the expected rows are marked, not that no other row of a database of any size is", "anchors": [{"file": "denorm/dependencies.py", "symbols": ["DependOnRelated", "CallbackDependOnRelated", "CacheKeyDependOnRelated"]}, {"file": "denorm/denorms.py", "symbols": ["CallbackDenorm", "CountDenorm"]}, {"file": "denorm/db/base.py", "symbols": ["TriggerActionInsert"]}]}
{"id": "C77", "title": "Installing and dropping triggers is all or nothing", "statement": "If denorm_init or denorm_drop fails, on whatever database, the triggers are those that were there before; if it succeeds the result does not depend on which database it is.", "quantifier": "every trigger set, every catalogue of tables and triggers, every point of failure, default and other databases", "why_tests_cant": "the tests install on complete schemas of the default database and never make a statement fail in the middle", "anchors": [{"file": "denorm/db/sqlite3/triggers.py", "symbols": ["TriggerSet"]}, {"file": "denorm/db/postgresql/triggers.py", "symbols": ["TriggerSet"]}, {"file": "denorm/db/mysql/triggers.py", "symbols": ["TriggerSet"]}, {"file": "denorm/management/commands/denorm_init.py", "symbols": ["Command"]}]}
{"id": "C78", "title": "flush() needs few passes", "statement": "If the value dependencies are acyclic, flush() ends after at most as many passes as the longest chain of values computed from each other and of rows that every save rewrites, plus two; the number of rows, of markers and their order do not matter.", "quantifier": "every schema meeting the conditions of C02 and C21, every database in which stale rows are marked, every order, backends", "why_tests_cant": "a bound over all databases and processing orders; the tests only see that flush() returns", "anchors": [{"file": "denorm/denorms.py", "symbols": ["flush"]}]}
{"id": "C79", "title": "Markers of removed models do not block flush()", "statement": "When a model has been removed from the code while rows of it are marked, flush() still refreshes the marked rows of the other models.", "quantifier": "every schema, database, order of processing and number of flushes", "why_tests_cant": "the tests never change the models while markers are pending", "anchors": [{"file": "denorm/denorms.py", "symbols": ["flush"]}, {"file": "denorm/models.py", "symbols": ["DirtyInstance"]}]}
{"id": "C80", "title": "Rows deleted while flush() runs stay deleted", "statement": "A row that another session deletes while flush() is running does not exist after flush() has finished.", "quantifier": "every interleaving of any number of flush() runs with the deletion, backends", "why_tests_cant": "all schedules; the tests use one session", "anchors": [{"file": "denorm/denorms.py", "symbols": ["flush"]}]}
{"id": "C81", "title": "The management commands do what they say", "statement": "Run from a command line, denorm_flush runs flush(), denorm_rebuild runs rebuildall() for all models or for the model it is given, denorm_init and denorm_drop install and drop the triggers of the database named by --database and change nothing else, and denorm_sql and denormalize change nothing.", "quantifier": "every command line, project, database, backend", "why_tests_cant": "all command lines; the tests call the functions", "anchors": [{"file": "denorm/management/commands/denorm_rebuild.py", "symbols": ["Command"]}, {"file": "denorm/management/commands/denorm_flush.py", "symbols": ["Command"]}, {"file": "denorm/management/commands/denorm_init.py", "symbols": ["Command"]}, {"file": "denorm/management/commands/denorm_drop.py", "symbols": ["Command"]}, {"file": "denorm/management/commands/denormalize.py", "symbols": ["Command"]}]}
{"id": "C82", "title": "flush() works with every supported Django", "statement": "With every Django version and database that denorm's test matrix names, flush() processes the dirty markers: that a database has no DISTINCT ON is noticed and worked around.", "quantifier": "every Django version before or since 2.1, backend, schema, database, number of calls", "why_tests_cant": "the continuous integration allows the newest Django to fail, and a test is one database", "anchors": [{"file": "denorm/denorms.py", "symbols": ["flush", "rebuildall"]}, {"file": "denorm/middleware.py", "symbols": ["DenormMiddleware"]}]}
{"id": "C83", "title": "save(update_fields=...) keeps denormalized data right", "statement": "Saving only some fields is one update of the named columns; the value of a denormalized field is computed every time the model gets saved, a cache key is redrawn, aggregates are not overwritten, and after a flush everything is right.", "quantifier": "every schema, backend, database, list of names, instance, mix of saves, flush order", "why_tests_cant": "all lists of names and all mixes of operations", "anchors": [{"file": "denorm/fields.py", "symbols": ["DenormDBField", "AggregateField", "CacheKeyField"]}, {"file": "denorm/denorms.py", "symbols": ["BaseCallbackDenorm", "flush"]}]}
{"id": "C84", "title": "Loading a fixture keeps aggregates right", "statement": "Loading the dump of a right database into an empty one (loaddata, raw saves) gives right aggregates.", "quantifier": "every schema, backend, database, order of the objects in the fixture", "why_tests_cant": "all fixtures and orders; the tests load none", "anchors": [{"file": "denorm/fields.py", "symbols": ["AggregateField", "SumField", "CountField"]}, {"file": "denorm/denorms.py", "symbols": ["AggregateDenorm", "rebuildall"]}]}
{"id": "C85", "title": "Managers may have any name", "statement": "rebuildall(), flush() and saving work for models whose manager is not called objects.", "quantifier": "every schema, set of models without objects, backend, database, order", "why_tests_cant": "all schemas; the models of the tests all have objects", "anchors": [{"file": "denorm/denorms.py", "symbols": ["rebuildall", "flush"]}, {"file": "denorm/fields.py", "symbols": ["AggregateField"]}]}
{"id": "C86", "title": "Concurrent saves keep aggregates and callback fields right", "statement": "Saves run as several statements that interleave with those of other sessions. A save never overwrites a count or sum with an outdated value, and the values of callback fields that a save writes late are put right by the next flush.", "quantifier": "every schema, backend, database, number of sessions, interleaving of the steps of saves, operations and flush bodies", "why_tests_cant": "the tests run one session; all interleavings", "anchors": [{"file": "denorm/fields.py", "symbols": ["AggregateField", "DenormDBField", "CacheKeyField"]}, {"file": "denorm/denorms.py", "symbols": ["BaseCallbackDenorm", "AggregateDenorm", "many_to_many_pre_save", "flush"]}]}
{"id": "C87", "title": "The daemon refreshes the marked rows and loses nothing", "statement": "Whatever way the rounds of denorm_daemon end (completed, interrupted, failed) and whatever other sessions do between them, every row stays right or marked; a completed round leaves everything right; rows whose functions work are refreshed by the daemon; and changes committed by others while a round runs are not lost.", "quantifier": "every schema, backend, database, order of markers, sequence of rounds with every way of ending, operations of other sessions", "why_tests_cant": "the daemon is not tested with failing functions, interrupts or other sessions", "anchors": [{"file": "denorm/management/commands/denorm_daemon.py", "symbols": ["Command", "commit_manually"]}, {"file": "denorm/denorms.py", "symbols": ["flush"]}]}
{"id": "C88", "title": "bulk_create() keeps denormalized data right", "statement": "Rows made with QuerySet.bulk_create(), which sends no signals and one INSERT per batch, get correct aggregates, keep the aggregates that count them exact, and have correct callback fields at once or after the next flush, with either setting of DENORM_BULK_UNSAFE_TRIGGERS.", "quantifier": "every schema, backend, database, list of batches, objects with and without keys", "why_tests_cant": "the tests do not call bulk_create; all schemas and batches", "anchors": [{"file": "denorm/fields.py", "symbols": ["DenormDBField.pre_save", "AggregateField.pre_save", "CacheKeyField.pre_save"]}, {"file": "denorm/denorms.py", "symbols": ["many_to_many_pre_save", "many_to_many_post_save", "CallbackDenorm.get_triggers"]}]}
{"id": "C89", "title": "Denormalized fields can be declared and are never editable", "statement": "Every field class of denorm can be declared with its documented arguments; whatever keywords are given, the field is not editable, and aggregates and cache keys have the default 0.", "quantifier": "every field class, every set of keyword arguments, every function", "why_tests_cant": "CopyField and functions without dependencies are not tested; all keyword arguments", "anchors": [{"file": "denorm/fields.py", "symbols": ["denormalized", "AggregateField.__init__", "CountField", "SumField", "CopyField", "CacheKeyField.__init__", "CachedField", "cached"]}]}
{"id": "C90", "title": "After a request the denormalized data are right", "statement": "With DenormMiddleware or DENORM_FLUSH_AFTER_REQUEST, every change made during a request is visible in the denormalized fields when the request is over, whatever the view does, and the response is that of the view.", "quantifier": "every schema, sequence of requests, view, writes after the middleware, order of markers, outcome of flush", "why_tests_cant": "all sequences of requests; streaming responses, other middlewares and raising functions are not tested", "anchors": [{"file": "denorm/middleware.py", "symbols": ["DenormMiddleware.process_response"]}, {"file": "denorm/__init__.py", "symbols": ["do_flush"]}, {"file": "denorm/denorms.py", "symbols": ["flush"]}]}
{"id": "C91", "title": "After the declarations change, denorm_drop, denorm_init and denorm_rebuild bring the database up to date", "statement": "Whatever declarations the installed triggers came from: denorm_init makes exactly the triggers of the present declarations fire, none of a removed declaration is left, and after denorm_rebuild every denormalized field is right and later changes are noticed.", "quantifier": "every old catalogue, schema, back-end, digest, data, order of markers and later sequence of operations", "why_tests_cant": "the tests install once with one set of models; upgrades of declarations are not tested", "anchors": [{"file": "denorm/denorms.py", "symbols": ["drop_triggers", "install_triggers", "build_triggerset", "rebuildall"]}, {"file": "denorm/db/postgresql/triggers.py", "symbols": ["TriggerSet.install", "TriggerSet.drop"]}, {"file": "denorm/db/sqlite3/triggers.py", "symbols": ["TriggerSet.install", "TriggerSet.drop"]}, {"file": "denorm/db/mysql/triggers.py", "symbols": ["TriggerSet.install", "TriggerSet.drop"]}, {"file": "denorm/management/commands/denorm_init.py", "symbols": ["Command.handle"]}]}
{"id": "C92", "title": "Rows may be saved through subclasses and proxies", "statement": "Saving an instance of a multi-table subclass or of a proxy keeps the denormalized columns, aggregates and links of all its tables as right as saving through the declaring class does, and new instances can be saved like any others.", "quantifier": "every schema, chain of parent classes, instance, force_insert, sequence of operations and saves, order of markers", "why_tests_cant": "the only proxy in the tests has no denormalized m2m field, and no test has a multi-table subclass", "anchors": [{"file": "denorm/fields.py", "symbols": ["denormalized", "AggregateField.pre_save"]}, {"file": "denorm/denorms.py", "symbols": ["many_to_many_pre_save", "many_to_many_post_save", "get_alldenorms"]}]}
{"id": "C93", "title": "Sessions that keep off each other's rows lose no marker", "statement": "Any number of flush() calls and writers may run at the same time. If every statement of one session falls between the loop bodies of the others, or at least none changes a row that a flush has loaded and not yet saved and none marks a row that a flush has saved and whose markers it has not yet deleted, every row is right or marked at every moment, and the next flush leaves everything right.", "quantifier": "every schema, number of sessions, interleaving, database and order of markers", "why_tests_cant": "unit tests run one session", "anchors": [{"file": "denorm/denorms.py", "symbols": ["flush"]}, {"file": "denorm/models.py", "symbols": ["DirtyInstance"]}]}
{"id": "C94", "title": "What flush() and rebuildall() never change", "statement": "Whatever flush() or rebuildall() does and however it ends: no row appears or disappears, ordinary columns and ordinary many-to-many links keep their values, and so do counts and sums over ordinary columns.", "quantifier": "every well-formed schema, database, order of markers, number of passes and outcome", "why_tests_cant": "tests compare the columns they care about", "anchors": [{"file": "denorm/denorms.py", "symbols": ["flush", "rebuildall"]}]}
{"id": "C95", "title": "Overlapping flush() calls keep user data and deleted rows deleted", "statement": "However the statements of any number of flush() calls interleave: if the instances already loaded agree with the stored rows, user data are kept and no deleted row comes back.", "quantifier": "every schema, number of runs and interleaving", "why_tests_cant": "no test runs two flushes", "anchors": [{"file": "denorm/denorms.py", "symbols": ["flush"]}]}
{"id": "C96", "title": "Callback fields are right after a flush however concurrent saves interleave", "statement": "If saves run as separate statements, in any number of sessions, together with other operations and flush bodies, the next flush leaves every callback field right, though a save may have written an outdated value.", "quantifier": "every schema, number of sessions, interleaving and order of markers", "why_tests_cant": "unit tests run one session", "anchors": [{"file": "denorm/fields.py", "symbols": ["DenormDBField.pre_save"]}, {"file": "denorm/denorms.py", "symbols": ["flush"]}]}
{"id": "C97", "title": "A concurrent save can be wrong by exactly the change it did not see", "statement": "A save reads a count or sum and writes it back later. If the true value of the row does not change between the two, every aggregate is exact at every moment; otherwise the stored value is off by exactly that change.", "quantifier": "every schema, aggregate, number of sessions and interleaving", "why_tests_cant": "unit tests run one session", "anchors": [{"file": "denorm/fields.py", "symbols": ["AggregateField.pre_save"]}]}
{"id": "C98", "title": "save(update_fields=...) is an update of the named columns", "statement": "save(update_fields=names) updates exactly the named columns of the one row; names that are not fields and rows that are missing raise; counts and sums move with their true values; after any mix of such saves, ordinary operations and loaddata, a flush leaves every callback field right; and if all computed and all changed fields are named it does what save() does.", "quantifier": "every schema, row, list of names and history", "why_tests_cant": "tests name one or two fields", "anchors": [{"file": "denorm/fields.py", "symbols": ["denormalized", "AggregateField.pre_save"]}]}
{"id": "C99", "title": "bulk_create() keeps counts and sums exact, and a flush the rest", "statement": "After bulk_create() with any batches all aggregates are exact at once, those of the new rows and those that count them, and the next flush leaves every callback field right (triggers without DENORM_BULK_UNSAFE_TRIGGERS).", "quantifier": "every schema, batches, objects and database", "why_tests_cant": "no test uses bulk_create", "anchors": [{"file": "denorm/fields.py", "symbols": ["AggregateField.pre_save"]}, {"file": "denorm/denorms.py", "symbols": ["flush"]}]}
{"id": "C100", "title": "Requests lose nothing", "statement": "With the middleware, the setting, both or none of them: after any requests, however their views end, every row is right or marked. Everything is right when the middleware has neither logged nor raised anything, and, with the setting and nothing raised, at the end of the request.", "quantifier": "every schema, sequence of requests, view, late writes and settings", "why_tests_cant": "tests serve a few requests", "anchors": [{"file": "denorm/middleware.py", "symbols": ["DenormMiddleware"]}, {"file": "denorm/__init__.py", "symbols": ["do_flush"]}]}
{"id": "C101", "title": "Between the rounds of the daemon every row is right or marked", "statement": "However the rounds of denorm_daemon end and whatever others write between them, every row is right or marked; a round whose flush came to its end leaves everything right, and a round that failed changes nothing.", "quantifier": "every schema, number of rounds, endings and writes between them", "why_tests_cant": "tests do not run the daemon", "anchors": [{"file": "denorm/management/commands/denorm_daemon.py", "symbols": ["Command"]}]}
{"id": "C102", "title": "denorm_drop, denorm_init and denorm_rebuild bring any database up to date", "statement": "Whatever triggers former declarations left: after denorm_drop and denorm_init exactly the triggers of the present declarations fire and the triggers of others stay; the result does not depend on what was installed before; denorm_rebuild then repairs every callback field, and every row is right or marked from then on. (Tables on the search path, names not shortened and distinct.)", "quantifier": "every catalogue of triggers, former and present schema, data and later operations", "why_tests_cant": "tests install into an empty database", "anchors": [{"file": "denorm/denorms.py", "symbols": ["install_triggers", "drop_triggers", "rebuildall"]}]}
{"id": "C103", "title": "A failed installation on the default database changes nothing", "statement": "On the default database with SQLite or PostgreSQL a failing denorm_init or denorm_drop leaves the triggers as they were; a successful one does the same on every database.", "quantifier": "every catalogue and trigger set", "why_tests_cant": "no test makes an installation fail", "anchors": [{"file": "denorm/denorms.py", "symbols": ["install_triggers", "drop_triggers"]}, {"file": "denorm/db/base.py", "symbols": ["TriggerSet"]}]}
{"id": "C104", "title": "What denorm_drop takes for its own triggers", "statement": "denorm_drop removes exactly the triggers whose names start with denorm and one more character (SQLite in any case; MySQL with the prefix denorm_); all other triggers and all tables stay.", "quantifier": "every catalogue of triggers", "why_tests_cant": "tests know only triggers of denorm", "anchors": [{"file": "denorm/denorms.py", "symbols": ["drop_triggers"]}, {"file": "denorm/db/base.py", "symbols": ["TriggerSet"]}]}
{"id": "C105", "title": "Saves through any class keep callback fields and aggregates right", "statement": "Whatever subclasses and proxies rows are saved through, every row is right or marked and right after a flush, and counts and sums move with their true values and stay exact. Saving through a class without parents is the ordinary save, and without denormalized m2m fields so is saving through a proxy.", "quantifier": "every schema, chain of parent classes, instance, force_insert and history", "why_tests_cant": "no test has a multi-table subclass", "anchors": [{"file": "denorm/fields.py", "symbols": ["denormalized", "AggregateField.pre_save"]}, {"file": "denorm/denorms.py", "symbols": ["many_to_many_pre_save", "many_to_many_post_save"]}]}
{"id": "C106", "title": "Sums and counts over aggregates", "statement": "If no chain of trigger updates leads from a table back to itself, a SumField or CountField over aggregate columns is exact after every history, and a SumField over a CountField is the number of rows two relations away.", "quantifier": "every schema without such chains, every history", "why_tests_cant": "tests have no aggregate over an aggregate", "anchors": [{"file": "denorm/denorms.py", "symbols": ["AggregateDenorm", "SumDenorm", "CountDenorm"]}]}
{"id": "C107", "title": "depend_on_related resolves to the only relation or raises", "statement": "For models whose class names do not differ in case only, a dependency resolves to a relation iff it is the only ForeignKey, ManyToManyField or GenericRelation between the two models with the given name and type; otherwise ValueError; resolving again gives the same answer.", "quantifier": "every pair of models, name and type", "why_tests_cant": "tests try a few models", "anchors": [{"file": "denorm/dependencies.py", "symbols": ["DependOnRelated"]}, {"file": "denorm/helpers.py", "symbols": ["find_fks", "find_m2ms"]}]}
{"id": "C108", "title": "Cache keys are redrawn by changes of related rows", "statement": "A statement that changes a tracked column of a row related through a ForeignKey (either direction), the far side or links of a ManyToManyField, or a GenericRelation, or adds or removes such a row, leaves a newly drawn key in the depending row when it ends; a statement that names no row related to a row keeps its key, if no related table has a maintained column.", "quantifier": "every schema (on SQLite without cycles of maintained tables), statement and database", "why_tests_cant": "tests look at single changes", "anchors": [{"file": "denorm/fields.py", "symbols": ["CacheKeyField"]}, {"file": "denorm/dependencies.py", "symbols": ["CacheKeyDependOnRelated"]}]}
{"id": "C109", "title": "A save sets the links of a denormalized ManyToManyField exactly", "statement": "After saving a stored row with a key other than 0 its links are exactly the keys the function returned and all other links stay; a new row is inserted and saved once more, which sets its links.", "quantifier": "every schema, row, function and database", "why_tests_cant": "tests use small sets of links", "anchors": [{"file": "denorm/denorms.py", "symbols": ["many_to_many_pre_save", "many_to_many_post_save"]}]}
{"id": "C110", "title": "Aggregates without foreign key checks", "statement": "Whether or not the database checks foreign keys at every statement, an aggregate is exact after every history in which no row is inserted that is already referred to.", "quantifier": "every schema, history and setting of the checks", "why_tests_cant": "tests insert parents first", "anchors": [{"file": "denorm/denorms.py", "symbols": ["AggregateDenorm"]}]}
{"id": "C111", "title": "Loading a fixture before denorm_init restores everything; afterwards counts are known", "statement": "Loading a dump without triggers gives back every row and marks nothing, so right aggregates are right again. With triggers a loaded row has the value of the fixture plus the growth of the true value since it was loaded.", "quantifier": "every schema, dump and database", "why_tests_cant": "tests load no fixtures with aggregates", "anchors": [{"file": "denorm/fields.py", "symbols": ["AggregateField.pre_save"]}]}
{"id": "C112", "title": "A flush that raises loses nothing", "statement": "If the function of a row raises during flush(), every row is still right or marked, and the row at which it stopped raises again when its marker comes first.", "quantifier": "every schema, function, database, order of markers and number of passes", "why_tests_cant": "tests have no raising functions", "anchors": [{"file": "denorm/denorms.py", "symbols": ["flush"]}]}
{"id": "C113", "title": "Repeated rebuilds make everything right", "statement": "If no value depends on itself, through any chain of fields and rows, then as many complete rebuilds as there are ranks make every callback field right, whatever the order of declaration and also for rows related to themselves.", "quantifier": "every schema, database and ranking of the cells", "why_tests_cant": "tests rebuild once", "anchors": [{"file": "denorm/denorms.py", "symbols": ["rebuildall", "flush"]}]}
{"id": "C114", "title": "When update triggers fire", "statement": "An update trigger fires exactly when a watched column changed (NULL-safe). For a generic relation: on SQLite only if the old or new content type matches as well; on PostgreSQL if a column changed and the old content type matches, or the new one matches; on MySQL whatever the content type. Which columns are watched is decided by the first declaration with that trigger.", "quantifier": "every trigger, old and new row, backend and schema", "why_tests_cant": "tests look at a few updates", "anchors": [{"file": "denorm/db/base.py", "symbols": ["Trigger", "TriggerSet"]}, {"file": "denorm/db/postgresql/triggers.py", "symbols": ["Trigger"]}, {"file": "denorm/db/mysql/triggers.py", "symbols": ["Trigger"]}, {"file": "denorm/db/sqlite3/triggers.py", "symbols": ["Trigger"]}]}
{"id": "C115", "title": "Cached values of rows with drawn keys", "statement": "While every row has a drawn key, a value read for a row was computed for that row and nothing else was computed under its key; while a truthy value stays in the cache the function is not called again; however many processes read in whatever order.", "quantifier": "every number of clients, interleaving and eviction", "why_tests_cant": "tests run one process", "anchors": [{"file": "denorm/fields.py", "symbols": ["CachedField"]}, {"file": "denorm/fields.py", "symbols": ["CacheWrapper"]}]}
{"id": "C116", "title": "Databases do not disturb each other, and the default one behaves as if alone", "statement": "An operation on one database changes no other; flush() and rebuildall() change the default one only; the default database behaves as in a project with one database; and rows of another database with the same dialect and content types are marked when they go stale.", "quantifier": "every number of databases, schema and history", "why_tests_cant": "tests use one database", "anchors": [{"file": "denorm/denorms.py", "symbols": ["flush", "rebuildall", "install_triggers"]}]}
{"id": "C117", "title": "When building the triggers raises", "statement": "build_triggerset raises nothing exactly if every aggregate's manager has a key and no generic dependency is on a model with a reverse one-to-one relation; install_triggers succeeds if moreover every named model is installed, no declaration skips all columns and, on SQLite, no aggregate excludes values; for managers of ForeignKeys and OneToOneFields the triggers are those of the relation.", "quantifier": "every schema and backend", "why_tests_cant": "tests build the triggers of the test models", "anchors": [{"file": "denorm/denorms.py", "symbols": ["build_triggerset", "AggregateDenorm"]}, {"file": "denorm/dependencies.py", "symbols": ["DependOnRelated"]}]}
{"id": "C118", "title": "Migrations of denormalized fields give the same column", "statement": "The field stored in a migration is built again without an exception on any database, has the Django class and attributes of the declared one, makes makemigrations find no difference, and never calls the function; instances of historical models without @cached fields can be made.", "quantifier": "every declared field with any keywords", "why_tests_cant": "tests use Django without migrations", "anchors": [{"file": "denorm/fields.py", "symbols": ["DenormDBField", "AggregateField", "CacheKeyField"]}]}
{"id": "C119", "title": "After save() the instance shows the stored row", "statement": "After save() every attribute of the instance equals the column stored in the database.", "quantifier": "every schema, database, instance, new or existing row, backend", "why_tests_cant": "tests reload instances before looking at them, and no test has a row that is its own parent", "anchors": [{"file": "denorm/fields.py", "symbols": ["denormalized", "AggregateField.pre_save", "CacheKeyField.pre_save"]}, {"file": "denorm/denorms.py", "symbols": ["AggregateDenorm.get_triggers", "BaseCacheKeyDenorm"]}]}
{"id": "C120", "title": "A saved instance shows ordinary columns, callbacks and counts over other tables as stored", "statement": "After save() the ordinary columns, the callback columns and the counts and sums over other tables shown by the instance are those stored, and the whole instance is the stored row when no chain of trigger updates leads back to its table.", "quantifier": "every schema, database, instance (also stale ones), new or existing row, backend", "why_tests_cant": "each test saves few instances and reloads them before looking", "anchors": [{"file": "denorm/fields.py", "symbols": ["denormalized", "AggregateField.pre_save", "CacheKeyField.pre_save"]}, {"file": "denorm/denorms.py", "symbols": ["AggregateDenorm.get_triggers", "BaseCacheKeyDenorm"]}]}
{"id": "C121", "title": "The fields of the project's test application say what they promise", "statement": "In the test application, after any operations and a flush that returns, forum titles, author names, response counts, forum paths, the forums of attachments, full names and comment texts are what models.py says they should be, no marker is left, and the post count (and off SQLite the filtered count and sum) is exact at any time.", "quantifier": "every history of saves, raw inserts, updates and deletes from empty tables in which no forum lies in itself and no post responds to itself; every backend; every order of markers", "why_tests_cant": "tests.py follows about thirty fixed scripts; the theorem covers every script", "anchors": [{"file": "test_denorm_project/test_app/models.py", "symbols": ["Forum", "Post", "Attachment", "Member", "SkipComment", "Team", "FilterSumModel", "FilterCountModel"]}, {"file": "test_denorm_project/test_app/tests.py", "symbols": ["TestDenormalisation"]}, {"file": "denorm/denorms.py", "symbols": ["flush"]}]}
{"id": "C122", "title": "Every declared dependency is registered for its field", "statement": "Every @depend_on_related applied in a class body is registered for the field it decorates, and a field registers nothing else; any function can be cached.", "quantifier": "every class body made of function definitions, @depend_on_related, @denormalized and @cached, in any order and with shared functions", "why_tests_cant": "the test models always put @denormalized on top and use each function once; a wrong order raises nothing", "anchors": [{"file": "denorm/dependencies.py", "symbols": ["make_depend_decorator"]}, {"file": "denorm/fields.py", "symbols": ["denormalized", "CachedField", "cached"]}]}
{"id": "C123", "title": "A decorated function registers the dependencies below the field decorator", "statement": "The field made of a function that is decorated in one place registers exactly the dependencies declared below @denormalized or @cached, the nearest first, whatever else the class body does; with shared functions a denormalized field registers everything declared on its function and a cached field what was declared before it; making it fails only for @cached without dependencies.", "quantifier": "every class body, every list of dependencies below and above", "why_tests_cant": "the order and completeness of registered dependencies is not looked at by any test", "anchors": [{"file": "denorm/dependencies.py", "symbols": ["make_depend_decorator"]}, {"file": "denorm/fields.py", "symbols": ["denormalized", "CachedField", "cached"]}]}
{"id": "C124", "title": "South's and Django's migrations make the same table of markers", "statement": "Migrating from nothing with South or with Django gives the same table, without a unique constraint; South's second migration keeps every marker whatever happened before it; on the table so made every INSERT of a trigger adds all its rows.", "quantifier": "every backend, every history of INSERT and DELETE statements on the table", "why_tests_cant": "the tests create the table once, with Django's migration, and South is not installed", "anchors": [{"file": "denorm/migrations/0001_initial.py", "symbols": ["Migration"]}, {"file": "denorm/south_migrations/0001_initial.py", "symbols": ["Migration"]}, {"file": "denorm/south_migrations/0002_auto__chg_field_dirtyinstance_object_id.py", "symbols": ["Migration"]}, {"file": "denorm/db/sqlite3/triggers.py", "symbols": ["TriggerActionInsert"]}, {"file": "denorm/db/mysql/triggers.py", "symbols": ["TriggerActionInsert"]}, {"file": "denorm/db/postgresql/triggers.py", "symbols": ["TriggerActionInsert"]}]}
{"id": "C125", "title": "The unique constraint of South's first migration makes no difference", "statement": "South's second migration can be undone, and with the unique constraint of the first the triggers mark the same rows.", "quantifier": "every backend, every history of INSERT and DELETE statements on the table", "why_tests_cant": "no test goes back to the constraint, and the lost markers need a statement that marks several rows", "anchors": [{"file": "denorm/migrations/0001_initial.py", "symbols": ["Migration"]}, {"file": "denorm/south_migrations/0001_initial.py", "symbols": ["Migration"]}, {"file": "denorm/south_migrations/0002_auto__chg_field_dirtyinstance_object_id.py", "symbols": ["Migration"]}, {"file": "denorm/db/sqlite3/triggers.py", "symbols": ["TriggerActionInsert"]}, {"file": "denorm/db/mysql/triggers.py", "symbols": ["TriggerActionInsert"]}, {"file": "denorm/db/postgresql/triggers.py", "symbols": ["TriggerActionInsert"]}]}
{"id": "C126", "title": "A CountField over a ManyToManyField counts the linked rows (Django 1.8)", "statement": "Under Django 1.8 the count over the far side's manager of a ManyToManyField is the number of linked rows, and rows can be linked and unlinked.", "quantifier": "every backend, every history of statements on the two tables and the table of links", "why_tests_cant": "the test application has no aggregate over a ManyToManyField", "anchors": [{"file": "denorm/denorms.py", "symbols": ["AggregateDenorm.get_related_where", "AggregateDenorm.m2m_triggers", "AggregateDenorm.get_triggers", "SumDenorm.get_related_increment_value", "SumDenorm.get_related_decrement_value", "CountDenorm.get_related_increment_value", "CountDenorm.get_related_decrement_value"]}]}
{"id": "C127", "title": "A SumField over a ManyToManyField is the sum of the linked rows (Django 1.8)", "statement": "Under Django 1.8 the sum over the far side's manager of a ManyToManyField is the sum of the linked rows.", "quantifier": "every backend, every history of statements on the two tables and the table of links", "why_tests_cant": "the test application has no aggregate over a ManyToManyField", "anchors": [{"file": "denorm/denorms.py", "symbols": ["AggregateDenorm.get_related_where", "AggregateDenorm.m2m_triggers", "AggregateDenorm.get_triggers", "SumDenorm.get_related_increment_value", "SumDenorm.get_related_decrement_value", "CountDenorm.get_related_increment_value", "CountDenorm.get_related_decrement_value"]}]}
{"id": "C128", "title": "Which aggregates over a ManyToManyField can be installed (Django 1.8)", "statement": "Under Django 1.8 the triggers of an aggregate over a ManyToManyField can be made exactly if the manager is the far side's, a database alias is given and every field that is filtered by is a field of both models; otherwise FieldError, AttributeError or ValueError is raised.", "quantifier": "every kind of aggregate, every filter, all fields of the two models", "why_tests_cant": "the test application has no aggregate over a ManyToManyField", "anchors": [{"file": "denorm/denorms.py", "symbols": ["AggregateDenorm.get_related_where", "AggregateDenorm.m2m_triggers", "AggregateDenorm.get_triggers", "SumDenorm.get_related_increment_value", "SumDenorm.get_related_decrement_value", "CountDenorm.get_related_increment_value", "CountDenorm.get_related_decrement_value"]}]}
{"id": "C129", "title": "Cache keys follow generic relations whose object ids are texts", "statement": "If a GenericForeignKey keeps the key of its target in a text column, rows can be written and every write of a related row redraws the key of its target.", "quantifier": "every backend, schema, state and statement that writes one row", "why_tests_cant": "the object ids of the test application are integers", "anchors": [{"file": "denorm/dependencies.py", "symbols": ["CacheKeyDependOnRelated.get_triggers"]}]}
{"id": "C130", "title": "Types of columns make no difference to the triggers otherwise", "statement": "If keys and the columns referring to them are integers, every statement has the same effect whether or not the database distinguishes the types of the columns that triggers compare, also if the object ids that callback fields depend on are texts.", "quantifier": "every backend, schema, state and statement", "why_tests_cant": "all schemas and states", "anchors": [{"file": "denorm/dependencies.py", "symbols": ["CacheKeyDependOnRelated.get_triggers"]}, {"file": "denorm/dependencies.py", "symbols": ["CallbackDependOnRelated.get_triggers"]}, {"file": "denorm/denorms.py", "symbols": ["AggregateDenorm.get_triggers"]}]}
{"id": "C131", "title": "A SumField over a DecimalField is the sum of the values", "statement": "If the summed column is a DecimalField, the SumField is the sum of the values, rounded if the database rounds, and rows can be written whenever the sums before and after fit into the column.", "quantifier": "every backend, number of decimal places and history of statements", "why_tests_cant": "the test application sums integers only; the error grows with the number of statements", "anchors": [{"file": "denorm/fields.py", "symbols": ["SumField", "AggregateField.pre_save"]}, {"file": "denorm/denorms.py", "symbols": ["SumDenorm.get_increment_value", "SumDenorm.get_decrement_value", "AggregateDenorm.get_triggers"]}]}
{"id": "C132", "title": "What a SumField over a DecimalField holds", "statement": "On PostgreSQL and MySQL it is the sum of the rounded values plus one for every time a value ending in one half was taken off; on SQLite it is the sum, less than one below it for every save of the parent; with whole numbers it is the sum everywhere. On PostgreSQL values that are not negative never violate the check.", "quantifier": "every number of decimal places and history of statements", "why_tests_cant": "all histories", "anchors": [{"file": "denorm/fields.py", "symbols": ["SumField", "AggregateField.pre_save"]}, {"file": "denorm/denorms.py", "symbols": ["SumDenorm.get_increment_value", "SumDenorm.get_decrement_value", "AggregateDenorm.get_triggers"]}]}
{"id": "C133", "title": "The filter of an aggregate may follow foreign keys", "statement": "If the filter of a CountField follows a foreign key of the counted model, the field is the number of related rows that match it, and the rows of all models can be written.", "quantifier": "every filter and history of statements", "why_tests_cant": "all filters of the test application are about columns of the counted model", "anchors": [{"file": "denorm/denorms.py", "symbols": ["TriggerFilterQuery", "TriggerWhereNode", "AggregateDenorm.get_triggers"]}]}
{"id": "C134", "title": "Filters on columns that do not change count right", "statement": "With lookups on columns of the counted model, and with lookups on columns of the aggregate's own model whose truth no statement changes, the CountField is the number of related rows that match, the triggers never violate its check, and statements that keep the foreign keys write their row.", "quantifier": "every filter and history of statements", "why_tests_cant": "all histories", "anchors": [{"file": "denorm/denorms.py", "symbols": ["TriggerFilterQuery", "TriggerWhereNode", "AggregateDenorm.get_triggers"]}]}
{"id": "C135", "title": "The content types may be numbered anew", "statement": "If the content types get other numbers after denorm_init, written rows are still marked and flush() makes every callback field right.", "quantifier": "every schema, numbering and history", "why_tests_cant": "the tests install the triggers in the same database run that creates the content types", "anchors": [{"file": "denorm/denorms.py", "symbols": ["CallbackDenorm.get_triggers"]}, {"file": "denorm/dependencies.py", "symbols": ["CallbackDependOnRelated.get_triggers"]}]}
{"id": "C136", "title": "The triggers of aggregates do not make transactions lock each other out", "statement": "Concurrent transactions that write different rows of the counted model all commit, as they do without the triggers.", "quantifier": "every backend with row locks, set of transactions and interleaving", "why_tests_cant": "the tests use one connection; a deadlock needs two transactions at particular points", "anchors": [{"file": "denorm/denorms.py", "symbols": ["AggregateDenorm.get_triggers"]}, {"file": "denorm/db/postgresql/triggers.py", "symbols": ["TriggerActionUpdate", "Trigger.sql"]}, {"file": "denorm/db/mysql/triggers.py", "symbols": ["TriggerActionUpdate", "Trigger.sql"]}]}
{"id": "C137", "title": "Transactions that come to the parents in order always commit", "statement": "On PostgreSQL every run of transactions that write different rows of the counted model and come to the parents in ascending order ends with all of them committed; on MySQL if each first saves all parents it comes to in ascending order, or neither inserts nor moves rows; on SQLite always.", "quantifier": "every set of transactions and interleaving", "why_tests_cant": "all interleavings", "anchors": [{"file": "denorm/denorms.py", "symbols": ["AggregateDenorm.get_triggers"]}, {"file": "denorm/db/postgresql/triggers.py", "symbols": ["TriggerActionUpdate", "Trigger.sql"]}, {"file": "denorm/db/mysql/triggers.py", "symbols": ["TriggerActionUpdate", "Trigger.sql"]}]}
{"id": "C138", "title": "Markers can always be inserted", "statement": "A trigger that succeeds leaves its markers, and while flush() keeps the table of markers small rows can be marked for ever.", "quantifier": "every backend and history of marking, flushing and restoring", "why_tests_cant": "needs two thousand million markers, or a table of markers restored from a dump", "anchors": [{"file": "denorm/models.py", "symbols": ["DirtyInstance"]}, {"file": "denorm/db/postgresql/triggers.py", "symbols": ["TriggerActionInsert"]}, {"file": "denorm/db/mysql/triggers.py", "symbols": ["TriggerActionInsert"]}, {"file": "denorm/db/sqlite3/triggers.py", "symbols": ["TriggerActionInsert"]}]}
{"id": "C139", "title": "Markers are inserted while there are ids left", "statement": "While the next id is in range, and on PostgreSQL no markers were restored without setting the sequence anew, the triggers add exactly their markers; with triggers and flush() alone that holds for the first 2147483647 markers. On SQLite, and on PostgreSQL without restored markers, a trigger that can not leave its markers raises.", "quantifier": "every backend and history", "why_tests_cant": "all histories", "anchors": [{"file": "denorm/models.py", "symbols": ["DirtyInstance"]}, {"file": "denorm/db/postgresql/triggers.py", "symbols": ["TriggerActionInsert"]}, {"file": "denorm/db/mysql/triggers.py", "symbols": ["TriggerActionInsert"]}, {"file": "denorm/db/sqlite3/triggers.py", "symbols": ["TriggerActionInsert"]}]}
{"id": "C140", "title": "The daemon blocks writers only while it flushes", "statement": "While the daemon sleeps it holds no locks, so that other transactions write at once.", "quantifier": "every interval, history of rounds and backend", "why_tests_cant": "needs a second connection that writes while the daemon sleeps", "anchors": [{"file": "denorm/management/commands/denorm_daemon.py", "symbols": ["commit_manually", "Command"]}, {"file": "denorm/denorms.py", "symbols": ["flush"]}]}
{"id": "C141", "title": "The daemon blocks a writer for at most one interval", "statement": "A writer waits at most until the commit of the running round, only for rows which that round has written (on SQLite for any row if it has written one), never if the round found no markers; after the commit nothing is locked, and with an interval of at most 5 seconds no writer on SQLite gives up.", "quantifier": "every interval, history of rounds, backend, row and time", "why_tests_cant": "all times and histories", "anchors": [{"file": "denorm/management/commands/denorm_daemon.py", "symbols": ["commit_manually", "Command"]}, {"file": "denorm/denorms.py", "symbols": ["flush"]}]}
{"id": "C142", "title": "Rows may be written by any SQL statement", "statement": "Whatever SQL statement adds or removes rows (TRUNCATE, REPLACE, INSERT IGNORE included), counts stay right and callback fields are right after the next flush().", "quantifier": "every backend and history of statements", "why_tests_cant": "the tests write rows through the ORM", "anchors": [{"file": "denorm/db/postgresql/triggers.py", "symbols": ["Trigger"]}, {"file": "denorm/db/mysql/triggers.py", "symbols": ["Trigger"]}, {"file": "denorm/db/sqlite3/triggers.py", "symbols": ["Trigger"]}, {"file": "denorm/denorms.py", "symbols": ["AggregateDenorm", "flush"]}]}
{"id": "C143", "title": "Statements that fire the triggers keep everything right", "statement": "INSERT IGNORE always keeps counts and callback fields right, so does REPLACE on MySQL and, with recursive_triggers, on SQLite, emptying a table on SQLite, and truncating all tables; otherwise a count is too high by exactly the rows that went unnoticed, and denorm_rebuild repairs the callback fields.", "quantifier": "every backend and history of statements", "why_tests_cant": "all histories", "anchors": [{"file": "denorm/db/postgresql/triggers.py", "symbols": ["Trigger"]}, {"file": "denorm/db/mysql/triggers.py", "symbols": ["Trigger"]}, {"file": "denorm/db/sqlite3/triggers.py", "symbols": ["Trigger"]}, {"file": "denorm/denorms.py", "symbols": ["AggregateDenorm", "flush"]}]}
{"id": "C144", "title": "A statement writes its rows and triggers only what they keep up", "statement": "An INSERT, UPDATE or DELETE that succeeds has added, changed or removed exactly the rows it names, as if there were no triggers, except that columns of aggregates and cache keys may change in any row.", "quantifier": "every schema, backend, database and statement", "why_tests_cant": "all schemas and statements", "anchors": [{"file": "denorm/denorms.py", "symbols": ["AggregateDenorm", "CountDenorm", "SumDenorm", "BaseCacheKeyDenorm"]}, {"file": "denorm/dependencies.py", "symbols": ["CacheKeyDependOnRelated", "CallbackDependOnRelated"]}]}
{"id": "C145", "title": "Saving draws a new cache key", "statement": "When save() returns, for a new or a stored instance, every cache key of the stored row was drawn during the save or later, so it is none that was drawn before if random numbers do not repeat; with update_fields this holds of the keys that are named.", "quantifier": "every schema, model, instance, database and backend", "why_tests_cant": "all schemas, instances and databases; a test sees only that two numbers differ", "anchors": [{"file": "denorm/fields.py", "symbols": ["CacheKeyField"]}, {"file": "denorm/denorms.py", "symbols": ["BaseCacheKeyDenorm"]}, {"file": "denorm/dependencies.py", "symbols": ["CacheKeyDependOnRelated"]}]}
{"id": "C146", "title": "Keys of different rows are different draws", "statement": "If rows of models with a CacheKeyField are created by save() and the application assigns to no key itself, then through any history of saves, statements, flushes and rebuilds every key of every row of every model is a drawn number and no two are the same draw.", "quantifier": "every schema, history and backend", "why_tests_cant": "all histories; a wrong draw that is shared by two rows shows only if both are read through the cache", "anchors": [{"file": "denorm/fields.py", "symbols": ["CacheKeyField"]}, {"file": "denorm/denorms.py", "symbols": ["BaseCacheKeyDenorm"]}, {"file": "denorm/dependencies.py", "symbols": ["CacheKeyDependOnRelated"]}]}
{"id": "C147", "title": "flush and rebuildall draw new cache keys", "statement": "When flush() has ended normally, the cache keys of every existing row that was marked when it began were drawn anew; when rebuildall() has ended normally, so were those of every row of the selected models that its queryset shows. Rows whose instance is false are left out.", "quantifier": "every schema, database, order of the markers, arguments of rebuildall and backend", "why_tests_cant": "all databases and orders of processing; a key kept by mistake shows only as a stale cached value", "anchors": [{"file": "denorm/denorms.py", "symbols": ["flush", "rebuildall", "BaseCacheKeyDenorm"]}, {"file": "denorm/fields.py", "symbols": ["CacheKeyField"]}]}
{"id": "C148", "title": "A cache key that was given up never comes back", "statement": "Under the conditions of C146, and if random numbers do not repeat, a key once held by a row is never held by another row, even after the row was deleted, and once the row no longer holds it no row ever does again.", "quantifier": "every schema, history and backend", "why_tests_cant": "all histories; a test cannot show that a number never returns", "anchors": [{"file": "denorm/fields.py", "symbols": ["CacheKeyField"]}, {"file": "denorm/denorms.py", "symbols": ["BaseCacheKeyDenorm"]}, {"file": "denorm/dependencies.py", "symbols": ["CacheKeyDependOnRelated"]}]}
{"id": "C149", "title": "Cached attributes show values of their own row under its present key", "statement": "Whatever saves, statements, flushes, rebuilds, reads and evictions came before, the value of a @cached attribute of a row was returned by the function for this row at some earlier moment since which the row has kept its key; it is the current value if every step that changes what the function returns for the row redraws its key, and can be outdated otherwise, e.g. after an UPDATE of the row itself.", "quantifier": "every schema, function, history, cache content and backend", "why_tests_cant": "all interleavings of database steps, reads and evictions", "anchors": [{"file": "denorm/fields.py", "symbols": ["CacheKeyField", "CacheWrapper", "CachedField"]}, {"file": "denorm/denorms.py", "symbols": ["BaseCacheKeyDenorm"]}, {"file": "denorm/dependencies.py", "symbols": ["CacheKeyDependOnRelated"]}]}
{"id": "C150", "title": "Cached attributes are current after statements on related rows", "statement": "If a @cached function looks only at watched columns of rows reached through its declared dependencies (any kind but the target of a generic foreign key), then after any INSERT, UPDATE and DELETE statements that leave the row in place and do not assign its key or the foreign keys followed, reading the attribute gives the current value of the function, without a flush.", "quantifier": "every schema, function, earlier history, sequence of statements and backend", "why_tests_cant": "all functions, statements and cache contents", "anchors": [{"file": "denorm/fields.py", "symbols": ["CacheWrapper", "CachedField"]}, {"file": "denorm/dependencies.py", "symbols": ["CacheKeyDependOnRelated"]}]}
{"id": "C151", "title": "Cached attributes are current after the row was saved, flushed or rebuilt", "statement": "Whatever the function reads and whatever the cache held before: after a successful save() of a row, after a flush() that ended normally and began with the row marked, and after a rebuildall() that ended normally and selected it, reading a @cached attribute of the row gives the current value of the function, also after further reads and evictions.", "quantifier": "every schema, function, earlier history, cache content and backend", "why_tests_cant": "all functions, histories and cache contents", "anchors": [{"file": "denorm/fields.py", "symbols": ["CacheWrapper", "CachedField", "CacheKeyField"]}, {"file": "denorm/denorms.py", "symbols": ["flush", "rebuildall"]}]}
