"""Regenerates ../properties.jsonl. Run: python3 tools/gen_properties.py"""
import json, os
CH="opsqueue/src/common/chunk.rs"; SU="opsqueue/src/common/submission.rs"; CM="opsqueue/src/common/mod.rs"
DB="opsqueue/src/db/mod.rs"; ST="opsqueue/src/consumer/strategy.rs"; DI="opsqueue/src/consumer/dispatcher/mod.rs"
RE="opsqueue/src/consumer/dispatcher/reserver.rs"; ME="opsqueue/src/consumer/dispatcher/metastate.rs"
CO="opsqueue/src/consumer/server/conn.rs"; SV="opsqueue/src/consumer/server/mod.rs"; SS="opsqueue/src/consumer/server/state.rs"
CL="opsqueue/src/consumer/client.rs"; PS="opsqueue/src/producer/server.rs"; PC="opsqueue/src/producer/client.rs"
OS="opsqueue/src/object_store/mod.rs"; PP="libs/opsqueue_python/src/producer.rs"; PK="libs/opsqueue_python/src/consumer.rs"
PM="libs/opsqueue_python/src/common.rs"; PY="libs/opsqueue_python/python/opsqueue/producer.py"
MI="opsqueue/migrations"
P=[]
def p(title, statement, quantifier, why, anchors):
    P.append(dict(id="C%02d"%(len(P)+1), title=title, statement=statement, quantifier=quantifier,
                  why_tests_cant=why, anchors=[{"file":a[0],"symbols":list(a[1:])} for a in anchors]))

p("No chunk is lost or invented while a submission is in progress",
  "For a submission reported in progress, the number of its chunks still waiting to be worked on plus the reported number of completed chunks equals its reported total, every waiting chunk has an index below the total, and the reported number of completed chunks never exceeds the total.",
  "every history of inserts, completions, failures, cancellations and cleanups, with any arguments, timestamps and retry limits",
  "Needs an invariant over all interleavings of operations on all submissions; tests only sample a few histories.",
  [(SU,"insert_submission_from_chunks","maybe_complete_submission","cancel_submission"),(CH,"complete_chunk","retry_or_fail_chunk","skip_remaining_chunks")])
p("A submission has one state at a time",
  "A submission id that was accepted is, at every moment, in exactly one of the states in progress, completed, failed, cancelled or removed-by-cleanup, and the status query reports that state.",
  "every history, every submission id",
  "Being in two states needs an unlucky order of operations; no finite set of tests excludes all orders.",
  [(SU,"submission_status","complete_submission_raw","fail_submission_raw","cancel_submission_raw")])
p("Completed means every chunk was acknowledged, and conversely",
  "A submission is reported completed only if each chunk index below its total was successfully completed once in its history, and a non-empty submission becomes completed by the very operation that completes its last chunk.",
  "every history and every submission",
  "The claim relates the state to the whole past, for any number of chunks and any order of completions.",
  [(CH,"complete_chunk","complete_chunk_raw"),(SU,"maybe_complete_submission")])
p("Terminal states are permanent",
  "Once a submission is reported completed, failed or cancelled, no later insert, completion, failure report or cancellation changes the reported record; only cleanup can remove it.",
  "every history after the terminal state was reached",
  "Quantifies over every future operation sequence, including late messages of slow consumers.",
  [(CH,"complete_chunk","retry_or_fail_chunk"),(SU,"cancel_submission")])
p("Completing a chunk is idempotent",
  "Completing a chunk that is not waiting (already completed, failed, skipped, or never existed) leaves all stored data unchanged, so a duplicated completion message can never make the completed count exceed the number of distinct completed chunks.",
  "every reachable database, every chunk id and output",
  "Duplicated and late messages can arrive at any time in any state.",
  [(CH,"complete_chunk","complete_chunk_raw")])
p("Retry limit",
  "Reporting a failure for a waiting chunk increments its retry counter by one and leaves it waiting while the new counter is below the configured maximum; the report that makes the counter reach the maximum fails the whole submission, and no earlier report does.",
  "every reachable database, every retry maximum, every number of failure reports",
  "The boundary must be right for every limit including 0 and 1 and every interleaving with other chunks.",
  [(CH,"retry_or_fail_chunk")])
p("What a permanent failure leaves behind",
  "When a submission fails, its status names the chunk that failed with the reported failure text, every other chunk that was still waiting is marked skipped, completed chunks stay completed, and none of its chunks is waiting any more.",
  "every reachable database and every permanently failing chunk",
  "Ranges over all numbers of remaining chunks and all prior progress.",
  [(SU,"fail_submission_notx","fail_submission_raw"),(CH,"move_chunk_to_failed_chunks","skip_remaining_chunks")])
p("Cancellation decision table",
  "Cancelling succeeds (HTTP 200) exactly when the submission is in progress, answers not-found (404) exactly when the id is unknown, and answers conflict (409) carrying the current status when it is completed, failed or cancelled; it never panics, and only the success case changes data, after which none of its chunks is waiting.",
  "every reachable database and every id",
  "The panic branch can only be excluded by an invariant over all reachable databases.",
  [(SU,"cancel_submission","cancel_submission_notx"),(PS,"cancel_submission")])
p("Operations on one submission do not touch another",
  "Inserting, completing, failing or cancelling for one submission id leaves status, chunks, metadata and lookups by strategic metadata of every other submission id unchanged, and the answers to lookups by every prefix other than the prefix of the submission concerned.",
  "every database, every pair of distinct ids, every operation",
  "Needs all pairs of submissions in all states.",
  [(CH,"complete_chunk","retry_or_fail_chunk","skip_remaining_chunks"),(SU,"insert_submission","cancel_submission")])
p("Insert is all-or-nothing at every crash point",
  "If the server dies at any moment while inserting a submission, then after restart either nothing of the submission is stored, or the submission, all its strategic metadata and all its chunks with their contents are.",
  "every submission (any number of chunks and metadata) and every crash point between two SQL statements",
  "Tests cannot crash at every statement of inserts of every size.",
  [(SU,"insert_submission","insert_submission_raw","insert_submission_metadata_raw"),(CH,"insert_many_chunks"),(DB,"transaction")])
p("Complete, fail, cancel and cleanup are all-or-nothing at every crash point",
  "If the server dies at any moment during one of these operations, after restart the stored data is either exactly what it was before the operation or exactly what the finished operation leaves; and if the operation reports a database error nothing has changed.",
  "every database, every operation and argument, every crash point",
  "Crash points multiply with states; tests cover none of them.",
  [(CH,"complete_chunk","retry_or_fail_chunk"),(SU,"cancel_submission","cleanup_old"),(DB,"transaction")])
p("A submission without chunks completes",
  "After inserting a submission with zero chunks its status is completed, with no consumer involved, whatever happens in between.",
  "every empty submission, every crash point during the insert",
  "The window between the insert and its completion is only visible to a crash at one precise point.",
  [(SU,"insert_submission_from_chunks","maybe_complete_submission")])
p("Status never misses an existing submission",
  "A status query that runs while other clients change the database reports, for any submission that existed when the query began and is not removed by cleanup meanwhile, a state the submission really had at some moment during the query; it never reports it as unknown.",
  "every interleaving of committed changes between the reads of one status query",
  "The query reads several tables at different moments; the schedule space is unbounded.",
  [(SU,"submission_status"),(PS,"submission_status")])
p("Cleanup removes exactly the old finished submissions",
  "Cleanup removes the finished submissions whose finishing time is before the cutoff together with their metadata, keeps all the others, and leaves submissions in progress untouched.",
  "every reachable database and every cutoff",
  "Depends on all timestamps relative to the cutoff and on chunks of all ages.",
  [(SU,"cleanup_old","periodically_cleanup_old")])
p("The status of a failed submission can be read",
  "For every submission reported failed, the status query succeeds and includes the failed chunk, also after any number of cleanups.",
  "every history including cleanups with any cutoff, every clock behaviour",
  "Depends on the order of two clock readings and a cutoff falling between them.",
  [(SU,"submission_status","fail_submission_notx","cleanup_old"),(CH,"get_chunk_failed")])
p("Lookup by strategic metadata is exact",
  "The lookup returns, in increasing order and without duplicates, exactly the ids of the submissions in progress that carry all the requested key/value pairs, and reports 'too many' exactly when there are more than the configured maximum.",
  "every database, every set of pairs (including the empty one), every maximum",
  "Set equality for all databases and boundaries of the limit.",
  [(SU,"lookup_ids_by_strategic_metadata"),(PS,"lookup_submission_ids_by_strategic_metadata")])
p("Lookup by prefix finds the submission",
  "A submission inserted with an object-store prefix is found by that prefix for as long as the status query knows the submission.",
  "every history, every submission with a unique prefix",
  "Must hold in every lifecycle state, including states no test inserts.",
  [(SU,"lookup_id_by_prefix"),(PS,"lookup_submission_id_by_prefix")])
p("Submission attributes survive the submission's lifecycle",
  "The total number of chunks, prefix, user metadata, strategic metadata, chunk size and tracing carrier given at insert are reported unchanged in every later status.",
  "every submission and every later history",
  "Every attribute in every state after any history.",
  [(SU,"submission_status","complete_submission_raw","fail_submission_raw","cancel_submission_raw")])
p("Completion errors are reported",
  "Completing a chunk reports success to the caller only if the chunk was recorded as completed.",
  "every database, every chunk id",
  "Every failing database state must be considered.",
  [(CH,"complete_chunk")])
p("Counters are exact",
  "The reported numbers of submissions in progress, completed and failed equal the numbers of submissions whose status query reports that state, and the reported number of waiting chunks equals the sum over submissions in progress of total minus completed.",
  "every history",
  "Equality must hold after every history.",
  [(SU,"count_submissions","count_submissions_completed","count_submissions_failed"),(CH,"count_chunks")])
p("Every chunk of an insert is stored once, in order",
  "Inserting a submission of any number of chunks stores exactly one waiting chunk per position, carrying the content given for that position and zero retries, although rows are written in batches.",
  "every list of chunk contents, in particular lengths around multiples of the batch size",
  "All lengths and batch boundaries.",
  [(CH,"insert_many_chunks"),(SU,"insert_submission_from_chunks","from_vec")])
p("Metadata migration keeps one value per key",
  "The schema upgrade that introduces one value per strategic-metadata key keeps every (submission, key) that had a value, with the largest of its values, and adds none.",
  "every old metadata table",
  "All tables with any duplicates.",
  [(MI,"20260717143000")])
p("Every strategy offers every available chunk exactly once",
  "For every strategy, the sequence of chunks offered to a reserving consumer is a permutation of the waiting chunks that are not reserved, so no chunk is starved or offered twice by one request.",
  "every database, every strategy including nested preferences, every random offset, every reservation state",
  "Nesting depth, random offset and database are unbounded.",
  [(ST,"build_query","push_random_order_query"),(DI,"fetch_and_reserve_chunks")])
p("Oldest and newest order",
  "With the oldest (newest) strategy a chunk of a submission is never offered before an available chunk of an older (newer) submission.",
  "every database and reservation state",
  "All databases.",
  [(ST,"build_query")])
p("Random strategy cuts the deck",
  "The random strategy offers first the chunks whose pseudo-random position is at or after the drawn offset and then the others; within one submission consecutive chunk indexes get pairwise different positions (up to 65536 of them), so the order depends on the offset only by where the cycle starts.",
  "every offset and every database",
  "All 65536 offsets times all databases.",
  [(ST,"push_random_order_query"),(MI,"20250803174028")])
p("PreferDistinct prefers the least busy",
  "With nested distinct preferences, chunks are offered submission by submission in lexicographic order of the in-flight counts of the submission's values for the preferred keys (outermost key first, submissions without a counted value first), and ties keep the order of the innermost strategy (for keys without NUL characters).",
  "every database, every in-flight count table, every nesting depth",
  "All tables of counts and all nestings.",
  [(ST,"build_query_snippet_returning_submission_ids","meta_keys"),(ME,"to_json")])
p("A reserve request gets what is available, up to its limit",
  "A reserve request with limit n on a quiet server returns min(n, number of available chunks) distinct chunks that were waiting and unreserved, in strategy order, with the right submission data, and afterwards exactly these are newly reserved; limit 0 is refused and changes nothing.",
  "every server state, strategy and limit",
  "All states and limits.",
  [(DI,"fetch_and_reserve_chunks"),(SS,"fetch_and_reserve_chunks")])
p("The reserver is exclusive",
  "After a key has been reserved, no other reserve of that key succeeds until the reservation is finished, its delayed removal runs, or its expiration time has passed.",
  "every sequence of reserver calls and clock advances",
  "Unbounded call sequences and times.",
  [(RE,"try_reserve","finish_reservation","finish_reservation_sync","run_pending_tasks")])
p("Reservations expire and the holder is told",
  "A reservation is gone once its expiration time has passed (it never blocks a chunk longer than the configured duration), and the holder of a reservation that was not finished before its expiration is notified at most once, and exactly once when the maintenance task runs after the expiration.",
  "every sequence of reserver calls and clock advances",
  "Unbounded sequences and times.",
  [(RE,"new","run_pending_tasks")])
p("A completed chunk is not handed out again by a slow reader",
  "A chunk completed by the consumer holding its reservation is not handed to another consumer by a reserve request whose view of the database was taken before the completion, provided the request reaches the chunk within one second of the completion and the reservation neither expires nor is dropped in that second.",
  "every schedule of a reserve request, a completion and clock advances",
  "Needs a race between a read cursor and a completion at every point.",
  [(RE,"finish_reservation","purge_pending_removals"),(SV,"handle_message")])
p("In-flight counters are a bag",
  "After any sequence of increments and decrements in which no prefix decrements a value more often than it was incremented, the counter of each value equals increments minus decrements, entries with count zero are absent, and a fully balanced sequence leaves the table empty; unmatched decrements never make a counter negative.",
  "every sequence of increments and decrements on any keys and values",
  "All sequences; the existing test checks two.",
  [(ME,"increment","decrement","is_empty","get")])
p("In-flight counts equal the chunks being worked on",
  "The in-flight count of a strategic-metadata value equals the number of currently reserved chunks of submissions carrying that value.",
  "every schedule of reserving, completing, failing, disconnecting and expiring",
  "Only unlucky schedules break it.",
  [(DI,"join_chunk_with_submission_info","finish_reservation","finish_reservations_sync"),(SS,"drop")])
p("Two consumers never work on the same chunk",
  "While a connected consumer holds a chunk that it was given, has not finished and whose reservation has not expired, no other consumer is given that chunk.",
  "every schedule of well-behaved consumers, expirations and disconnects",
  "Interleavings of several connections, the completer and timers.",
  [(DI,"fetch_and_reserve_chunks","finish_reservation"),(SV,"handle_message"),(SS,"drop"),(CL,"background_task")])
p("Two consumers never work on the same chunk when nothing expires",
  "As long as every consumer finishes its chunks before their reservations expire and only reports chunks it holds, no two connected consumers hold the same chunk.",
  "every schedule of reserve requests (interleaved chunk by chunk), completions, failures, disconnects and maintenance",
  "Interleavings of any number of connections.",
  [(DI,"fetch_and_reserve_chunks"),(SV,"handle_message"),(SS,"drop")])
p("A disconnect returns the consumer's chunks",
  "When a consumer connection ends, none of the chunks it had been given remains reserved on its account, so each that is still waiting is offered by the next request; the database and other consumers' reservations are unchanged.",
  "every server state and every consumer",
  "All states of all other consumers.",
  [(SS,"drop"),(DI,"finish_reservations_sync")])
p("A reserve request never brings down the connection",
  "A reserve request always yields a response (chunks, wait, or a usage error), whatever other clients do at the same time, and chunks it reserved are never left reserved without having been handed out.",
  "every interleaving of a reserve request with cancellations and permanent failures",
  "Needs a cancellation exactly between two reads.",
  [(DI,"join_chunk_with_submission_info"),(CO,"handle_incoming_client_message")])
p("A waiting consumer is woken by new work",
  "A consumer whose reserve request found no work gets work without asking again as soon as some chunk becomes available.",
  "every interleaving of the request, inserts, retries and disconnects",
  "The lost-wake-up window is between two instructions.",
  [(CO,"handle_incoming_client_message"),(PS,"insert_submission")])
p("Heartbeats",
  "A consumer connection whose peer sends at least one message between any m+1 successive heartbeat ticks is never closed for missed heartbeats, and one whose peer stays silent is closed at the (m+2)-nd tick after its last message, m being the configured maximum of missable heartbeats; the same holds for the client's own check.",
  "every sequence of ticks and messages, every m",
  "All sequences and thresholds.",
  [(CO,"beat_heart","handle_incoming_msg"),(CL,"background_task")])
p("Responses reach the request that asked",
  "Each response is delivered to the request with its nonce and to no other, pending requests have pairwise different nonces, and a fire-and-forget message never takes the nonce of a pending request.",
  "every sequence of requests, notifications, responses and connection losses on a connection",
  "Interleavings of concurrent requests on one connection.",
  [(CL,"next_nonce_with_oneshot","send","clear","sync_request","async_request")])
p("Success wins over a later expiry notice",
  "If a consumer reported a chunk complete before it answered the expiry notice of the same chunk, the chunk is recorded completed and its retry counter is not increased.",
  "every server state and every other message in between",
  "Race between the expiry notice and the completion.",
  [(CL,"background_task"),(SV,"handle_message")])
p("A restart loses no work",
  "If the server process dies at any moment and is restarted on the same database, every chunk that was waiting is available to reserve, and every completion that was recorded stays recorded.",
  "every server state and crash point",
  "Crash at every point.",
  [(DI,"new"),(DB,"transaction")])
p("Work gets done",
  "If consumers keep reserving and completing, every non-empty submission that is neither failed nor cancelled becomes completed: the total amount of remaining work strictly decreases with each completion and each failure report, and while a submission is in progress with waiting chunks, a reserve request on a server without reservations returns a chunk.",
  "every reachable state",
  "A termination argument over unbounded histories.",
  [(CH,"complete_chunk","retry_or_fail_chunk"),(DI,"fetch_and_reserve_chunks")])
p("One insert call creates one submission",
  "An insert call of the producer client that returns successfully has created exactly one submission.",
  "every pattern of network failures and retries",
  "Depends on a response being lost after the server committed.",
  [(PC,"insert_submission","is_ephemeral","retry_policy")])
p("The producer client retries only what may succeed later",
  "The producer client repeats a request exactly when it failed to connect, timed out, could not be decoded in transit, or was answered with a 5xx status by a status check, at most 100 times; definite answers (not found, not cancellable, too many, other 4xx) are returned at once.",
  "every sequence of outcomes",
  "All outcome sequences and their lengths.",
  [(PC,"is_ephemeral","retry_policy","cancel_submission")])
p("Identifiers convert without loss",
  "Submission ids and chunk indexes convert between 63-bit, signed and unsigned 64-bit integers without change, and conversion is refused exactly for negative numbers and numbers above 2^63-1; generated ids are strictly increasing and encode their creation time in milliseconds.",
  "every 64-bit integer; every generator history",
  "2^64 inputs and all generator histories.",
  [(CH,"ChunkIndex"),(SU,"SubmissionId")])
p("Lookup limits never overflow",
  "Every accepted maximum is positive and can be increased by one without leaving the signed 64-bit range, and every rejected value is zero or too large; the documented bound is met.",
  "every 64-bit value",
  "2^64 inputs.",
  [(CM,"MaxSubmissions")])
p("Objects of different chunks never collide and round-trip in order",
  "Different (prefix without slash, index, input/output) triples give different object paths; storing a sequence of chunks and retrieving that many returns the same sequence in the same order and touches no object of other prefixes or of the other kind.",
  "every base, prefix, index and sequence",
  "All strings and numbers.",
  [(OS,"chunk_path","store_chunks","retrieve_chunks")])
p("Chunking and unchunking are inverse",
  "Splitting operations into chunks and joining them again gives the same operations in the same order; every chunk but the last has exactly the chunk size and none is empty; a non-positive size is refused.",
  "every list of operations and every chunk size",
  "All lengths and sizes.",
  [(PY,"_chunk_iterator","_unchunk_iterator")])
p("A submission run end to end gives the results in order",
  "For a producer using an object store, if consumers apply a function to each operation of each chunk they complete, then once the submission is reported completed, streaming its outputs yields the function's results for all operations, in the original order.",
  "every list of operations, chunk size, order of chunk completions, retries and duplicates",
  "Any schedule of consumers.",
  [(PP,"insert_submission_chunks","maybe_stream_completed_submission"),(PK,"complete_chunk_gilless"),(PY,"_chunk_iterator")])
p("Waiting for a submission terminates when the submission does",
  "A producer that waits for the outputs of a submission gets an answer once the submission has reached any terminal state.",
  "every terminal state and every polling schedule",
  "The missing case never returns, which a test cannot observe.",
  [(PP,"maybe_stream_completed_submission","stream_completed_submission_chunks")])
p("Outputs of inline submissions can be streamed",
  "The outputs of a completed submission can be streamed by the producer also when its chunks were sent inline.",
  "every inline submission",
  "All inline submissions behave alike; needs the whole path from complete to stream.",
  [(PP,"insert_submission_direct","maybe_stream_completed_submission"),(PK,"complete_chunk_gilless")])
p("Polling backs off within bounds",
  "The interval between two polls never decreases, never exceeds five seconds, and reaches five seconds after a bounded number of polls.",
  "every number of polls",
  "Unbounded number of polls.",
  [(PP,"stream_completed_submission_chunks")])
p("A failed batch retrieval keeps no chunk hostage",
  "If a consumer cannot fetch the content of one of the chunks it reserved, the other chunks of the batch are worked on or returned without waiting for the reservation timeout.",
  "every batch and every position of the failing chunk",
  "All batches and positions.",
  [(PK,"reserve_and_retrieve_chunks")])
p("Strategies survive the language boundary",
  "Converting a strategy from the server form to the Python form and back gives the same strategy.",
  "every strategy of any nesting depth",
  "Unbounded nesting.",
  [(PM,"Strategy")])
p("A crashed consumer's chunks are marked as failed",
  "When a consumer crashes, each chunk it had reserved has its retry counter incremented, so a chunk that always crashes its consumer eventually fails its submission.",
  "every consumer and every set of reserved chunks",
  "Needs unboundedly many crashes of one chunk.",
  [("libs/opsqueue_python/python/opsqueue/consumer.py","run_each_chunk"),(SS,"drop"),(CH,"retry_or_fail_chunk")])
p("In-flight counts are looked up by the whole key",
  "A preference for distinct values of a metadata key compares the in-flight counts of exactly that key, whatever characters the key contains.",
  "every key",
  "All strings.",
  [("opsqueue/src/consumer/dispatcher/mod.rs","sqlite_metadata_counts_lookup"),(ST,"build_query_snippet_returning_submission_ids")])
p("Submissions can be made on any date",
  "Inserting a submission yields an identifier whatever the date of the server's clock.",
  "every clock reading from 2010 on",
  "All dates.",
  [("opsqueue/src/common/submission.rs","SubmissionId")])
p("No reserve call waits on a dead connection",
  "A reserve call of the consumer client that waits for an answer returns with an error once the client no longer reads from the connection; this also holds for calls made after that.",
  "every interleaving of calls, notifications, responses and losses of the connection",
  "All interleavings.",
  [("opsqueue/src/consumer/client.rs","background_task"),("opsqueue/src/consumer/client.rs","sync_request"),("opsqueue/src/consumer/client.rs","clear")])
p("A cancel call tells what it did",
  "A cancel call of the producer client that succeeds has cancelled a submission that was in progress; one that reports 'not cancellable' or 'not found' has changed nothing, the submission having been finished or unknown without its doing.",
  "every pattern of network failures and retries, every behaviour of other clients meanwhile",
  "All failure patterns.",
  [("opsqueue/src/producer/client.rs","cancel_submission"),("opsqueue/src/producer/client.rs","retry_policy")])
p("Lookup by prefix works for every prefix",
  "The producer client's lookup of a submission by prefix finds a submission that was inserted with exactly this prefix, if there is one.",
  "every prefix",
  "All strings.",
  [("opsqueue/src/producer/client.rs","lookup_submission_id_by_prefix"),("opsqueue/src/producer/server.rs","lookup_submission_id_by_prefix")])
p("A power failure undoes only the latest operations",
  "After a power failure the server is in the state it had at one point since its last checkpoint: every operation before that point is there, no operation after it; whatever power failures happened, the state is one that some of the requested operations lead to without any.",
  "every sequence of operations, crashes, checkpoints and power failures, every point",
  "Power failures at every point between any operations.",
  [(DB,"open_and_setup","db_options","perform_explicit_wal_checkpoint","periodically_checkpoint_wal")])
p("Acknowledged operations survive a power failure",
  "An operation that was answered with success is still there after a power failure of the server's machine.",
  "every operation and every point at which the power fails",
  "Needs a power failure in the window between the answer and the next checkpoint.",
  [(DB,"open_and_setup","db_options","perform_explicit_wal_checkpoint")])
p("Finished submissions are kept for the configured age and then removed",
  "A finished submission keeps its status for at least the configured maximum age after its reported finishing time, and is gone for good after the first successful cleanup round after that, which starts at most one minute and the duration of a round later.",
  "every history, every configured age, every duration of rounds, any failing rounds",
  "Unbounded time and any interleaving of rounds with operations.",
  [(SU,"periodically_cleanup_old","cleanup_old"),("opsqueue/app/main.rs","async_main")])
p("The backlog gauges measure the backlog",
  "Whenever the gauges are set, the chunk gauge is set to the number of chunks waiting to be worked on, and the operations gauge to the sum of the chunk sizes of their submissions, which exceeds the number of waiting operations by less than one chunk per submission in progress.",
  "every history, also when other operations happen between the two queries",
  "All histories and all chunk sizes.",
  [("opsqueue/src/prometheus.rs","calculate_scaling_metrics"),(CH,"count_chunks","count_ops_in_backlog_estimate")])
p("The counters agree with the database",
  "The Prometheus counters satisfy what their descriptions say: submissions in progress are the total minus completed, failed and cancelled ones; chunks in the backlog are the total minus completed, failed and skipped ones; the counters of finished submissions and chunks count those in the database; none of them misses a change.",
  "every history of operations since the server started",
  "All histories, including repeated reports and failing statements.",
  [("opsqueue/src/prometheus.rs","describe_metrics"),(CH,"complete_chunk","retry_or_fail_chunk","skip_remaining_chunks"),(SU,"insert_submission","complete_submission_raw","cancel_submission_raw","fail_submission_raw")])
p("The database statements fit the tables and mean what the API promises",
  "Sent to a database file made by the server's own migrations, the SQL statements of every operation and status query are accepted and give the effects and answers that the other properties are stated about; no statement is refused for an unknown table or column or a missing value, and no row it gets back is unreadable.",
  "every history of operations with failing statements and crashes, every next operation or query",
  "The statements are text: a wrong column, parameter number, join condition or default shows only on the histories that reach it.",
  [(CH,"complete_chunk_raw","move_chunk_to_failed_chunks","insert_many_chunks","skip_remaining_chunks"),(SU,"insert_submission_raw","submission_status","complete_submission_raw","cancel_submission_raw","cleanup_old"),(MI,"*.sql")])
p("An upgrade keeps everything",
  "When the server is started on a database file written by any earlier version, all outstanding migrations succeed whatever the file contains, also when the upgrade is interrupted and started again, and afterwards every submission and every chunk has the status, contents and metadata it had; where a submission had several values for one strategic key the largest is kept.",
  "every earlier version of the schema, every content of the file, every point of interruption, every later history",
  "All contents of old files; the old versions are not in the test suite.",
  [(MI,"*.sql"),(DB,"open_and_setup","ensure_db_migrated")])
CC="opsqueue/src/consumer/client.rs"; PYC="libs/opsqueue_python/src/consumer.rs"; SV="opsqueue/src/server.rs"
p("A consumer client can be used by several threads",
  "Calls on one consumer client never panic, also from several threads; a call uses the connection in place as long as it is healthy and a new one after an error; a healthy connection on which chunks were reserved is not closed because of other calls.",
  "every interleaving of calls, connects, errors and losses of connections",
  "Needs another thread between two instructions of a call.",
  [(CC,"OuterClient::reserve_chunks","OuterClient::complete_chunk","OuterClient::fail_chunk","ensure_initialized","initialize","is_healthy")])
p("One address serves producers and consumers",
  "A producer client and a consumer client that are given the same address talk to the same server, under the same base path.",
  "every address",
  "All strings.",
  [("opsqueue/src/producer/client.rs","Client::new"),(CC,"Client::new")])
p("A Python consumer reports on every chunk it works on",
  "run_per_chunk calls the function once for every chunk it reserves, in order, and after each call reports on that chunk: completed with the bytes returned, or failed with the text of the exception; it reports on nothing else and does nothing after its end.",
  "every sequence of reservations, results and exceptions of the function, errors and interrupts",
  "All sequences of outcomes and errors.",
  [(PYC,"run_per_chunk","compute_chunk_outcome")])
p("A Python consumer stops when interrupted",
  "run_per_chunk ends when an interrupt comes, while it waits or in the user's function, and no error of the network or the function's own Exceptions ends it.",
  "every sequence of reservations, results and exceptions of the function, errors and interrupts",
  "Needs an interrupt and a lost connection at the same time.",
  [(PYC,"run_per_chunk","compute_chunk_outcome","block_unless_interrupted")])
p("A Python consumer logs its progress",
  "run_per_chunk logs the number of chunks it has processed whenever this is a multiple of 50.",
  "every sequence of reservations and outcomes",
  "Unbounded runs.",
  [(PYC,"run_per_chunk","compute_chunk_outcome")])
p("A parent process learns the port",
  "The pipe given with --report-bound-port-pipe carries the port on which the server listens, as two bytes with the higher first, and is then closed; if the server cannot tell a port the pipe is closed without a byte, so that a parent can wait for it.",
  "every sequence of failing and succeeding attempts to bind and to serve",
  "All sequences of failures of the system calls.",
  [(SV,"serve_producer_and_consumer","retry_policy"),("opsqueue/src/config.rs","ReportBoundPortPipe::take","BoundPortPipe::write_port")])
p("/ping tells whether the database works",
  "/ping answers 200 exactly if the last finished check of the database was good; checks are not older than the pause and twice the time a check takes; it answers 503 before the first check and after the shutdown has begun.",
  "every sequence of checks with any durations and results, every time of shutdown, every time of asking",
  "Unbounded time.",
  [(SV,"ping","app_watchdog"),(DB,"check_health"),("opsqueue/app/main.rs","async_main")])
p("The SQL that finds work and submissions asks for what is promised",
  "The query built for a strategy yields exactly the waiting, unreserved chunks in the orders the strategy promises, for every nesting of preferences; the lookup by prefix yields a submission that carries it, an unfinished one if there is one; the lookup by metadata yields the matching submissions by increasing id up to the limit; the backlog query yields the sum of the chunk sizes of the waiting chunks.",
  "every strategy, random offset, set of reserved chunks and counters, every history of the database, every order in which SQLite may read a table or an inner join, every prefix and every set of constraints in any order",
  "All nestings of strategies, all contents of the tables and all orders of rows that SQL leaves open.",
  [(ST,"build_query","build_query_snippet_returning_chunks","build_query_snippet_returning_submission_ids","push_random_order_query"),(SU,"lookup_id_by_prefix","lookup_ids_by_strategic_metadata","lookup_ids_by_strategic_metadata_query"),(CH,"count_ops_in_backlog_estimate"),(DI,"sqlite_reserved_chunk_lookup","sqlite_metadata_counts_lookup")])
PP="libs/opsqueue_python/src/producer.rs"
PE="libs/opsqueue_python/src/errors.rs"
PX="libs/opsqueue_python/python/opsqueue/exceptions.py"
p("A Python query returns what the server held at one moment of the call",
  "get_submission_status, lookup_submission_id_by_prefix, lookup_submission_ids_by_strategic_metadata and count_submissions change nothing, and return what the server held when it handled one of the attempts, with every field of a submission as the server has it; more matches than the server allows raise TooManyMatchingSubmissionsError with the limit; everything else that goes wrong raises InternalProducerClientError.",
  "every history of the server before and during the call, every sequence of failing attempts, lost or unreadable answers, database errors and crashes",
  "All histories and all sequences of failures of up to 101 attempts.",
  [(PP,"get_submission_status","lookup_submission_id_by_prefix","lookup_submission_ids_by_strategic_metadata","count_submissions"),("libs/opsqueue_python/src/common.rs","SubmissionStatus","Submission"),(PE,"CError")])
p("A refused call raises the documented exception",
  "cancel_submission raises SubmissionNotFoundError with the id if there is no such submission and SubmissionNotCancellableError with the submission as it is (and the failed chunk exactly if it failed) if it is finished; try_stream_completed_submission_chunks streams a completed submission, raises SubmissionFailedError with the failed chunk and its message for a failed one and SubmissionNotCompletedYetError otherwise. Handlers for OpsqueueInternalError and for IncorrectUsageError never catch each other's exceptions.",
  "every history of the server before and during the call, every sequence of failing attempts in which no reply gets lost",
  "All histories and all sequences of failures.",
  [(PP,"cancel_submission","try_stream_completed_submission_chunks","maybe_stream_completed_submission"),(PE,"CError"),(PX,"SubmissionNotCancellableError","SubmissionFailedError","IncorrectUsageError","OpsqueueInternalError")])
p("Errors of the caller's own chunks reach the caller",
  "If the iterator given to insert_submission_chunks raises, that exception reaches the caller (fatal ones like KeyboardInterrupt unwrapped) and nothing is submitted; if an upload fails, a ChunksStorageError tells so and nothing is submitted; if the call returns, every chunk is in the object store and the submission has that many chunks.",
  "every sequence of chunks and exceptions of the iterator, every outcome of the uploads and of the attempts to insert",
  "All sequences of chunks, exceptions and failures.",
  [(PP,"insert_submission_chunks"),("opsqueue/src/object_store/mod.rs","store_chunks","ChunksStorageError"),(PE,"FatalPythonException","CError")])
p("Ctrl-C interrupts a call of a Python producer",
  "A call of the producer client that waits ends at most one second after a signal whose handler raises; it raises only if such a signal came; without one it ends when and how it would have ended.",
  "every time at which the call would end, if ever, every time of a signal, every choice of the scheduler",
  "Unbounded time and all coincidences of signal and result.",
  [("libs/opsqueue_python/src/common.rs","run_unless_interrupted","check_signals_in_background","SIGNAL_CHECK_INTERVAL")])
CM="opsqueue/src/consumer/server/mod.rs"
RS="opsqueue/src/consumer/dispatcher/reserver.rs"
p("The gauge of connected consumers counts the connected consumers",
  "At every moment the metric consumers_connected_gauge equals the number of consumers whose connection is open.",
  "every run of the server: all interleavings of connections, requests, reports, disconnects, producers' requests, errors and restarts",
  "All interleavings, including a cancellation that races with a reservation.",
  [(CM,"ws_accept_handler"),("opsqueue/src/prometheus.rs","CONSUMERS_CONNECTED_GAUGE")])
p("The chunk duration histograms record how long consumers worked",
  "Every report on a chunk adds one sample to the histogram of completed or failed chunks: the time for which the reporting consumer has had the chunk.",
  "every run of the server and every report in it",
  "Unbounded time; late reports race with the expiry of reservations.",
  [(CM,"handle_message"),(RS,"finish_reservation"),("opsqueue/src/prometheus.rs","CHUNKS_DURATION_COMPLETED_HISTOGRAM","CHUNKS_DURATION_FAILED_HISTOGRAM")])
p("The counter of successful reservations counts the chunks given out",
  "The number of successful reservations is never below the number of chunks given to consumers, and equals it whenever no request is being served.",
  "every run of the server",
  "All interleavings of requests, errors and disconnects.",
  [(RS,"try_reserve"),("opsqueue/src/prometheus.rs","RESERVER_RESERVATIONS_SUCCEEDED_COUNTER")])
MA="opsqueue/app/main.rs"
CF="opsqueue/src/config.rs"
p("The process ends when told to, and its status tells why",
  "Once started, the server runs until Ctrl-C, which ends the process within half a second, or until it has failed to listen eleven times, which ends it within about two seconds plus the time of the attempts; a database that is not open after ten seconds ends it then; the exit status is zero exactly if the process was asked to end.",
  "every time at which the database opens, every sequence of failing attempts with any durations, every time of Ctrl-C",
  "Unbounded time and all sequences of failures.",
  [(MA,"async_main"),(SV,"serve_producer_and_consumer","retry_policy"),(DB,"open_and_setup")])
p("Every command line that is accepted gives a working server",
  "The file descriptor for the port is read as a decimal number, -1 meaning none; with every value of the other options that is accepted the process starts, consumers can connect and a chunk that has been given to a consumer is not given to another one at once.",
  "every number given as file descriptor; every expiration time, heartbeat interval and maximum age",
  "All values of the options.",
  [(CF,"Config","parse_report_bound_port_fd"),(RS,"Reserver::new"),("opsqueue/src/consumer/server/conn.rs","ConsumerConn::new"),(SU,"periodically_cleanup_old")])
p("What one side sends is what the other reads",
  "Every request of a producer reaches the server's handler for it with the same arguments, whatever strings and numbers they contain, and the producer reads from the answer what the handler answered; every message between a consumer and the server is read as it was sent. Members that an older or newer client leaves out or adds do not change the meaning of the others, in any order; numbers that are no ids are refused.",
  "every request, answer and message with values of their Rust types; every result of the handlers under every pattern of database errors",
  "All values of all types, all strings and maps.",
  [("opsqueue/src/producer/common.rs","InsertSubmission","ChunkContents"),("opsqueue/src/producer/client.rs","Client"),("opsqueue/src/producer/server.rs","build_router"),("opsqueue/src/consumer/common.rs","ClientToServerMessage","ServerToClientMessage","Envelope"),(CH,"ChunkId","Chunk","ChunkFailed"),(SU,"SubmissionId","SubmissionStatus"),("opsqueue/src/common/errors.rs","SubmissionNotCancellable")])
p("Requests and replies of any size get through",
  "Chunks that are sent in the request itself, metadata of any size, reservations of any number of chunks and outputs of any size are transferred.",
  "every insert, reservation and report",
  "Unbounded sizes; the limits are defaults of libraries that appear nowhere in the code.",
  [("opsqueue/src/producer/server.rs","insert_submission","build_router"),("opsqueue/src/consumer/client.rs","Client"),(CM,"ws_accept_handler"),("opsqueue/src/consumer/common.rs","ClientToServerMessage","SyncServerToClientResponse")])
p("Requests handled at the same time behave as if handled one after the other",
  "Whatever requests, reports, cleanups and checks the server handles at the same time: there is an order of the operations, one after the other, that explains every answer and what is in the database; an operation that was through before another came precedes it; an operation whose client hung up, or that was lost in a crash, occurs in it as a whole, in part as its own crash semantics allows, or not at all. The connection for writing always comes back.",
  "every interleaving of all tasks, statement by statement, with every pattern of database errors, hang-ups and crashes",
  "All interleavings of any number of tasks.",
  [(DB,"DBPools","writer_conn","db_connect_write_pool","check_health","perform_explicit_wal_checkpoint"),("opsqueue/src/producer/server.rs","insert_submission","cancel_submission"),(CM,"Completer")])
p("A query answers for a moment of its run",
  "The answer to a status query, a lookup or a count is right for a moment between the request and the answer, however others change the database meanwhile; a status query of a submission that is there all the time finds it, and fails only if the database does or if a failed submission is cleaned up in the middle; the two gauges for scaling are right for one moment each.",
  "every interleaving of a query with all other tasks, statement by statement",
  "All interleavings of any number of tasks.",
  [("opsqueue/src/producer/server.rs","submission_status","lookup_submission_id_by_prefix","lookup_submission_ids_by_strategic_metadata","submissions_count","submissions_count_completed"),("opsqueue/src/prometheus.rs","calculate_scaling_metrics"),(DB,"reader_conn","db_connect_read_pool")])
p("Others see an operation not at all or as a whole",
  "At every moment what is visible to everybody is what a number of whole operations, one after the other, make of an empty database.",
  "every moment of every interleaving of all tasks",
  "All interleavings of any number of tasks.",
  [(DB,"Connection","WriterConnection"),(SU,"insert_submission","maybe_complete_submission")])
p("Requests do not wait for each other's database connections",
  "Every reserve request of a consumer and every query of a producer is answered, without a timeout and without an empty list caused by one, however many come at the same time.",
  "every number of reader connections, every number of consumers and queries, every interleaving of their steps",
  "All interleavings of any number of tasks that take one or two connections of a pool of any size.",
  [("opsqueue/src/consumer/dispatcher/mod.rs","fetch_and_reserve_chunks","join_chunk_with_submission_info"),(DB,"db_connect_read_pool","reader_conn"),(CF,"max_read_pool_size"),("opsqueue/src/consumer/server/conn.rs","handle_incoming_client_message")])
p("A connection between two healthy ends stays open",
  "As long as the server and the client are both running and messages arrive in time, neither of them closes their connection for missed heartbeats, whatever the client asks and reports. If one of them is gone, the other closes it within a time that the settings give.",
  "every heartbeat interval, number of heartbeats that may be missed, bound on delays, and every interleaving of ticks, messages and time",
  "All timings of two clocks and the messages between them over an unbounded time.",
  [("opsqueue/src/consumer/server/conn.rs","beat_heart","handle_incoming_msg","run"),(CC,"background_task"),(CF,"heartbeat_interval","max_missable_heartbeats")])
p("Iterating over the results gives each of them once",
  "The iterator over a completed submission's results returns what is stored for each chunk, each exactly once and in order for a plain loop; nothing is skipped silently, also if several threads or asyncio tasks share it or a waiting call is cancelled; after the end it keeps reporting the end.",
  "every number of chunks, every interleaving of calls, their tasks, retrievals and cancellations",
  "All interleavings of any number of callers and cancellations.",
  [("libs/opsqueue_python/src/producer.rs","PyChunksIter","PyChunksAsyncIter","__next__","__anext__"),("opsqueue/src/object_store/mod.rs","retrieve_chunks")])
p("A waiting Python consumer can be interrupted",
  "A call of reserve_chunks, and a consumer loop that waits for chunks, ends at most a few seconds after a signal whose handler raises (Ctrl-C), and raises only if such a signal came.",
  "every sequence of attempts, with any durations and results, and every moment of the signal",
  "Any number of attempts of any durations, and a signal at any moment of them.",
  [("libs/opsqueue_python/src/consumer.rs","reserve_chunks_gilless","block_unless_interrupted","sleep_unless_interrupted"),("libs/opsqueue_python/src/common.rs","run_unless_interrupted","check_signals_in_background","SIGNAL_CHECK_INTERVAL")])
p("A Python consumer holds only the chunk it works on",
  "At every moment at most one chunk is reserved for a consumer that runs run_per_chunk, namely the one it works on; it never keeps others from working on chunks that it does not work on itself.",
  "every sequence of answers, results of the user's function, errors of the connection and the object store, and interrupts",
  "Unbounded runs in which any step may fail.",
  [("libs/opsqueue_python/src/consumer.rs","run_per_chunk","compute_chunk_outcome","reserve_and_retrieve_chunks","complete_chunk_gilless")])
p("An interrupted reserve call gives its chunks back",
  "Every chunk that the server reserved for a call of reserve_chunks is returned by the call, or goes back to the server at once; an interrupt of a waiting consumer does not count as a failed attempt at a chunk.",
  "every moment of an interrupt, a lost connection or a failing object store during a call of any number of attempts",
  "The call may be interrupted at any moment, also between the arrival of the answer and its delivery.",
  [("libs/opsqueue_python/src/consumer.rs","reserve_chunks_gilless","reserve_and_retrieve_chunks"),(CC,"background_task","sync_request"),("libs/opsqueue_python/src/common.rs","run_unless_interrupted")])
p("reserve_chunks does what its documentation says",
  "reserve_chunks asks the server for up to the given number of chunks with the given strategy, by default for one chunk with the strategy Newest; a limit that is not positive raises an IncorrectUsageError and has no other effect.",
  "every combination of arguments given or left out, and every value of them",
  "All Python values for two arguments; tests always pass both.",
  [("libs/opsqueue_python/python/opsqueue/consumer.py","ConsumerClient.reserve_chunks"),("libs/opsqueue_python/src/consumer.rs","reserve_chunks"),(CC,"OuterClient::reserve_chunks")])
p("run_each_op works through a chunk in order, all or nothing",
  "For each chunk, run_each_op calls the function with the chunk's operations in order, each once, up to the first exception. The chunk is completed exactly if all calls return and the results can be written, with the results in the order of the operations; otherwise it fails with the text of the exception, and the operations after it are not touched.",
  "every function, with state or without, every format and every content of a chunk",
  "Any number of operations and functions with any state; the failing call may be any of them.",
  [("libs/opsqueue_python/python/opsqueue/consumer.py","ConsumerClient.run_each_op","ConsumerClient.run_each_chunk"),("libs/opsqueue_python/python/opsqueue/common.py","encode_chunk","decode_chunk")])
p("Each operation reaches the function as given and gets its own result back",
  "With run_submission and run_each_op, the function is called with the values that were submitted, and the producer reads one result for each operation, in order: what the function returned for that operation.",
  "every list of Python values, chunk size, and function with or without state, on any number of consumers, with cbor2 or json",
  "All Python values, nested at will, and all functions.",
  [("libs/opsqueue_python/python/opsqueue/producer.py","_chunk_iterator","_unchunk_iterator","run_submission"),("libs/opsqueue_python/python/opsqueue/consumer.py","ConsumerClient.run_each_op"),("libs/opsqueue_python/python/opsqueue/common.py","json_as_bytes","DEFAULT_SERIALIZATION_FORMAT")])
p("A chunk is completed only with results that the producer can read",
  "With run_each_chunk a chunk is completed only if the function returned a sequence with one result for each operation; a function that returns something else fails the chunk.",
  "every function for whole chunks and every value it returns",
  "All Python values that a function may return.",
  [("libs/opsqueue_python/python/opsqueue/consumer.py","ConsumerClient.run_each_chunk"),("libs/opsqueue_python/python/opsqueue/common.py","encode_chunk","decode_chunk"),("libs/opsqueue_python/python/opsqueue/producer.py","_unchunk_iterator")])
p("The times of events survive the database",
  "The time at which a submission or chunk is reported to have been completed, failed or cancelled is that of the server's clock at the event, up to little more than a millisecond, at every time of the day; of two events the later one is not reported as the earlier one; and the cleanup takes an event as old exactly if it is before the cutoff, to the millisecond.",
  "every time of the clock from January 1970 to the year 9999, every time of the day",
  "86.4 million milliseconds of every day; the calculation on doubles has a special case that holds for one of them.",
  [(SU,"complete_submission_raw","cancel_submission","fail_submission_raw","submission_status","cleanup_old"),(CH,"complete_chunk_raw","move_chunk_to_failed_chunks","get_chunk_failed"),("opsqueue/migrations/20240704100242_submissions.sql","submissions_completed","submissions_failed")])
p("The chunks of a submission are handed out in the order of their indices",
  "With the strategies Oldest and Newest, and with PreferDistinct on top of anything, the chunks of one submission are offered in increasing order of their chunk index.",
  "every strategy, every content of the queue, every set of reservations",
  "All contents of the queue, and all orders in which the database may return rows that the query does not order.",
  [("opsqueue/src/consumer/strategy.rs","Strategy","build_query_snippet_returning_chunks")])
p("A submission sent with its contents from Python is stored as given",
  "If insert_submission_direct returns an id, the submission of that id is in progress with the metadata, strategic metadata and chunk size that were given, and its chunks wait for consumers with the contents that were given, in order. If it raises, nothing was stored.",
  "every non-empty list of contents, every metadata, every chunk size, every course of the attempts in which no reply gets lost, and whatever others do meanwhile",
  "All lists of contents and sizes, and all sequences of failures of up to 101 attempts, interleaved with the operations of others.",
  [("libs/opsqueue_python/src/producer.rs","ProducerClient","insert_submission_direct"),("opsqueue/src/producer/client.rs","insert_submission"),("opsqueue/src/common/chunk.rs","ChunkSize","count_ops_in_backlog_estimate")])
p("A chunk's result comes from a consumer that was given the chunk",
  "Every result or failure that is written for a chunk is one that some consumer reported, none is written more often than it was reported, and only consumers to which the chunk was given can make the server write one.",
  "every run of the server with any number of consumers, requests, crashes and database errors",
  "All interleavings of the reports of all consumers with the searches, expiries and crashes of the server.",
  [("opsqueue/src/consumer/server/conn.rs","handle_incoming_client_message"),("opsqueue/src/consumer/server/mod.rs","Completer"),("opsqueue/src/common/chunk.rs","complete_chunk")])
p("A frame that is no message ends only the connection it came on",
  "Whatever a consumer sends, be it a text, bytes that are no message or a message, the server's reaction writes nothing to the database by itself, answers nobody else, queues reports of that consumer only and leaves the other connections as they are, except that they may be told of reservations that expired. A frame that is no message ends the connection; a message does not.",
  "every frame, every state of the server and of its connections",
  "All byte strings that a consumer may send, in all states of all other connections.",
  [("opsqueue/src/consumer/server/conn.rs","ConsumerConn","run","handle_incoming_msg","handle_incoming_client_message")])
p("Consumers are given chunks as they were submitted",
  "With every chunk that a consumer is given come exactly the contents that the producer gave for that index, and the prefix, metadata, strategic metadata, chunk size and tracing carrier of the submission that the chunk belongs to.",
  "every run of the server with any number of producers and consumers, requests, strategies, expiries, crashes and database errors",
  "All interleavings of inserts, searches and joins; the row and its submission are read at different moments.",
  [("opsqueue/src/consumer/dispatcher/mod.rs","fetch_and_reserve_chunks","join_chunk_with_submission_info"),(CO,"handle_incoming_client_message"),(SU,"insert_submission_from_chunks","get_submission")])
p("The trace of a producer goes on in the consumers of its chunks",
  "The tracing context that a consumer gets with a chunk belongs to the trace in which the producer made the submission, and says that the trace is recorded if the producer's context did.",
  "every trace and span id, every set of other headers, every level of the server's log, every run of the server",
  "2^192 ids, and all combinations of log levels and spans.",
  [("opsqueue/src/tracing.rs","context_from_headers","current_context_to_json","json_to_carrier","propagator"),("opsqueue/src/server.rs","build_router"),("opsqueue/app/main.rs","setup_tracing","otel_tracer_provider"),("opsqueue/src/producer/client.rs","insert_submission"),("opsqueue/src/producer/server.rs","insert_submission"),(SU,"insert_submission_from_chunks"),("libs/opsqueue_python/src/common.rs","from_internal"),("libs/opsqueue_python/python/opsqueue/consumer.py","_trace_context_from_chunk")])
p("The gauge of reserved chunks counts the chunks being worked on",
  "The metric reserver_chunks_reserved_count is the number of chunks that consumers have been given and have not reported on.",
  "every run of the server with any number of consumers, requests, expiries and crashes, and every moment of it",
  "All interleavings of searches, reports, expiries and delayed removals with the periodic maintenance.",
  [("opsqueue/src/consumer/dispatcher/reserver.rs","Reserver","run_pending_tasks","purge_pending_removals","finish_reservation"),("opsqueue/src/prometheus.rs","RESERVER_CHUNKS_RESERVED_GAUGE"),("opsqueue/src/server.rs","serve_producer_and_consumer","build_router"),("opsqueue/src/consumer/server/mod.rs","run_background")])
p("Every submission gets an id of its own",
  "No two submissions made on one database ever get the same id, however often the server is restarted in between, and a later submission has a larger id.",
  "every number of submissions and restarts, every reading of the clock",
  "Needs two submissions in different lives of the server that read the same millisecond.",
  [(SU,"ID_GENERATOR","SubmissionId","insert_submission_from_chunks")])
p("The backlog gauge is up to date",
  "What the metric chunks_in_backlog_count says at any moment is the number of chunks that were in the database at some moment a few seconds before.",
  "every moment of the life of a server, every length and failure of the queries, every course of the backlog and of failing chunks",
  "A real-time property over all durations and failures, for an unbounded time.",
  [("opsqueue/src/prometheus.rs","periodically_calculate_scaling_metrics","calculate_scaling_metrics","CHUNKS_BACKLOG_GAUGE"),("opsqueue/src/common/chunk.rs","move_chunk_to_failed_chunks")])
p("Reports take effect in order, also when the server is shut down",
  "The reports of a consumer are dealt with in the order in which they were made, each once and none left out; however many consumers report at once, all of their reports are dealt with, and when the server is told to shut down, so are all that it has received by then.",
  "every number of consumers and reports, every interleaving of connections and completer, every moment of a shutdown",
  "All interleavings of senders with a bounded mailbox, and the random choices of the loops during a shutdown.",
  [("opsqueue/src/consumer/server/mod.rs","Completer","run","CompleterMessage"),("opsqueue/src/consumer/server/state.rs","complete_chunk","fail_chunk"),("opsqueue/src/consumer/server/conn.rs","run","graceful_shutdown"),("opsqueue/app/main.rs","async_main")])
p("No request and no report makes the server panic",
  "No request of a producer, no report of a consumer and no cleanup makes the part of the server that handles it panic, whatever is in the database and whichever statements fail: no producer is answered with a caught panic, and the task that handles the reports of all consumers, which nothing would restart, goes on.",
  "every request, report and cutoff, every content of the database, every sequence of failing statements, every interleaving of a query with writes",
  "All contents of the database and all sequences of failures.",
  [("opsqueue/src/server.rs","handle_panic","build_router"),("opsqueue/src/producer/server.rs","insert_submission","cancel_submission","submission_status"),("opsqueue/src/consumer/server/mod.rs","handle_message"),(SU,"cancel_submission","cleanup_old","insert_submission_from_chunks"),("opsqueue/src/common/chunk.rs","complete_chunk","retry_or_fail_chunk","insert_many_chunks")])
p("What the server keeps for a waiting consumer goes when the consumer goes",
  "For every request for chunks that found none the server keeps something, once, until the request is answered or its connection has ended; it answers each request at most once and none on a connection that has ended. When a connection has ended, nothing is kept for it.",
  "every number of connections and requests, every interleaving of them with the waking of waiting requests",
  "A bound on memory over all histories; tests see only histories of one length.",
  [("opsqueue/src/consumer/server/conn.rs","ConsumerConn","run","handle_incoming_client_message","RetryReservation"),("opsqueue/src/producer/server.rs","insert_submission")])
p("The metric of the reserve requests tells them apart and stays small",
  "The histogram of the durations of reserve requests has one series for each limit and strategy with which requests were served, and no request is counted with a different one. What /metrics shows for it does not grow with the number of requests.",
  "every sequence of requests, every limit, every strategy with any nesting and any characters in its keys",
  "All strings as keys, with quotes, backslashes and characters outside ASCII, and histories of any length.",
  [("opsqueue/src/consumer/server/state.rs","fetch_and_reserve_chunks"),("opsqueue/src/consumer/strategy.rs","Strategy"),("opsqueue/src/prometheus.rs","CONSUMER_FETCH_AND_RESERVE_CHUNKS_HISTOGRAM","setup_prometheus")])
p("Every reserve request is answered once, under its own number",
  "On each connection the server replies only to requests that arrived on it, to each at most once and with the number of that request; as long as the connection is open, a request that has no reply is still being handled or kept for later. Hence no reply of this server stops the client's background task.",
  "every run of the server with any number of consumers, requests, retries, expiries, crashes and database errors; every client on the other end",
  "All interleavings of searches, wake-ups, retries and disconnects of all connections.",
  [("opsqueue/src/consumer/server/conn.rs","ConsumerConn","run","handle_incoming_client_message","RetryReservation"),("opsqueue/src/consumer/client.rs","InFlightRequests","background_task")])
p("No reply has more chunks than were asked for, and none twice",
  "A reply with chunks answers a request of the same connection and carries its number; it has no more chunks than that request asked for and no chunk twice, and they come in the order of the request's strategy, as things were at some moment before the reply.",
  "every run of the server with any number of consumers, requests, strategies, retries, expiries, crashes and database errors, if no two submissions have the same id (C108)",
  "All interleavings of a search with the searches, reports and expiries of others, and with inserts and cancellations.",
  [("opsqueue/src/consumer/dispatcher/mod.rs","fetch_and_reserve_chunks","reserve_chunk"),("opsqueue/src/consumer/server/conn.rs","handle_incoming_client_message"),("opsqueue/src/consumer/strategy.rs","Strategy")])
if __name__=="__main__":
    out=os.path.join(os.path.dirname(__file__),"..","properties.jsonl")
    with open(out,"w") as f:
        for x in P: f.write(json.dumps(x)+"\n")
    print(len(P))
