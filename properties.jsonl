{"id": "C01", "title": "No chunk is lost or invented while a submission is in progress", "statement": "For a submission reported in progress, the number of its chunks still waiting to be worked on plus the reported number of completed chunks equals its reported total, every waiting chunk has an index below the total, and the reported number of completed chunks never exceeds the total.", "quantifier": "every history of inserts, completions, failures, cancellations and cleanups, with any arguments, timestamps and retry limits", "why_tests_cant": "Needs an invariant over all interleavings of operations on all submissions; tests only sample a few histories.", "anchors": [{"file": "opsqueue/src/common/submission.rs", "symbols": ["insert_submission_from_chunks", "maybe_complete_submission", "cancel_submission"]}, {"file": "opsqueue/src/common/chunk.rs", "symbols": ["complete_chunk", "retry_or_fail_chunk", "skip_remaining_chunks"]}]}
{"id": "C02", "title": "A submission has one state at a time", "statement": "A submission id that was accepted is, at every moment, in exactly one of the states in progress, completed, failed, cancelled or removed-by-cleanup, and the status query reports that state.", "quantifier": "every history, every submission id", "why_tests_cant": "Being in two states needs an unlucky order of operations; no finite set of tests excludes all orders.", "anchors": [{"file": "opsqueue/src/common/submission.rs", "symbols": ["submission_status", "complete_submission_raw", "fail_submission_raw", "cancel_submission_raw"]}]}
{"id": "C03", "title": "Completed means every chunk was acknowledged, and conversely", "statement": "A submission is reported completed only if each chunk index below its total was successfully completed once in its history, and a non-empty submission becomes completed by the very operation that completes its last chunk.", "quantifier": "every history and every submission", "why_tests_cant": "The claim relates the state to the whole past, for any number of chunks and any order of completions.", "anchors": [{"file": "opsqueue/src/common/chunk.rs", "symbols": ["complete_chunk", "complete_chunk_raw"]}, {"file": "opsqueue/src/common/submission.rs", "symbols": ["maybe_complete_submission"]}]}
{"id": "C04", "title": "Terminal states are permanent", "statement": "Once a submission is reported completed, failed or cancelled, no later insert, completion, failure report or cancellation changes the reported record; only cleanup can remove it.", "quantifier": "every history after the terminal state was reached", "why_tests_cant": "Quantifies over every future operation sequence, including late messages of slow consumers.", "anchors": [{"file": "opsqueue/src/common/chunk.rs", "symbols": ["complete_chunk", "retry_or_fail_chunk"]}, {"file": "opsqueue/src/common/submission.rs", "symbols": ["cancel_submission"]}]}
{"id": "C05", "title": "Completing a chunk is idempotent", "statement": "Completing a chunk that is not waiting (already completed, failed, skipped, or never existed) leaves all stored data unchanged, so a duplicated completion message can never make the completed count exceed the number of distinct completed chunks.", "quantifier": "every reachable database, every chunk id and output", "why_tests_cant": "Duplicated and late messages can arrive at any time in any state.", "anchors": [{"file": "opsqueue/src/common/chunk.rs", "symbols": ["complete_chunk", "complete_chunk_raw"]}]}
{"id": "C06", "title": "Retry limit", "statement": "Reporting a failure for a waiting chunk increments its retry counter by one and leaves it waiting while the new counter is below the configured maximum; the report that makes the counter reach the maximum fails the whole submission, and no earlier report does.", "quantifier": "every reachable database, every retry maximum, every number of failure reports", "why_tests_cant": "The boundary must be right for every limit including 0 and 1 and every interleaving with other chunks.", "anchors": [{"file": "opsqueue/src/common/chunk.rs", "symbols": ["retry_or_fail_chunk"]}]}
{"id": "C07", "title": "What a permanent failure leaves behind", "statement": "When a submission fails, its status names the chunk that failed with the reported failure text, every other chunk that was still waiting is marked skipped, completed chunks stay completed, and none of its chunks is waiting any more.", "quantifier": "every reachable database and every permanently failing chunk", "why_tests_cant": "Ranges over all numbers of remaining chunks and all prior progress.", "anchors": [{"file": "opsqueue/src/common/submission.rs", "symbols": ["fail_submission_notx", "fail_submission_raw"]}, {"file": "opsqueue/src/common/chunk.rs", "symbols": ["move_chunk_to_failed_chunks", "skip_remaining_chunks"]}]}
{"id": "C08", "title": "Cancellation decision table", "statement": "Cancelling succeeds (HTTP 200) exactly when the submission is in progress, answers not-found (404) exactly when the id is unknown, and answers conflict (409) carrying the current status when it is completed, failed or cancelled; it never panics, and only the success case changes data, after which none of its chunks is waiting.", "quantifier": "every reachable database and every id", "why_tests_cant": "The panic branch can only be excluded by an invariant over all reachable databases.", "anchors": [{"file": "opsqueue/src/common/submission.rs", "symbols": ["cancel_submission", "cancel_submission_notx"]}, {"file": "opsqueue/src/producer/server.rs", "symbols": ["cancel_submission"]}]}
{"id": "C09", "title": "Operations on one submission do not touch another", "statement": "Inserting, completing, failing or cancelling for one submission id leaves status, chunks, metadata and lookups by strategic metadata of every other submission id unchanged, and the answers to lookups by every prefix other than the prefix of the submission concerned.", "quantifier": "every database, every pair of distinct ids, every operation", "why_tests_cant": "Needs all pairs of submissions in all states.", "anchors": [{"file": "opsqueue/src/common/chunk.rs", "symbols": ["complete_chunk", "retry_or_fail_chunk", "skip_remaining_chunks"]}, {"file": "opsqueue/src/common/submission.rs", "symbols": ["insert_submission", "cancel_submission"]}]}
{"id": "C10", "title": "Insert is all-or-nothing at every crash point", "statement": "If the server dies at any moment while inserting a submission, then after restart either nothing of the submission is stored, or the submission, all its strategic metadata and all its chunks with their contents are.", "quantifier": "every submission (any number of chunks and metadata) and every crash point between two SQL statements", "why_tests_cant": "Tests cannot crash at every statement of inserts of every size.", "anchors": [{"file": "opsqueue/src/common/submission.rs", "symbols": ["insert_submission", "insert_submission_raw", "insert_submission_metadata_raw"]}, {"file": "opsqueue/src/common/chunk.rs", "symbols": ["insert_many_chunks"]}, {"file": "opsqueue/src/db/mod.rs", "symbols": ["transaction"]}]}
{"id": "C11", "title": "Complete, fail, cancel and cleanup are all-or-nothing at every crash point", "statement": "If the server dies at any moment during one of these operations, after restart the stored data is either exactly what it was before the operation or exactly what the finished operation leaves; and if the operation reports a database error nothing has changed.", "quantifier": "every database, every operation and argument, every crash point", "why_tests_cant": "Crash points multiply with states; tests cover none of them.", "anchors": [{"file": "opsqueue/src/common/chunk.rs", "symbols": ["complete_chunk", "retry_or_fail_chunk"]}, {"file": "opsqueue/src/common/submission.rs", "symbols": ["cancel_submission", "cleanup_old"]}, {"file": "opsqueue/src/db/mod.rs", "symbols": ["transaction"]}]}
{"id": "C12", "title": "A submission without chunks completes", "statement": "After inserting a submission with zero chunks its status is completed, with no consumer involved, whatever happens in between.", "quantifier": "every empty submission, every crash point during the insert", "why_tests_cant": "The window between the insert and its completion is only visible to a crash at one precise point.", "anchors": [{"file": "opsqueue/src/common/submission.rs", "symbols": ["insert_submission_from_chunks", "maybe_complete_submission"]}]}
{"id": "C13", "title": "Status never misses an existing submission", "statement": "A status query that runs while other clients change the database reports, for any submission that existed when the query began and is not removed by cleanup meanwhile, a state the submission really had at some moment during the query; it never reports it as unknown.", "quantifier": "every interleaving of committed changes between the reads of one status query", "why_tests_cant": "The query reads several tables at different moments; the schedule space is unbounded.", "anchors": [{"file": "opsqueue/src/common/submission.rs", "symbols": ["submission_status"]}, {"file": "opsqueue/src/producer/server.rs", "symbols": ["submission_status"]}]}
{"id": "C14", "title": "Cleanup removes exactly the old finished submissions", "statement": "Cleanup removes the finished submissions whose finishing time is before the cutoff together with their metadata, keeps all the others, and leaves submissions in progress untouched.", "quantifier": "every reachable database and every cutoff", "why_tests_cant": "Depends on all timestamps relative to the cutoff and on chunks of all ages.", "anchors": [{"file": "opsqueue/src/common/submission.rs", "symbols": ["cleanup_old", "periodically_cleanup_old"]}]}
{"id": "C15", "title": "The status of a failed submission can be read", "statement": "For every submission reported failed, the status query succeeds and includes the failed chunk, also after any number of cleanups.", "quantifier": "every history including cleanups with any cutoff, every clock behaviour", "why_tests_cant": "Depends on the order of two clock readings and a cutoff falling between them.", "anchors": [{"file": "opsqueue/src/common/submission.rs", "symbols": ["submission_status", "fail_submission_notx", "cleanup_old"]}, {"file": "opsqueue/src/common/chunk.rs", "symbols": ["get_chunk_failed"]}]}
{"id": "C16", "title": "Lookup by strategic metadata is exact", "statement": "The lookup returns, in increasing order and without duplicates, exactly the ids of the submissions in progress that carry all the requested key/value pairs, and reports 'too many' exactly when there are more than the configured maximum.", "quantifier": "every database, every set of pairs (including the empty one), every maximum", "why_tests_cant": "Set equality for all databases and boundaries of the limit.", "anchors": [{"file": "opsqueue/src/common/submission.rs", "symbols": ["lookup_ids_by_strategic_metadata"]}, {"file": "opsqueue/src/producer/server.rs", "symbols": ["lookup_submission_ids_by_strategic_metadata"]}]}
{"id": "C17", "title": "Lookup by prefix finds the submission", "statement": "A submission inserted with an object-store prefix is found by that prefix for as long as the status query knows the submission.", "quantifier": "every history, every submission with a unique prefix", "why_tests_cant": "Must hold in every lifecycle state, including states no test inserts.", "anchors": [{"file": "opsqueue/src/common/submission.rs", "symbols": ["lookup_id_by_prefix"]}, {"file": "opsqueue/src/producer/server.rs", "symbols": ["lookup_submission_id_by_prefix"]}]}
{"id": "C18", "title": "Submission attributes survive the submission's lifecycle", "statement": "The total number of chunks, prefix, user metadata, strategic metadata, chunk size and tracing carrier given at insert are reported unchanged in every later status.", "quantifier": "every submission and every later history", "why_tests_cant": "Every attribute in every state after any history.", "anchors": [{"file": "opsqueue/src/common/submission.rs", "symbols": ["submission_status", "complete_submission_raw", "fail_submission_raw", "cancel_submission_raw"]}]}
{"id": "C19", "title": "Completion errors are reported", "statement": "Completing a chunk reports success to the caller only if the chunk was recorded as completed.", "quantifier": "every database, every chunk id", "why_tests_cant": "Every failing database state must be considered.", "anchors": [{"file": "opsqueue/src/common/chunk.rs", "symbols": ["complete_chunk"]}]}
{"id": "C20", "title": "Counters are exact", "statement": "The reported numbers of submissions in progress, completed and failed equal the numbers of submissions whose status query reports that state, and the reported number of waiting chunks equals the sum over submissions in progress of total minus completed.", "quantifier": "every history", "why_tests_cant": "Equality must hold after every history.", "anchors": [{"file": "opsqueue/src/common/submission.rs", "symbols": ["count_submissions", "count_submissions_completed", "count_submissions_failed"]}, {"file": "opsqueue/src/common/chunk.rs", "symbols": ["count_chunks"]}]}
{"id": "C21", "title": "Every chunk of an insert is stored once, in order", "statement": "Inserting a submission of any number of chunks stores exactly one waiting chunk per position, carrying the content given for that position and zero retries, although rows are written in batches.", "quantifier": "every list of chunk contents, in particular lengths around multiples of the batch size", "why_tests_cant": "All lengths and batch boundaries.", "anchors": [{"file": "opsqueue/src/common/chunk.rs", "symbols": ["insert_many_chunks"]}, {"file": "opsqueue/src/common/submission.rs", "symbols": ["insert_submission_from_chunks", "from_vec"]}]}
{"id": "C22", "title": "Metadata migration keeps one value per key", "statement": "The schema upgrade that introduces one value per strategic-metadata key keeps every (submission, key) that had a value, with the largest of its values, and adds none.", "quantifier": "every old metadata table", "why_tests_cant": "All tables with any duplicates.", "anchors": [{"file": "opsqueue/migrations", "symbols": ["20260717143000"]}]}
{"id": "C23", "title": "Every strategy offers every available chunk exactly once", "statement": "For every strategy, the sequence of chunks offered to a reserving consumer is a permutation of the waiting chunks that are not reserved, so no chunk is starved or offered twice by one request.", "quantifier": "every database, every strategy including nested preferences, every random offset, every reservation state", "why_tests_cant": "Nesting depth, random offset and database are unbounded.", "anchors": [{"file": "opsqueue/src/consumer/strategy.rs", "symbols": ["build_query", "push_random_order_query"]}, {"file": "opsqueue/src/consumer/dispatcher/mod.rs", "symbols": ["fetch_and_reserve_chunks"]}]}
{"id": "C24", "title": "Oldest and newest order", "statement": "With the oldest (newest) strategy a chunk of a submission is never offered before an available chunk of an older (newer) submission.", "quantifier": "every database and reservation state", "why_tests_cant": "All databases.", "anchors": [{"file": "opsqueue/src/consumer/strategy.rs", "symbols": ["build_query"]}]}
{"id": "C25", "title": "Random strategy cuts the deck", "statement": "The random strategy offers first the chunks whose pseudo-random position is at or after the drawn offset and then the others; within one submission consecutive chunk indexes get pairwise different positions (up to 65536 of them), so the order depends on the offset only by where the cycle starts.", "quantifier": "every offset and every database", "why_tests_cant": "All 65536 offsets times all databases.", "anchors": [{"file": "opsqueue/src/consumer/strategy.rs", "symbols": ["push_random_order_query"]}, {"file": "opsqueue/migrations", "symbols": ["20250803174028"]}]}
{"id": "C26", "title": "PreferDistinct prefers the least busy", "statement": "With nested distinct preferences, chunks are offered submission by submission in lexicographic order of the in-flight counts of the submission's values for the preferred keys (outermost key first, submissions without a counted value first), and ties keep the order of the innermost strategy (for keys without NUL characters).", "quantifier": "every database, every in-flight count table, every nesting depth", "why_tests_cant": "All tables of counts and all nestings.", "anchors": [{"file": "opsqueue/src/consumer/strategy.rs", "symbols": ["build_query_snippet_returning_submission_ids", "meta_keys"]}, {"file": "opsqueue/src/consumer/dispatcher/metastate.rs", "symbols": ["to_json"]}]}
{"id": "C27", "title": "A reserve request gets what is available, up to its limit", "statement": "A reserve request with limit n on a quiet server returns min(n, number of available chunks) distinct chunks that were waiting and unreserved, in strategy order, with the right submission data, and afterwards exactly these are newly reserved; limit 0 is refused and changes nothing.", "quantifier": "every server state, strategy and limit", "why_tests_cant": "All states and limits.", "anchors": [{"file": "opsqueue/src/consumer/dispatcher/mod.rs", "symbols": ["fetch_and_reserve_chunks"]}, {"file": "opsqueue/src/consumer/server/state.rs", "symbols": ["fetch_and_reserve_chunks"]}]}
{"id": "C28", "title": "The reserver is exclusive", "statement": "After a key has been reserved, no other reserve of that key succeeds until the reservation is finished, its delayed removal runs, or its expiration time has passed.", "quantifier": "every sequence of reserver calls and clock advances", "why_tests_cant": "Unbounded call sequences and times.", "anchors": [{"file": "opsqueue/src/consumer/dispatcher/reserver.rs", "symbols": ["try_reserve", "finish_reservation", "finish_reservation_sync", "run_pending_tasks"]}]}
{"id": "C29", "title": "Reservations expire and the holder is told", "statement": "A reservation is gone once its expiration time has passed (it never blocks a chunk longer than the configured duration), and the holder of a reservation that was not finished before its expiration is notified at most once, and exactly once when the maintenance task runs after the expiration.", "quantifier": "every sequence of reserver calls and clock advances", "why_tests_cant": "Unbounded sequences and times.", "anchors": [{"file": "opsqueue/src/consumer/dispatcher/reserver.rs", "symbols": ["new", "run_pending_tasks"]}]}
{"id": "C30", "title": "A completed chunk is not handed out again by a slow reader", "statement": "A chunk completed by the consumer holding its reservation is not handed to another consumer by a reserve request whose view of the database was taken before the completion, provided the request reaches the chunk within one second of the completion and the reservation neither expires nor is dropped in that second.", "quantifier": "every schedule of a reserve request, a completion and clock advances", "why_tests_cant": "Needs a race between a read cursor and a completion at every point.", "anchors": [{"file": "opsqueue/src/consumer/dispatcher/reserver.rs", "symbols": ["finish_reservation", "purge_pending_removals"]}, {"file": "opsqueue/src/consumer/server/mod.rs", "symbols": ["handle_message"]}]}
{"id": "C31", "title": "In-flight counters are a bag", "statement": "After any sequence of increments and decrements in which no prefix decrements a value more often than it was incremented, the counter of each value equals increments minus decrements, entries with count zero are absent, and a fully balanced sequence leaves the table empty; unmatched decrements never make a counter negative.", "quantifier": "every sequence of increments and decrements on any keys and values", "why_tests_cant": "All sequences; the existing test checks two.", "anchors": [{"file": "opsqueue/src/consumer/dispatcher/metastate.rs", "symbols": ["increment", "decrement", "is_empty", "get"]}]}
{"id": "C32", "title": "In-flight counts equal the chunks being worked on", "statement": "The in-flight count of a strategic-metadata value equals the number of currently reserved chunks of submissions carrying that value.", "quantifier": "every schedule of reserving, completing, failing, disconnecting and expiring", "why_tests_cant": "Only unlucky schedules break it.", "anchors": [{"file": "opsqueue/src/consumer/dispatcher/mod.rs", "symbols": ["join_chunk_with_submission_info", "finish_reservation", "finish_reservations_sync"]}, {"file": "opsqueue/src/consumer/server/state.rs", "symbols": ["drop"]}]}
{"id": "C33", "title": "Two consumers never work on the same chunk", "statement": "While a connected consumer holds a chunk that it was given, has not finished and whose reservation has not expired, no other consumer is given that chunk.", "quantifier": "every schedule of well-behaved consumers, expirations and disconnects", "why_tests_cant": "Interleavings of several connections, the completer and timers.", "anchors": [{"file": "opsqueue/src/consumer/dispatcher/mod.rs", "symbols": ["fetch_and_reserve_chunks", "finish_reservation"]}, {"file": "opsqueue/src/consumer/server/mod.rs", "symbols": ["handle_message"]}, {"file": "opsqueue/src/consumer/server/state.rs", "symbols": ["drop"]}, {"file": "opsqueue/src/consumer/client.rs", "symbols": ["background_task"]}]}
{"id": "C34", "title": "Two consumers never work on the same chunk when nothing expires", "statement": "As long as every consumer finishes its chunks before their reservations expire and only reports chunks it holds, no two connected consumers hold the same chunk.", "quantifier": "every schedule of reserve requests (interleaved chunk by chunk), completions, failures, disconnects and maintenance", "why_tests_cant": "Interleavings of any number of connections.", "anchors": [{"file": "opsqueue/src/consumer/dispatcher/mod.rs", "symbols": ["fetch_and_reserve_chunks"]}, {"file": "opsqueue/src/consumer/server/mod.rs", "symbols": ["handle_message"]}, {"file": "opsqueue/src/consumer/server/state.rs", "symbols": ["drop"]}]}
{"id": "C35", "title": "A disconnect returns the consumer's chunks", "statement": "When a consumer connection ends, none of the chunks it had been given remains reserved on its account, so each that is still waiting is offered by the next request; the database and other consumers' reservations are unchanged.", "quantifier": "every server state and every consumer", "why_tests_cant": "All states of all other consumers.", "anchors": [{"file": "opsqueue/src/consumer/server/state.rs", "symbols": ["drop"]}, {"file": "opsqueue/src/consumer/dispatcher/mod.rs", "symbols": ["finish_reservations_sync"]}]}
{"id": "C36", "title": "A reserve request never brings down the connection", "statement": "A reserve request always yields a response (chunks, wait, or a usage error), whatever other clients do at the same time, and chunks it reserved are never left reserved without having been handed out.", "quantifier": "every interleaving of a reserve request with cancellations and permanent failures", "why_tests_cant": "Needs a cancellation exactly between two reads.", "anchors": [{"file": "opsqueue/src/consumer/dispatcher/mod.rs", "symbols": ["join_chunk_with_submission_info"]}, {"file": "opsqueue/src/consumer/server/conn.rs", "symbols": ["handle_incoming_client_message"]}]}
{"id": "C37", "title": "A waiting consumer is woken by new work", "statement": "A consumer whose reserve request found no work gets work without asking again as soon as some chunk becomes available.", "quantifier": "every interleaving of the request, inserts, retries and disconnects", "why_tests_cant": "The lost-wake-up window is between two instructions.", "anchors": [{"file": "opsqueue/src/consumer/server/conn.rs", "symbols": ["handle_incoming_client_message"]}, {"file": "opsqueue/src/producer/server.rs", "symbols": ["insert_submission"]}]}
{"id": "C38", "title": "Heartbeats", "statement": "A consumer connection whose peer sends at least one message between any m+1 successive heartbeat ticks is never closed for missed heartbeats, and one whose peer stays silent is closed at the (m+2)-nd tick after its last message, m being the configured maximum of missable heartbeats; the same holds for the client's own check.", "quantifier": "every sequence of ticks and messages, every m", "why_tests_cant": "All sequences and thresholds.", "anchors": [{"file": "opsqueue/src/consumer/server/conn.rs", "symbols": ["beat_heart", "handle_incoming_msg"]}, {"file": "opsqueue/src/consumer/client.rs", "symbols": ["background_task"]}]}
{"id": "C39", "title": "Responses reach the request that asked", "statement": "Each response is delivered to the request with its nonce and to no other, pending requests have pairwise different nonces, and a fire-and-forget message never takes the nonce of a pending request.", "quantifier": "every sequence of requests, notifications, responses and connection losses on a connection", "why_tests_cant": "Interleavings of concurrent requests on one connection.", "anchors": [{"file": "opsqueue/src/consumer/client.rs", "symbols": ["next_nonce_with_oneshot", "send", "clear", "sync_request", "async_request"]}]}
{"id": "C40", "title": "Success wins over a later expiry notice", "statement": "If a consumer reported a chunk complete before it answered the expiry notice of the same chunk, the chunk is recorded completed and its retry counter is not increased.", "quantifier": "every server state and every other message in between", "why_tests_cant": "Race between the expiry notice and the completion.", "anchors": [{"file": "opsqueue/src/consumer/client.rs", "symbols": ["background_task"]}, {"file": "opsqueue/src/consumer/server/mod.rs", "symbols": ["handle_message"]}]}
{"id": "C41", "title": "A restart loses no work", "statement": "If the server process dies at any moment and is restarted on the same database, every chunk that was waiting is available to reserve, and every completion that was recorded stays recorded.", "quantifier": "every server state and crash point", "why_tests_cant": "Crash at every point.", "anchors": [{"file": "opsqueue/src/consumer/dispatcher/mod.rs", "symbols": ["new"]}, {"file": "opsqueue/src/db/mod.rs", "symbols": ["transaction"]}]}
{"id": "C42", "title": "Work gets done", "statement": "If consumers keep reserving and completing, every non-empty submission that is neither failed nor cancelled becomes completed: the total amount of remaining work strictly decreases with each completion and each failure report, and while a submission is in progress with waiting chunks, a reserve request on a server without reservations returns a chunk.", "quantifier": "every reachable state", "why_tests_cant": "A termination argument over unbounded histories.", "anchors": [{"file": "opsqueue/src/common/chunk.rs", "symbols": ["complete_chunk", "retry_or_fail_chunk"]}, {"file": "opsqueue/src/consumer/dispatcher/mod.rs", "symbols": ["fetch_and_reserve_chunks"]}]}
{"id": "C43", "title": "One insert call creates one submission", "statement": "An insert call of the producer client that returns successfully has created exactly one submission.", "quantifier": "every pattern of network failures and retries", "why_tests_cant": "Depends on a response being lost after the server committed.", "anchors": [{"file": "opsqueue/src/producer/client.rs", "symbols": ["insert_submission", "is_ephemeral", "retry_policy"]}]}
{"id": "C44", "title": "The producer client retries only what may succeed later", "statement": "The producer client repeats a request exactly when it failed to connect, timed out, could not be decoded in transit, or was answered with a 5xx status by a status check, at most 100 times; definite answers (not found, not cancellable, too many, other 4xx) are returned at once.", "quantifier": "every sequence of outcomes", "why_tests_cant": "All outcome sequences and their lengths.", "anchors": [{"file": "opsqueue/src/producer/client.rs", "symbols": ["is_ephemeral", "retry_policy", "cancel_submission"]}]}
{"id": "C45", "title": "Identifiers convert without loss", "statement": "Submission ids and chunk indexes convert between 63-bit, signed and unsigned 64-bit integers without change, and conversion is refused exactly for negative numbers and numbers above 2^63-1; generated ids are strictly increasing and encode their creation time in milliseconds.", "quantifier": "every 64-bit integer; every generator history", "why_tests_cant": "2^64 inputs and all generator histories.", "anchors": [{"file": "opsqueue/src/common/chunk.rs", "symbols": ["ChunkIndex"]}, {"file": "opsqueue/src/common/submission.rs", "symbols": ["SubmissionId"]}]}
{"id": "C46", "title": "Lookup limits never overflow", "statement": "Every accepted maximum is positive and can be increased by one without leaving the signed 64-bit range, and every rejected value is zero or too large; the documented bound is met.", "quantifier": "every 64-bit value", "why_tests_cant": "2^64 inputs.", "anchors": [{"file": "opsqueue/src/common/mod.rs", "symbols": ["MaxSubmissions"]}]}
{"id": "C47", "title": "Objects of different chunks never collide and round-trip in order", "statement": "Different (prefix without slash, index, input/output) triples give different object paths; storing a sequence of chunks and retrieving that many returns the same sequence in the same order and touches no object of other prefixes or of the other kind.", "quantifier": "every base, prefix, index and sequence", "why_tests_cant": "All strings and numbers.", "anchors": [{"file": "opsqueue/src/object_store/mod.rs", "symbols": ["chunk_path", "store_chunks", "retrieve_chunks"]}]}
{"id": "C48", "title": "Chunking and unchunking are inverse", "statement": "Splitting operations into chunks and joining them again gives the same operations in the same order; every chunk but the last has exactly the chunk size and none is empty; a non-positive size is refused.", "quantifier": "every list of operations and every chunk size", "why_tests_cant": "All lengths and sizes.", "anchors": [{"file": "libs/opsqueue_python/python/opsqueue/producer.py", "symbols": ["_chunk_iterator", "_unchunk_iterator"]}]}
{"id": "C49", "title": "A submission run end to end gives the results in order", "statement": "For a producer using an object store, if consumers apply a function to each operation of each chunk they complete, then once the submission is reported completed, streaming its outputs yields the function's results for all operations, in the original order.", "quantifier": "every list of operations, chunk size, order of chunk completions, retries and duplicates", "why_tests_cant": "Any schedule of consumers.", "anchors": [{"file": "libs/opsqueue_python/src/producer.rs", "symbols": ["insert_submission_chunks", "maybe_stream_completed_submission"]}, {"file": "libs/opsqueue_python/src/consumer.rs", "symbols": ["complete_chunk_gilless"]}, {"file": "libs/opsqueue_python/python/opsqueue/producer.py", "symbols": ["_chunk_iterator"]}]}
{"id": "C50", "title": "Waiting for a submission terminates when the submission does", "statement": "A producer that waits for the outputs of a submission gets an answer once the submission has reached any terminal state.", "quantifier": "every terminal state and every polling schedule", "why_tests_cant": "The missing case never returns, which a test cannot observe.", "anchors": [{"file": "libs/opsqueue_python/src/producer.rs", "symbols": ["maybe_stream_completed_submission", "stream_completed_submission_chunks"]}]}
{"id": "C51", "title": "Outputs of inline submissions can be streamed", "statement": "The outputs of a completed submission can be streamed by the producer also when its chunks were sent inline.", "quantifier": "every inline submission", "why_tests_cant": "All inline submissions behave alike; needs the whole path from complete to stream.", "anchors": [{"file": "libs/opsqueue_python/src/producer.rs", "symbols": ["insert_submission_direct", "maybe_stream_completed_submission"]}, {"file": "libs/opsqueue_python/src/consumer.rs", "symbols": ["complete_chunk_gilless"]}]}
{"id": "C52", "title": "Polling backs off within bounds", "statement": "The interval between two polls never decreases, never exceeds five seconds, and reaches five seconds after a bounded number of polls.", "quantifier": "every number of polls", "why_tests_cant": "Unbounded number of polls.", "anchors": [{"file": "libs/opsqueue_python/src/producer.rs", "symbols": ["stream_completed_submission_chunks"]}]}
{"id": "C53", "title": "A failed batch retrieval keeps no chunk hostage", "statement": "If a consumer cannot fetch the content of one of the chunks it reserved, the other chunks of the batch are worked on or returned without waiting for the reservation timeout.", "quantifier": "every batch and every position of the failing chunk", "why_tests_cant": "All batches and positions.", "anchors": [{"file": "libs/opsqueue_python/src/consumer.rs", "symbols": ["reserve_and_retrieve_chunks"]}]}
{"id": "C54", "title": "Strategies survive the language boundary", "statement": "Converting a strategy from the server form to the Python form and back gives the same strategy.", "quantifier": "every strategy of any nesting depth", "why_tests_cant": "Unbounded nesting.", "anchors": [{"file": "libs/opsqueue_python/src/common.rs", "symbols": ["Strategy"]}]}
{"id": "C55", "title": "A crashed consumer's chunks are marked as failed", "statement": "When a consumer crashes, each chunk it had reserved has its retry counter incremented, so a chunk that always crashes its consumer eventually fails its submission.", "quantifier": "every consumer and every set of reserved chunks", "why_tests_cant": "Needs unboundedly many crashes of one chunk.", "anchors": [{"file": "libs/opsqueue_python/python/opsqueue/consumer.py", "symbols": ["run_each_chunk"]}, {"file": "opsqueue/src/consumer/server/state.rs", "symbols": ["drop"]}, {"file": "opsqueue/src/common/chunk.rs", "symbols": ["retry_or_fail_chunk"]}]}
{"id": "C56", "title": "In-flight counts are looked up by the whole key", "statement": "A preference for distinct values of a metadata key compares the in-flight counts of exactly that key, whatever characters the key contains.", "quantifier": "every key", "why_tests_cant": "All strings.", "anchors": [{"file": "opsqueue/src/consumer/dispatcher/mod.rs", "symbols": ["sqlite_metadata_counts_lookup"]}, {"file": "opsqueue/src/consumer/strategy.rs", "symbols": ["build_query_snippet_returning_submission_ids"]}]}
{"id": "C57", "title": "Submissions can be made on any date", "statement": "Inserting a submission yields an identifier whatever the date of the server's clock.", "quantifier": "every clock reading from 2010 on", "why_tests_cant": "All dates.", "anchors": [{"file": "opsqueue/src/common/submission.rs", "symbols": ["SubmissionId"]}]}
{"id": "C58", "title": "No reserve call waits on a dead connection", "statement": "A reserve call of the consumer client that waits for an answer returns with an error once the client no longer reads from the connection; this also holds for calls made after that.", "quantifier": "every interleaving of calls, notifications, responses and losses of the connection", "why_tests_cant": "All interleavings.", "anchors": [{"file": "opsqueue/src/consumer/client.rs", "symbols": ["background_task"]}, {"file": "opsqueue/src/consumer/client.rs", "symbols": ["sync_request"]}, {"file": "opsqueue/src/consumer/client.rs", "symbols": ["clear"]}]}
{"id": "C59", "title": "A cancel call tells what it did", "statement": "A cancel call of the producer client that succeeds has cancelled a submission that was in progress; one that reports 'not cancellable' or 'not found' has changed nothing, the submission having been finished or unknown without its doing.", "quantifier": "every pattern of network failures and retries, every behaviour of other clients meanwhile", "why_tests_cant": "All failure patterns.", "anchors": [{"file": "opsqueue/src/producer/client.rs", "symbols": ["cancel_submission"]}, {"file": "opsqueue/src/producer/client.rs", "symbols": ["retry_policy"]}]}
{"id": "C60", "title": "Lookup by prefix works for every prefix", "statement": "The producer client's lookup of a submission by prefix finds a submission that was inserted with exactly this prefix, if there is one.", "quantifier": "every prefix", "why_tests_cant": "All strings.", "anchors": [{"file": "opsqueue/src/producer/client.rs", "symbols": ["lookup_submission_id_by_prefix"]}, {"file": "opsqueue/src/producer/server.rs", "symbols": ["lookup_submission_id_by_prefix"]}]}
{"id": "C61", "title": "A power failure undoes only the latest operations", "statement": "After a power failure the server is in the state it had at one point since its last checkpoint: every operation before that point is there, no operation after it; whatever power failures happened, the state is one that some of the requested operations lead to without any.", "quantifier": "every sequence of operations, crashes, checkpoints and power failures, every point", "why_tests_cant": "Power failures at every point between any operations.", "anchors": [{"file": "opsqueue/src/db/mod.rs", "symbols": ["open_and_setup", "db_options", "perform_explicit_wal_checkpoint", "periodically_checkpoint_wal"]}]}
{"id": "C62", "title": "Acknowledged operations survive a power failure", "statement": "An operation that was answered with success is still there after a power failure of the server's machine.", "quantifier": "every operation and every point at which the power fails", "why_tests_cant": "Needs a power failure in the window between the answer and the next checkpoint.", "anchors": [{"file": "opsqueue/src/db/mod.rs", "symbols": ["open_and_setup", "db_options", "perform_explicit_wal_checkpoint"]}]}
{"id": "C63", "title": "Finished submissions are kept for the configured age and then removed", "statement": "A finished submission keeps its status for at least the configured maximum age after its reported finishing time, and is gone for good after the first successful cleanup round after that, which starts at most one minute and the duration of a round later.", "quantifier": "every history, every configured age, every duration of rounds, any failing rounds", "why_tests_cant": "Unbounded time and any interleaving of rounds with operations.", "anchors": [{"file": "opsqueue/src/common/submission.rs", "symbols": ["periodically_cleanup_old", "cleanup_old"]}, {"file": "opsqueue/app/main.rs", "symbols": ["async_main"]}]}
{"id": "C64", "title": "The backlog gauges measure the backlog", "statement": "Whenever the gauges are set, the chunk gauge is set to the number of chunks waiting to be worked on, and the operations gauge to the sum of the chunk sizes of their submissions, which exceeds the number of waiting operations by less than one chunk per submission in progress.", "quantifier": "every history, also when other operations happen between the two queries", "why_tests_cant": "All histories and all chunk sizes.", "anchors": [{"file": "opsqueue/src/prometheus.rs", "symbols": ["calculate_scaling_metrics"]}, {"file": "opsqueue/src/common/chunk.rs", "symbols": ["count_chunks", "count_ops_in_backlog_estimate"]}]}
{"id": "C65", "title": "The counters agree with the database", "statement": "The Prometheus counters satisfy what their descriptions say: submissions in progress are the total minus completed, failed and cancelled ones; chunks in the backlog are the total minus completed, failed and skipped ones; the counters of finished submissions and chunks count those in the database; none of them misses a change.", "quantifier": "every history of operations since the server started", "why_tests_cant": "All histories, including repeated reports and failing statements.", "anchors": [{"file": "opsqueue/src/prometheus.rs", "symbols": ["describe_metrics"]}, {"file": "opsqueue/src/common/chunk.rs", "symbols": ["complete_chunk", "retry_or_fail_chunk", "skip_remaining_chunks"]}, {"file": "opsqueue/src/common/submission.rs", "symbols": ["insert_submission", "complete_submission_raw", "cancel_submission_raw", "fail_submission_raw"]}]}
{"id": "C66", "title": "The database statements fit the tables and mean what the API promises", "statement": "Sent to a database file made by the server's own migrations, the SQL statements of every operation and status query are accepted and give the effects and answers that the other properties are stated about; no statement is refused for an unknown table or column or a missing value, and no row it gets back is unreadable.", "quantifier": "every history of operations with failing statements and crashes, every next operation or query", "why_tests_cant": "The statements are text: a wrong column, parameter number, join condition or default shows only on the histories that reach it.", "anchors": [{"file": "opsqueue/src/common/chunk.rs", "symbols": ["complete_chunk_raw", "move_chunk_to_failed_chunks", "insert_many_chunks", "skip_remaining_chunks"]}, {"file": "opsqueue/src/common/submission.rs", "symbols": ["insert_submission_raw", "submission_status", "complete_submission_raw", "cancel_submission_raw", "cleanup_old"]}, {"file": "opsqueue/migrations", "symbols": ["*.sql"]}]}
{"id": "C67", "title": "An upgrade keeps everything", "statement": "When the server is started on a database file written by any earlier version, all outstanding migrations succeed whatever the file contains, also when the upgrade is interrupted and started again, and afterwards every submission and every chunk has the status, contents and metadata it had; where a submission had several values for one strategic key the largest is kept.", "quantifier": "every earlier version of the schema, every content of the file, every point of interruption, every later history", "why_tests_cant": "All contents of old files; the old versions are not in the test suite.", "anchors": [{"file": "opsqueue/migrations", "symbols": ["*.sql"]}, {"file": "opsqueue/src/db/mod.rs", "symbols": ["open_and_setup", "ensure_db_migrated"]}]}
{"id": "C68", "title": "A consumer client can be used by several threads", "statement": "Calls on one consumer client never panic, also from several threads; a call uses the connection in place as long as it is healthy and a new one after an error; a healthy connection on which chunks were reserved is not closed because of other calls.", "quantifier": "every interleaving of calls, connects, errors and losses of connections", "why_tests_cant": "Needs another thread between two instructions of a call.", "anchors": [{"file": "opsqueue/src/consumer/client.rs", "symbols": ["OuterClient::reserve_chunks", "OuterClient::complete_chunk", "OuterClient::fail_chunk", "ensure_initialized", "initialize", "is_healthy"]}]}
{"id": "C69", "title": "One address serves producers and consumers", "statement": "A producer client and a consumer client that are given the same address talk to the same server, under the same base path.", "quantifier": "every address", "why_tests_cant": "All strings.", "anchors": [{"file": "opsqueue/src/producer/client.rs", "symbols": ["Client::new"]}, {"file": "opsqueue/src/consumer/client.rs", "symbols": ["Client::new"]}]}
{"id": "C70", "title": "A Python consumer reports on every chunk it works on", "statement": "run_per_chunk calls the function once for every chunk it reserves, in order, and after each call reports on that chunk: completed with the bytes returned, or failed with the text of the exception; it reports on nothing else and does nothing after its end.", "quantifier": "every sequence of reservations, results and exceptions of the function, errors and interrupts", "why_tests_cant": "All sequences of outcomes and errors.", "anchors": [{"file": "libs/opsqueue_python/src/consumer.rs", "symbols": ["run_per_chunk", "compute_chunk_outcome"]}]}
{"id": "C71", "title": "A Python consumer stops when interrupted", "statement": "run_per_chunk ends when an interrupt comes, while it waits or in the user's function, and no error of the network or the function's own Exceptions ends it.", "quantifier": "every sequence of reservations, results and exceptions of the function, errors and interrupts", "why_tests_cant": "Needs an interrupt and a lost connection at the same time.", "anchors": [{"file": "libs/opsqueue_python/src/consumer.rs", "symbols": ["run_per_chunk", "compute_chunk_outcome", "block_unless_interrupted"]}]}
{"id": "C72", "title": "A Python consumer logs its progress", "statement": "run_per_chunk logs the number of chunks it has processed whenever this is a multiple of 50.", "quantifier": "every sequence of reservations and outcomes", "why_tests_cant": "Unbounded runs.", "anchors": [{"file": "libs/opsqueue_python/src/consumer.rs", "symbols": ["run_per_chunk", "compute_chunk_outcome"]}]}
{"id": "C73", "title": "A parent process learns the port", "statement": "The pipe given with --report-bound-port-pipe carries the port on which the server listens, as two bytes with the higher first, and is then closed; if the server cannot tell a port the pipe is closed without a byte, so that a parent can wait for it.", "quantifier": "every sequence of failing and succeeding attempts to bind and to serve", "why_tests_cant": "All sequences of failures of the system calls.", "anchors": [{"file": "opsqueue/src/server.rs", "symbols": ["serve_producer_and_consumer", "retry_policy"]}, {"file": "opsqueue/src/config.rs", "symbols": ["ReportBoundPortPipe::take", "BoundPortPipe::write_port"]}]}
{"id": "C74", "title": "/ping tells whether the database works", "statement": "/ping answers 200 exactly if the last finished check of the database was good; checks are not older than the pause and twice the time a check takes; it answers 503 before the first check and after the shutdown has begun.", "quantifier": "every sequence of checks with any durations and results, every time of shutdown, every time of asking", "why_tests_cant": "Unbounded time.", "anchors": [{"file": "opsqueue/src/server.rs", "symbols": ["ping", "app_watchdog"]}, {"file": "opsqueue/src/db/mod.rs", "symbols": ["check_health"]}, {"file": "opsqueue/app/main.rs", "symbols": ["async_main"]}]}
{"id": "C75", "title": "The SQL that finds work and submissions asks for what is promised", "statement": "The query built for a strategy yields exactly the waiting, unreserved chunks in the orders the strategy promises, for every nesting of preferences; the lookup by prefix yields a submission that carries it, an unfinished one if there is one; the lookup by metadata yields the matching submissions by increasing id up to the limit; the backlog query yields the sum of the chunk sizes of the waiting chunks.", "quantifier": "every strategy, random offset, set of reserved chunks and counters, every history of the database, every order in which SQLite may read a table or an inner join, every prefix and every set of constraints in any order", "why_tests_cant": "All nestings of strategies, all contents of the tables and all orders of rows that SQL leaves open.", "anchors": [{"file": "opsqueue/src/consumer/strategy.rs", "symbols": ["build_query", "build_query_snippet_returning_chunks", "build_query_snippet_returning_submission_ids", "push_random_order_query"]}, {"file": "opsqueue/src/common/submission.rs", "symbols": ["lookup_id_by_prefix", "lookup_ids_by_strategic_metadata", "lookup_ids_by_strategic_metadata_query"]}, {"file": "opsqueue/src/common/chunk.rs", "symbols": ["count_ops_in_backlog_estimate"]}, {"file": "opsqueue/src/consumer/dispatcher/mod.rs", "symbols": ["sqlite_reserved_chunk_lookup", "sqlite_metadata_counts_lookup"]}]}
{"id": "C76", "title": "A Python query returns what the server held at one moment of the call", "statement": "get_submission_status, lookup_submission_id_by_prefix, lookup_submission_ids_by_strategic_metadata and count_submissions change nothing, and return what the server held when it handled one of the attempts, with every field of a submission as the server has it; more matches than the server allows raise TooManyMatchingSubmissionsError with the limit; everything else that goes wrong raises InternalProducerClientError.", "quantifier": "every history of the server before and during the call, every sequence of failing attempts, lost or unreadable answers, database errors and crashes", "why_tests_cant": "All histories and all sequences of failures of up to 101 attempts.", "anchors": [{"file": "libs/opsqueue_python/src/producer.rs", "symbols": ["get_submission_status", "lookup_submission_id_by_prefix", "lookup_submission_ids_by_strategic_metadata", "count_submissions"]}, {"file": "libs/opsqueue_python/src/common.rs", "symbols": ["SubmissionStatus", "Submission"]}, {"file": "libs/opsqueue_python/src/errors.rs", "symbols": ["CError"]}]}
{"id": "C77", "title": "A refused call raises the documented exception", "statement": "cancel_submission raises SubmissionNotFoundError with the id if there is no such submission and SubmissionNotCancellableError with the submission as it is (and the failed chunk exactly if it failed) if it is finished; try_stream_completed_submission_chunks streams a completed submission, raises SubmissionFailedError with the failed chunk and its message for a failed one and SubmissionNotCompletedYetError otherwise. Handlers for OpsqueueInternalError and for IncorrectUsageError never catch each other's exceptions.", "quantifier": "every history of the server before and during the call, every sequence of failing attempts in which no reply gets lost", "why_tests_cant": "All histories and all sequences of failures.", "anchors": [{"file": "libs/opsqueue_python/src/producer.rs", "symbols": ["cancel_submission", "try_stream_completed_submission_chunks", "maybe_stream_completed_submission"]}, {"file": "libs/opsqueue_python/src/errors.rs", "symbols": ["CError"]}, {"file": "libs/opsqueue_python/python/opsqueue/exceptions.py", "symbols": ["SubmissionNotCancellableError", "SubmissionFailedError", "IncorrectUsageError", "OpsqueueInternalError"]}]}
{"id": "C78", "title": "Errors of the caller's own chunks reach the caller", "statement": "If the iterator given to insert_submission_chunks raises, that exception reaches the caller (fatal ones like KeyboardInterrupt unwrapped) and nothing is submitted; if an upload fails, a ChunksStorageError tells so and nothing is submitted; if the call returns, every chunk is in the object store and the submission has that many chunks.", "quantifier": "every sequence of chunks and exceptions of the iterator, every outcome of the uploads and of the attempts to insert", "why_tests_cant": "All sequences of chunks, exceptions and failures.", "anchors": [{"file": "libs/opsqueue_python/src/producer.rs", "symbols": ["insert_submission_chunks"]}, {"file": "opsqueue/src/object_store/mod.rs", "symbols": ["store_chunks", "ChunksStorageError"]}, {"file": "libs/opsqueue_python/src/errors.rs", "symbols": ["FatalPythonException", "CError"]}]}
{"id": "C79", "title": "Ctrl-C interrupts a call of a Python producer", "statement": "A call of the producer client that waits ends at most one second after a signal whose handler raises; it raises only if such a signal came; without one it ends when and how it would have ended.", "quantifier": "every time at which the call would end, if ever, every time of a signal, every choice of the scheduler", "why_tests_cant": "Unbounded time and all coincidences of signal and result.", "anchors": [{"file": "libs/opsqueue_python/src/common.rs", "symbols": ["run_unless_interrupted", "check_signals_in_background", "SIGNAL_CHECK_INTERVAL"]}]}
{"id": "C80", "title": "The gauge of connected consumers counts the connected consumers", "statement": "At every moment the metric consumers_connected_gauge equals the number of consumers whose connection is open.", "quantifier": "every run of the server: all interleavings of connections, requests, reports, disconnects, producers' requests, errors and restarts", "why_tests_cant": "All interleavings, including a cancellation that races with a reservation.", "anchors": [{"file": "opsqueue/src/consumer/server/mod.rs", "symbols": ["ws_accept_handler"]}, {"file": "opsqueue/src/prometheus.rs", "symbols": ["CONSUMERS_CONNECTED_GAUGE"]}]}
{"id": "C81", "title": "The chunk duration histograms record how long consumers worked", "statement": "Every report on a chunk adds one sample to the histogram of completed or failed chunks: the time for which the reporting consumer has had the chunk.", "quantifier": "every run of the server and every report in it", "why_tests_cant": "Unbounded time; late reports race with the expiry of reservations.", "anchors": [{"file": "opsqueue/src/consumer/server/mod.rs", "symbols": ["handle_message"]}, {"file": "opsqueue/src/consumer/dispatcher/reserver.rs", "symbols": ["finish_reservation"]}, {"file": "opsqueue/src/prometheus.rs", "symbols": ["CHUNKS_DURATION_COMPLETED_HISTOGRAM", "CHUNKS_DURATION_FAILED_HISTOGRAM"]}]}
{"id": "C82", "title": "The counter of successful reservations counts the chunks given out", "statement": "The number of successful reservations is never below the number of chunks given to consumers, and equals it whenever no request is being served.", "quantifier": "every run of the server", "why_tests_cant": "All interleavings of requests, errors and disconnects.", "anchors": [{"file": "opsqueue/src/consumer/dispatcher/reserver.rs", "symbols": ["try_reserve"]}, {"file": "opsqueue/src/prometheus.rs", "symbols": ["RESERVER_RESERVATIONS_SUCCEEDED_COUNTER"]}]}
{"id": "C83", "title": "The process ends when told to, and its status tells why", "statement": "Once started, the server runs until Ctrl-C, which ends the process within half a second, or until it has failed to listen eleven times, which ends it within about two seconds plus the time of the attempts; a database that is not open after ten seconds ends it then; the exit status is zero exactly if the process was asked to end.", "quantifier": "every time at which the database opens, every sequence of failing attempts with any durations, every time of Ctrl-C", "why_tests_cant": "Unbounded time and all sequences of failures.", "anchors": [{"file": "opsqueue/app/main.rs", "symbols": ["async_main"]}, {"file": "opsqueue/src/server.rs", "symbols": ["serve_producer_and_consumer", "retry_policy"]}, {"file": "opsqueue/src/db/mod.rs", "symbols": ["open_and_setup"]}]}
{"id": "C84", "title": "Every command line that is accepted gives a working server", "statement": "The file descriptor for the port is read as a decimal number, -1 meaning none; with every value of the other options that is accepted the process starts, consumers can connect and a chunk that has been given to a consumer is not given to another one at once.", "quantifier": "every number given as file descriptor; every expiration time, heartbeat interval and maximum age", "why_tests_cant": "All values of the options.", "anchors": [{"file": "opsqueue/src/config.rs", "symbols": ["Config", "parse_report_bound_port_fd"]}, {"file": "opsqueue/src/consumer/dispatcher/reserver.rs", "symbols": ["Reserver::new"]}, {"file": "opsqueue/src/consumer/server/conn.rs", "symbols": ["ConsumerConn::new"]}, {"file": "opsqueue/src/common/submission.rs", "symbols": ["periodically_cleanup_old"]}]}
{"id": "C85", "title": "What one side sends is what the other reads", "statement": "Every request of a producer reaches the server's handler for it with the same arguments, whatever strings and numbers they contain, and the producer reads from the answer what the handler answered; every message between a consumer and the server is read as it was sent. Members that an older or newer client leaves out or adds do not change the meaning of the others, in any order; numbers that are no ids are refused.", "quantifier": "every request, answer and message with values of their Rust types; every result of the handlers under every pattern of database errors", "why_tests_cant": "All values of all types, all strings and maps.", "anchors": [{"file": "opsqueue/src/producer/common.rs", "symbols": ["InsertSubmission", "ChunkContents"]}, {"file": "opsqueue/src/producer/client.rs", "symbols": ["Client"]}, {"file": "opsqueue/src/producer/server.rs", "symbols": ["build_router"]}, {"file": "opsqueue/src/consumer/common.rs", "symbols": ["ClientToServerMessage", "ServerToClientMessage", "Envelope"]}, {"file": "opsqueue/src/common/chunk.rs", "symbols": ["ChunkId", "Chunk", "ChunkFailed"]}, {"file": "opsqueue/src/common/submission.rs", "symbols": ["SubmissionId", "SubmissionStatus"]}, {"file": "opsqueue/src/common/errors.rs", "symbols": ["SubmissionNotCancellable"]}]}
{"id": "C86", "title": "Requests and replies of any size get through", "statement": "Chunks that are sent in the request itself, metadata of any size, reservations of any number of chunks and outputs of any size are transferred.", "quantifier": "every insert, reservation and report", "why_tests_cant": "Unbounded sizes; the limits are defaults of libraries that appear nowhere in the code.", "anchors": [{"file": "opsqueue/src/producer/server.rs", "symbols": ["insert_submission", "build_router"]}, {"file": "opsqueue/src/consumer/client.rs", "symbols": ["Client"]}, {"file": "opsqueue/src/consumer/server/mod.rs", "symbols": ["ws_accept_handler"]}, {"file": "opsqueue/src/consumer/common.rs", "symbols": ["ClientToServerMessage", "SyncServerToClientResponse"]}]}
{"id": "C87", "title": "Requests handled at the same time behave as if handled one after the other", "statement": "Whatever requests, reports, cleanups and checks the server handles at the same time: there is an order of the operations, one after the other, that explains every answer and what is in the database; an operation that was through before another came precedes it; an operation whose client hung up, or that was lost in a crash, occurs in it as a whole, in part as its own crash semantics allows, or not at all. The connection for writing always comes back.", "quantifier": "every interleaving of all tasks, statement by statement, with every pattern of database errors, hang-ups and crashes", "why_tests_cant": "All interleavings of any number of tasks.", "anchors": [{"file": "opsqueue/src/db/mod.rs", "symbols": ["DBPools", "writer_conn", "db_connect_write_pool", "check_health", "perform_explicit_wal_checkpoint"]}, {"file": "opsqueue/src/producer/server.rs", "symbols": ["insert_submission", "cancel_submission"]}, {"file": "opsqueue/src/consumer/server/mod.rs", "symbols": ["Completer"]}]}
{"id": "C88", "title": "A query answers for a moment of its run", "statement": "The answer to a status query, a lookup or a count is right for a moment between the request and the answer, however others change the database meanwhile; a status query of a submission that is there all the time finds it, and fails only if the database does or if a failed submission is cleaned up in the middle; the two gauges for scaling are right for one moment each.", "quantifier": "every interleaving of a query with all other tasks, statement by statement", "why_tests_cant": "All interleavings of any number of tasks.", "anchors": [{"file": "opsqueue/src/producer/server.rs", "symbols": ["submission_status", "lookup_submission_id_by_prefix", "lookup_submission_ids_by_strategic_metadata", "submissions_count", "submissions_count_completed"]}, {"file": "opsqueue/src/prometheus.rs", "symbols": ["calculate_scaling_metrics"]}, {"file": "opsqueue/src/db/mod.rs", "symbols": ["reader_conn", "db_connect_read_pool"]}]}
{"id": "C89", "title": "Others see an operation not at all or as a whole", "statement": "At every moment what is visible to everybody is what a number of whole operations, one after the other, make of an empty database.", "quantifier": "every moment of every interleaving of all tasks", "why_tests_cant": "All interleavings of any number of tasks.", "anchors": [{"file": "opsqueue/src/db/mod.rs", "symbols": ["Connection", "WriterConnection"]}, {"file": "opsqueue/src/common/submission.rs", "symbols": ["insert_submission", "maybe_complete_submission"]}]}
{"id": "C90", "title": "Requests do not wait for each other's database connections", "statement": "Every reserve request of a consumer and every query of a producer is answered, without a timeout and without an empty list caused by one, however many come at the same time.", "quantifier": "every number of reader connections, every number of consumers and queries, every interleaving of their steps", "why_tests_cant": "All interleavings of any number of tasks that take one or two connections of a pool of any size.", "anchors": [{"file": "opsqueue/src/consumer/dispatcher/mod.rs", "symbols": ["fetch_and_reserve_chunks", "join_chunk_with_submission_info"]}, {"file": "opsqueue/src/db/mod.rs", "symbols": ["db_connect_read_pool", "reader_conn"]}, {"file": "opsqueue/src/config.rs", "symbols": ["max_read_pool_size"]}, {"file": "opsqueue/src/consumer/server/conn.rs", "symbols": ["handle_incoming_client_message"]}]}
{"id": "C91", "title": "A connection between two healthy ends stays open", "statement": "As long as the server and the client are both running and messages arrive in time, neither of them closes their connection for missed heartbeats, whatever the client asks and reports. If one of them is gone, the other closes it within a time that the settings give.", "quantifier": "every heartbeat interval, number of heartbeats that may be missed, bound on delays, and every interleaving of ticks, messages and time", "why_tests_cant": "All timings of two clocks and the messages between them over an unbounded time.", "anchors": [{"file": "opsqueue/src/consumer/server/conn.rs", "symbols": ["beat_heart", "handle_incoming_msg", "run"]}, {"file": "opsqueue/src/consumer/client.rs", "symbols": ["background_task"]}, {"file": "opsqueue/src/config.rs", "symbols": ["heartbeat_interval", "max_missable_heartbeats"]}]}
{"id": "C92", "title": "Iterating over the results gives each of them once", "statement": "The iterator over a completed submission's results returns what is stored for each chunk, each exactly once and in order for a plain loop; nothing is skipped silently, also if several threads or asyncio tasks share it or a waiting call is cancelled; after the end it keeps reporting the end.", "quantifier": "every number of chunks, every interleaving of calls, their tasks, retrievals and cancellations", "why_tests_cant": "All interleavings of any number of callers and cancellations.", "anchors": [{"file": "libs/opsqueue_python/src/producer.rs", "symbols": ["PyChunksIter", "PyChunksAsyncIter", "__next__", "__anext__"]}, {"file": "opsqueue/src/object_store/mod.rs", "symbols": ["retrieve_chunks"]}]}
{"id": "C93", "title": "A waiting Python consumer can be interrupted", "statement": "A call of reserve_chunks, and a consumer loop that waits for chunks, ends at most a few seconds after a signal whose handler raises (Ctrl-C), and raises only if such a signal came.", "quantifier": "every sequence of attempts, with any durations and results, and every moment of the signal", "why_tests_cant": "Any number of attempts of any durations, and a signal at any moment of them.", "anchors": [{"file": "libs/opsqueue_python/src/consumer.rs", "symbols": ["reserve_chunks_gilless", "block_unless_interrupted", "sleep_unless_interrupted"]}, {"file": "libs/opsqueue_python/src/common.rs", "symbols": ["run_unless_interrupted", "check_signals_in_background", "SIGNAL_CHECK_INTERVAL"]}]}
{"id": "C94", "title": "A Python consumer holds only the chunk it works on", "statement": "At every moment at most one chunk is reserved for a consumer that runs run_per_chunk, namely the one it works on; it never keeps others from working on chunks that it does not work on itself.", "quantifier": "every sequence of answers, results of the user's function, errors of the connection and the object store, and interrupts", "why_tests_cant": "Unbounded runs in which any step may fail.", "anchors": [{"file": "libs/opsqueue_python/src/consumer.rs", "symbols": ["run_per_chunk", "compute_chunk_outcome", "reserve_and_retrieve_chunks", "complete_chunk_gilless"]}]}
{"id": "C95", "title": "An interrupted reserve call gives its chunks back", "statement": "Every chunk that the server reserved for a call of reserve_chunks is returned by the call, or goes back to the server at once; an interrupt of a waiting consumer does not count as a failed attempt at a chunk.", "quantifier": "every moment of an interrupt, a lost connection or a failing object store during a call of any number of attempts", "why_tests_cant": "The call may be interrupted at any moment, also between the arrival of the answer and its delivery.", "anchors": [{"file": "libs/opsqueue_python/src/consumer.rs", "symbols": ["reserve_chunks_gilless", "reserve_and_retrieve_chunks"]}, {"file": "opsqueue/src/consumer/client.rs", "symbols": ["background_task", "sync_request"]}, {"file": "libs/opsqueue_python/src/common.rs", "symbols": ["run_unless_interrupted"]}]}
{"id": "C96", "title": "reserve_chunks does what its documentation says", "statement": "reserve_chunks asks the server for up to the given number of chunks with the given strategy, by default for one chunk with the strategy Newest; a limit that is not positive raises an IncorrectUsageError and has no other effect.", "quantifier": "every combination of arguments given or left out, and every value of them", "why_tests_cant": "All Python values for two arguments; tests always pass both.", "anchors": [{"file": "libs/opsqueue_python/python/opsqueue/consumer.py", "symbols": ["ConsumerClient.reserve_chunks"]}, {"file": "libs/opsqueue_python/src/consumer.rs", "symbols": ["reserve_chunks"]}, {"file": "opsqueue/src/consumer/client.rs", "symbols": ["OuterClient::reserve_chunks"]}]}
{"id": "C97", "title": "run_each_op works through a chunk in order, all or nothing", "statement": "For each chunk, run_each_op calls the function with the chunk's operations in order, each once, up to the first exception. The chunk is completed exactly if all calls return and the results can be written, with the results in the order of the operations; otherwise it fails with the text of the exception, and the operations after it are not touched.", "quantifier": "every function, with state or without, every format and every content of a chunk", "why_tests_cant": "Any number of operations and functions with any state; the failing call may be any of them.", "anchors": [{"file": "libs/opsqueue_python/python/opsqueue/consumer.py", "symbols": ["ConsumerClient.run_each_op", "ConsumerClient.run_each_chunk"]}, {"file": "libs/opsqueue_python/python/opsqueue/common.py", "symbols": ["encode_chunk", "decode_chunk"]}]}
{"id": "C98", "title": "Each operation reaches the function as given and gets its own result back", "statement": "With run_submission and run_each_op, the function is called with the values that were submitted, and the producer reads one result for each operation, in order: what the function returned for that operation.", "quantifier": "every list of Python values, chunk size, and function with or without state, on any number of consumers, with cbor2 or json", "why_tests_cant": "All Python values, nested at will, and all functions.", "anchors": [{"file": "libs/opsqueue_python/python/opsqueue/producer.py", "symbols": ["_chunk_iterator", "_unchunk_iterator", "run_submission"]}, {"file": "libs/opsqueue_python/python/opsqueue/consumer.py", "symbols": ["ConsumerClient.run_each_op"]}, {"file": "libs/opsqueue_python/python/opsqueue/common.py", "symbols": ["json_as_bytes", "DEFAULT_SERIALIZATION_FORMAT"]}]}
{"id": "C99", "title": "A chunk is completed only with results that the producer can read", "statement": "With run_each_chunk a chunk is completed only if the function returned a sequence with one result for each operation; a function that returns something else fails the chunk.", "quantifier": "every function for whole chunks and every value it returns", "why_tests_cant": "All Python values that a function may return.", "anchors": [{"file": "libs/opsqueue_python/python/opsqueue/consumer.py", "symbols": ["ConsumerClient.run_each_chunk"]}, {"file": "libs/opsqueue_python/python/opsqueue/common.py", "symbols": ["encode_chunk", "decode_chunk"]}, {"file": "libs/opsqueue_python/python/opsqueue/producer.py", "symbols": ["_unchunk_iterator"]}]}
{"id": "C100", "title": "The times of events survive the database", "statement": "The time at which a submission or chunk is reported to have been completed, failed or cancelled is that of the server's clock at the event, up to little more than a millisecond, at every time of the day; of two events the later one is not reported as the earlier one; and the cleanup takes an event as old exactly if it is before the cutoff, to the millisecond.", "quantifier": "every time of the clock from January 1970 to the year 9999, every time of the day", "why_tests_cant": "86.4 million milliseconds of every day; the calculation on doubles has a special case that holds for one of them.", "anchors": [{"file": "opsqueue/src/common/submission.rs", "symbols": ["complete_submission_raw", "cancel_submission", "fail_submission_raw", "submission_status", "cleanup_old"]}, {"file": "opsqueue/src/common/chunk.rs", "symbols": ["complete_chunk_raw", "move_chunk_to_failed_chunks", "get_chunk_failed"]}, {"file": "opsqueue/migrations/20240704100242_submissions.sql", "symbols": ["submissions_completed", "submissions_failed"]}]}
{"id": "C101", "title": "The chunks of a submission are handed out in the order of their indices", "statement": "With the strategies Oldest and Newest, and with PreferDistinct on top of anything, the chunks of one submission are offered in increasing order of their chunk index.", "quantifier": "every strategy, every content of the queue, every set of reservations", "why_tests_cant": "All contents of the queue, and all orders in which the database may return rows that the query does not order.", "anchors": [{"file": "opsqueue/src/consumer/strategy.rs", "symbols": ["Strategy", "build_query_snippet_returning_chunks"]}]}
{"id": "C102", "title": "A submission sent with its contents from Python is stored as given", "statement": "If insert_submission_direct returns an id, the submission of that id is in progress with the metadata, strategic metadata and chunk size that were given, and its chunks wait for consumers with the contents that were given, in order. If it raises, nothing was stored.", "quantifier": "every non-empty list of contents, every metadata, every chunk size, every course of the attempts in which no reply gets lost, and whatever others do meanwhile", "why_tests_cant": "All lists of contents and sizes, and all sequences of failures of up to 101 attempts, interleaved with the operations of others.", "anchors": [{"file": "libs/opsqueue_python/src/producer.rs", "symbols": ["ProducerClient", "insert_submission_direct"]}, {"file": "opsqueue/src/producer/client.rs", "symbols": ["insert_submission"]}, {"file": "opsqueue/src/common/chunk.rs", "symbols": ["ChunkSize", "count_ops_in_backlog_estimate"]}]}
{"id": "C103", "title": "A chunk's result comes from a consumer that was given the chunk", "statement": "Every result or failure that is written for a chunk is one that some consumer reported, none is written more often than it was reported, and only consumers to which the chunk was given can make the server write one.", "quantifier": "every run of the server with any number of consumers, requests, crashes and database errors", "why_tests_cant": "All interleavings of the reports of all consumers with the searches, expiries and crashes of the server.", "anchors": [{"file": "opsqueue/src/consumer/server/conn.rs", "symbols": ["handle_incoming_client_message"]}, {"file": "opsqueue/src/consumer/server/mod.rs", "symbols": ["Completer"]}, {"file": "opsqueue/src/common/chunk.rs", "symbols": ["complete_chunk"]}]}
{"id": "C104", "title": "A frame that is no message ends only the connection it came on", "statement": "Whatever a consumer sends, be it a text, bytes that are no message or a message, the server's reaction writes nothing to the database by itself, answers nobody else, queues reports of that consumer only and leaves the other connections as they are, except that they may be told of reservations that expired. A frame that is no message ends the connection; a message does not.", "quantifier": "every frame, every state of the server and of its connections", "why_tests_cant": "All byte strings that a consumer may send, in all states of all other connections.", "anchors": [{"file": "opsqueue/src/consumer/server/conn.rs", "symbols": ["ConsumerConn", "run", "handle_incoming_msg", "handle_incoming_client_message"]}]}
{"id": "C105", "title": "Consumers are given chunks as they were submitted", "statement": "With every chunk that a consumer is given come exactly the contents that the producer gave for that index, and the prefix, metadata, strategic metadata, chunk size and tracing carrier of the submission that the chunk belongs to.", "quantifier": "every run of the server with any number of producers and consumers, requests, strategies, expiries, crashes and database errors", "why_tests_cant": "All interleavings of inserts, searches and joins; the row and its submission are read at different moments.", "anchors": [{"file": "opsqueue/src/consumer/dispatcher/mod.rs", "symbols": ["fetch_and_reserve_chunks", "join_chunk_with_submission_info"]}, {"file": "opsqueue/src/consumer/server/conn.rs", "symbols": ["handle_incoming_client_message"]}, {"file": "opsqueue/src/common/submission.rs", "symbols": ["insert_submission_from_chunks", "get_submission"]}]}
{"id": "C106", "title": "The trace of a producer goes on in the consumers of its chunks", "statement": "The tracing context that a consumer gets with a chunk belongs to the trace in which the producer made the submission, and says that the trace is recorded if the producer's context did.", "quantifier": "every trace and span id, every set of other headers, every level of the server's log, every run of the server", "why_tests_cant": "2^192 ids, and all combinations of log levels and spans.", "anchors": [{"file": "opsqueue/src/tracing.rs", "symbols": ["context_from_headers", "current_context_to_json", "json_to_carrier", "propagator"]}, {"file": "opsqueue/src/server.rs", "symbols": ["build_router"]}, {"file": "opsqueue/app/main.rs", "symbols": ["setup_tracing", "otel_tracer_provider"]}, {"file": "opsqueue/src/producer/client.rs", "symbols": ["insert_submission"]}, {"file": "opsqueue/src/producer/server.rs", "symbols": ["insert_submission"]}, {"file": "opsqueue/src/common/submission.rs", "symbols": ["insert_submission_from_chunks"]}, {"file": "libs/opsqueue_python/src/common.rs", "symbols": ["from_internal"]}, {"file": "libs/opsqueue_python/python/opsqueue/consumer.py", "symbols": ["_trace_context_from_chunk"]}]}
{"id": "C107", "title": "The gauge of reserved chunks counts the chunks being worked on", "statement": "The metric reserver_chunks_reserved_count is the number of chunks that consumers have been given and have not reported on.", "quantifier": "every run of the server with any number of consumers, requests, expiries and crashes, and every moment of it", "why_tests_cant": "All interleavings of searches, reports, expiries and delayed removals with the periodic maintenance.", "anchors": [{"file": "opsqueue/src/consumer/dispatcher/reserver.rs", "symbols": ["Reserver", "run_pending_tasks", "purge_pending_removals", "finish_reservation"]}, {"file": "opsqueue/src/prometheus.rs", "symbols": ["RESERVER_CHUNKS_RESERVED_GAUGE"]}, {"file": "opsqueue/src/server.rs", "symbols": ["serve_producer_and_consumer", "build_router"]}, {"file": "opsqueue/src/consumer/server/mod.rs", "symbols": ["run_background"]}]}
{"id": "C108", "title": "Every submission gets an id of its own", "statement": "No two submissions made on one database ever get the same id, however often the server is restarted in between, and a later submission has a larger id.", "quantifier": "every number of submissions and restarts, every reading of the clock", "why_tests_cant": "Needs two submissions in different lives of the server that read the same millisecond.", "anchors": [{"file": "opsqueue/src/common/submission.rs", "symbols": ["ID_GENERATOR", "SubmissionId", "insert_submission_from_chunks"]}]}
{"id": "C109", "title": "The backlog gauge is up to date", "statement": "What the metric chunks_in_backlog_count says at any moment is the number of chunks that were in the database at some moment a few seconds before.", "quantifier": "every moment of the life of a server, every length and failure of the queries, every course of the backlog and of failing chunks", "why_tests_cant": "A real-time property over all durations and failures, for an unbounded time.", "anchors": [{"file": "opsqueue/src/prometheus.rs", "symbols": ["periodically_calculate_scaling_metrics", "calculate_scaling_metrics", "CHUNKS_BACKLOG_GAUGE"]}, {"file": "opsqueue/src/common/chunk.rs", "symbols": ["move_chunk_to_failed_chunks"]}]}
{"id": "C110", "title": "Reports take effect in order, also when the server is shut down", "statement": "The reports of a consumer are dealt with in the order in which they were made, each once and none left out; however many consumers report at once, all of their reports are dealt with, and when the server is told to shut down, so are all that it has received by then.", "quantifier": "every number of consumers and reports, every interleaving of connections and completer, every moment of a shutdown", "why_tests_cant": "All interleavings of senders with a bounded mailbox, and the random choices of the loops during a shutdown.", "anchors": [{"file": "opsqueue/src/consumer/server/mod.rs", "symbols": ["Completer", "run", "CompleterMessage"]}, {"file": "opsqueue/src/consumer/server/state.rs", "symbols": ["complete_chunk", "fail_chunk"]}, {"file": "opsqueue/src/consumer/server/conn.rs", "symbols": ["run", "graceful_shutdown"]}, {"file": "opsqueue/app/main.rs", "symbols": ["async_main"]}]}
{"id": "C111", "title": "No request and no report makes the server panic", "statement": "No request of a producer, no report of a consumer and no cleanup makes the part of the server that handles it panic, whatever is in the database and whichever statements fail: no producer is answered with a caught panic, and the task that handles the reports of all consumers, which nothing would restart, goes on.", "quantifier": "every request, report and cutoff, every content of the database, every sequence of failing statements, every interleaving of a query with writes", "why_tests_cant": "All contents of the database and all sequences of failures.", "anchors": [{"file": "opsqueue/src/server.rs", "symbols": ["handle_panic", "build_router"]}, {"file": "opsqueue/src/producer/server.rs", "symbols": ["insert_submission", "cancel_submission", "submission_status"]}, {"file": "opsqueue/src/consumer/server/mod.rs", "symbols": ["handle_message"]}, {"file": "opsqueue/src/common/submission.rs", "symbols": ["cancel_submission", "cleanup_old", "insert_submission_from_chunks"]}, {"file": "opsqueue/src/common/chunk.rs", "symbols": ["complete_chunk", "retry_or_fail_chunk", "insert_many_chunks"]}]}
{"id": "C112", "title": "What the server keeps for a waiting consumer goes when the consumer goes", "statement": "For every request for chunks that found none the server keeps something, once, until the request is answered or its connection has ended; it answers each request at most once and none on a connection that has ended. When a connection has ended, nothing is kept for it.", "quantifier": "every number of connections and requests, every interleaving of them with the waking of waiting requests", "why_tests_cant": "A bound on memory over all histories; tests see only histories of one length.", "anchors": [{"file": "opsqueue/src/consumer/server/conn.rs", "symbols": ["ConsumerConn", "run", "handle_incoming_client_message", "RetryReservation"]}, {"file": "opsqueue/src/producer/server.rs", "symbols": ["insert_submission"]}]}
{"id": "C113", "title": "The metric of the reserve requests tells them apart and stays small", "statement": "The histogram of the durations of reserve requests has one series for each limit and strategy with which requests were served, and no request is counted with a different one. What /metrics shows for it does not grow with the number of requests.", "quantifier": "every sequence of requests, every limit, every strategy with any nesting and any characters in its keys", "why_tests_cant": "All strings as keys, with quotes, backslashes and characters outside ASCII, and histories of any length.", "anchors": [{"file": "opsqueue/src/consumer/server/state.rs", "symbols": ["fetch_and_reserve_chunks"]}, {"file": "opsqueue/src/consumer/strategy.rs", "symbols": ["Strategy"]}, {"file": "opsqueue/src/prometheus.rs", "symbols": ["CONSUMER_FETCH_AND_RESERVE_CHUNKS_HISTOGRAM", "setup_prometheus"]}]}
{"id": "C114", "title": "Every reserve request is answered once, under its own number", "statement": "On each connection the server replies only to requests that arrived on it, to each at most once and with the number of that request; as long as the connection is open, a request that has no reply is still being handled or kept for later. Hence no reply of this server stops the client's background task.", "quantifier": "every run of the server with any number of consumers, requests, retries, expiries, crashes and database errors; every client on the other end", "why_tests_cant": "All interleavings of searches, wake-ups, retries and disconnects of all connections.", "anchors": [{"file": "opsqueue/src/consumer/server/conn.rs", "symbols": ["ConsumerConn", "run", "handle_incoming_client_message", "RetryReservation"]}, {"file": "opsqueue/src/consumer/client.rs", "symbols": ["InFlightRequests", "background_task"]}]}
{"id": "C115", "title": "No reply has more chunks than were asked for, and none twice", "statement": "A reply with chunks answers a request of the same connection and carries its number; it has no more chunks than that request asked for and no chunk twice, and they come in the order of the request's strategy, as things were at some moment before the reply.", "quantifier": "every run of the server with any number of consumers, requests, strategies, retries, expiries, crashes and database errors, if no two submissions have the same id (C108)", "why_tests_cant": "All interleavings of a search with the searches, reports and expiries of others, and with inserts and cancellations.", "anchors": [{"file": "opsqueue/src/consumer/dispatcher/mod.rs", "symbols": ["fetch_and_reserve_chunks", "reserve_chunk"]}, {"file": "opsqueue/src/consumer/server/conn.rs", "symbols": ["handle_incoming_client_message"]}, {"file": "opsqueue/src/consumer/strategy.rs", "symbols": ["Strategy"]}]}
