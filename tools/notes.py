NOTES = {
"C01": "All histories with arbitrary faults and crash points; ids in the inserts are distinct (snowflake).",
"C02": "Status theorems assume that the clock does not run backwards within one operation (clocks_ok), see C15.",
"C03": "", "C04": "",
"C05": "First theorem holds for any database.",
"C06": "The limit is the constant passed by the server; a limit of 0 behaves like 1.",
"C07": "", "C08": "HTTP handler level; never-panics for any database and any faults.",
"C09": "Cleanup is excluded (it concerns every submission, see C14).",
"C10": "C09 gives that nothing else changes. A refused non-empty insert leaves nothing.",
"C11": "Any database, any faults, any crash point.",
"C12": "C12_refuted: when the server dies between the two transactions of the insert of an empty submission, the submission stays in progress for ever unless cancelled.",
"C13": "Each of the handler's queries sees a later committed database; clock assumption as in C15.",
"C14": "C14_refuted: cleanup deletes rows of completed chunks of submissions still in progress (status unaffected).",
"C15": "C15_refuted: with a clock running backwards between the two timestamps of one failure, a cleanup can make the status unreadable.",
"C16": "Any database. Full statement: for every number of constraints. C16_many_refuted: with more than 63 pairs the lookup always fails (SQLite joins at most 64 tables; checked against SQLite 3.46.0, the version that libsqlite3-sys 0.30.1 bundles).",
"C17": "C17_refuted: cancelled submissions are not searched.",
"C18": "C18_refuted: chunk size and tracing carrier are replaced by constants when a submission completes or fails.",
"C19": "C19_refuted: the database error is logged and swallowed; also for a chunk that does not exist.",
"C20": "", "C21": "Also at the HTTP handler level.",
"C23": "Relation between database and rows that allows every order SQL leaves open; the rows of one query are taken against one state of reservations (the server model re-checks each row when it is reached).",
"C24": "Older/newer by id; ids are increasing in time (C45).",
"C25": "", "C26": "Keys with NUL characters are excluded, see C56.",
"C28": "C28_exclusive_refuted: a delayed removal queued by an earlier reservation of the same chunk removes the current one. The partial theorem assumes that none is queued when the chunk is reserved.",
"C29": "moka's expiry behaviour is trusted (Reserver.v).",
"C31": "Arbitrary interleavings of threads at the granularity of the table's locks.",
"C56": "Proved for keys without a NUL character (C56_whole_key_partial). Refuted for the others: the callback reads the key as a C string.",
"C22": "The migration script as a function on the set of old rows.",
"C45": "The snowflake generator (crate snowflaked) is modelled, not verified; ids until the clock reaches 2^41 ms, see C57.",
"C46": "C46_documented_bound_refuted: the comment promises max+1 < i64::MAX, the code allows equality; overflow is impossible all the same.",
"C57": "Proved for dates before September 2039 (C57_any_date_partial). Refuted for later ones: from 2^41 ms after the epoch (September 2039) on the generated number exceeds 63 bits and the conversion panics.",
"C38": "Same counter on both sides. C38_time takes tokio's interval (first tick at once, reset by messages) as modelled in closes_at, for every sequence of message times.",
"C39": "The nonce counter is unbounded in the model. Pairwise different nonces of everything sent are claimed while the background task runs; for waiting calls always.",
"C43": "C43_one_submission_refuted: a lost reply makes the client insert again. The partial theorem assumes that replies arrive and the submission has a chunk.",
"C44": "Answers of a proxy or of the router in front of the handlers (Intercepted) are covered: a 5xx is retried by the requests that check the status first, not by cancel and lookup by metadata, which retry unreadable 404/409 (200/400) answers instead.",
"C58": "C58_later_calls_refuted: after the map was cleared nobody clears it again, and the client stays 'healthy'. The partial theorem covers the calls waiting at the loss.",
"C59": "C59_told_refuted: after a lost reply the retry is refused with 409.",
"C60": "C60_plain_partial: prefixes that mean in a URL what they are (no ? # / backslash, tabs and ends of lines, no % followed by two hexadecimal digits, no blank at the end, not . or ..). The prefix goes into the URL unescaped. C60_any_prefix_refuted: 'run?1' finds the submission 'run'. C60_elsewhere_refuted: '../count' reaches another endpoint and returns the number of submissions in progress as an id. C60_dots_refuted: '.' and '..' cannot be looked up, even escaped. C60_dot_refuted: './p' is looked up as 'p'. C60_request_line: only printable characters are sent. C60_escaped covers callers that escape the prefix themselves, C60_never what always fails. The URL syntax (crate url) is modelled in Url.v.",
"C27": "A fetch that no other connection disturbs; the request limit 0 is refused (C27_zero_refused). The partial theorems are for strategies with at most 63 preferences. C27_preferences_refuted: a request with more is always answered with an empty list, whatever is available (SQLite joins at most 64 tables, C75).",
"C30": "C30_orderly: the run conditions of C34.",
"C33": "C33_exclusive_refuted: the late failure report of a consumer whose reservation expired removes the reservation of the consumer that has the chunk now. C33_spacing_partial: while nobody reports on a chunk and no connection that was given it ends, it is given out again only after the expiration time has passed since the request that got it before; missing: requests that take longer than the expiration time to answer. Without expirations: C34.",
"C34": "C34_exclusive_refuted: two connections hold a chunk when a connection ends while a report it sent is still queued. The partial theorem assumes that reservations do not expire while in use, consumers report only what they hold and no connection ends with a report of its own unprocessed.",
"C35": "C35_disconnect_returns_refuted: the disconnect of a consumer whose reservation expired removes the reservation of the consumer that has the chunk now. The partial theorem covers orderly runs (see C34).",
"C40": "The completer's mailbox is first in, first out; runs without crashes, lost messages and database faults.",
"C41": "Any state of the server; a crash may interrupt a write at any point.",
"C42": "Progress is stated on reports: work left decreases with every report on a waiting chunk, so that reports run out only when every submission has ended. C42_request_gets_work_partial: strategies with at most 63 preferences (C27_preferences_refuted).",
"C55": "C55_refuted: a disconnect changes no retry counter, however often it happens.",
"C32": "C32_refuted: a consumer that disconnects while holding chunks leaves the counters behind (the disconnect removes reservations, not counts). The partial theorem assumes that consumers disconnect only when they hold nothing, and also excludes expiry, database errors and cleanup.",
"C36": "C36_refuted: a submission cancelled between the reservation of a chunk and the lookup of its submission ends the connection, and what the request had reserved stays reserved until it expires. The partial theorems: every other request is answered or waits, a connection ends only for the listed reasons, and otherwise every reservation is accounted for.",
"C37": "C37_lost_call_refuted: an insert between a failed search and the registration of the waiting request wakes nobody. C37_returned_chunk_refuted: a chunk that becomes available because a consumer failed or left wakes nobody. The partial theorems cover inserts after the registration; C37_retry_answers_partial also needs a strategy with at most 63 preferences (C27).",
"C47": "The crate object_store is modelled (paths, stores as finite maps), not verified. Slashes in prefixes do cause collisions: C47_slashes_collide.",
"C48": "The serialisation format is assumed to read back what it wrote, as the library assumes.",
"C49": "Producers and consumers that use the Python library (World.v); all consumers run the same callback. Identifiers are unique (C45).",
"C50": "C50_refuted: the wait for a cancelled submission never ends. The partial theorem covers completed and failed submissions.",
"C51": "C51_refuted: in every run every element of the stream is an error, since the outputs are looked up in the object store under an empty prefix.",
"C52": "", "C54": "",
"C53": "C53_refuted: one failing retrieval drops the whole batch without a word to the server. The partial theorem: if all contents can be fetched the whole batch arrives in order.",
"C61": "A checkpoint is one step; what SQLite restores after a power failure (WAL, synchronous=NORMAL) is trusted: some prefix of the commits since the last checkpoint.",
"C62": "C62_refuted: with synchronous=NORMAL an answer is given before the disk has the commit. The partial theorem covers what was recorded before a checkpoint.",
"C63": "The finishing time is the one the server reports. Cleanup rounds may fail; the second theorem concerns the first round after the age.",
"C64": "What is computed and set. Numbers are exact in the model; the code converts them to doubles. What the gauge says between two settings: C109.",
"C65": "C65_backlog_refuted: a second report of completion is counted as a completion, so the difference of the chunk counters is not the backlog. C65_failed_insert_refuted: an insert that fails is counted. The partial theorems give the exact relation when no statement fails; the chunk counters assume that sqlx reports the number of skipped chunks as rows_affected. Without that assumption on failures the counters are never too low (C65_never_too_low). fail_submission, which the server never calls, is left out.",
"C66": "SqlText.v writes the statements of the two db modules out as syntax trees with their parameters and row decoders; SqlLang.v gives them meaning. The two lookups, the backlog sum and the strategies' queries are C75. Times are compared as numbers (julianday rounding is not modelled).",
"C67": "Each migration script is one transaction (sqlx). 13 scripts; Migrations.v. Finding in C67_example: a submission from before the chunk_size column is reported with chunk size 1 but adds 0 to the backlog estimate.",
"C68": "C68_panics_refuted: the client is checked and taken out of its slot in two steps; another thread's error in between empties the slot, and the call panics. C68_late_error_refuted: any error empties the slot, also when another connection is in it by now. C68_two_connect_refuted: two calls that connect at the same time replace each other's connection. The partial theorems: one call at a time, no errors, and that a panic needs another call's error. An emptied slot closes the connection, and the server then hands back the chunks reserved on it (C35).",
"C69": "C69_scheme_refuted: an address with scheme http or https makes the consumer look for a server named 'http:' or 'https:' (and, as connecting is retried without end, its first call never returns); with any other scheme the producer client panics. The partial theorem covers addresses without a scheme. C69_websocket: the consumer takes ws and wss addresses as they are.",
"C70": "What reserving, the function and sending do in each round is arbitrary. That a round has one chunk follows from the limit of 1 in the code (C27).",
"C71": "C71_interrupt_refuted: the report of the failure comes first and its error wins over the interrupt. The partial theorem says exactly what ends the loop.",
"C72": "C72_progress_refuted: compute_chunk_outcome returns the count it was given plus one and the loop adds that to its own count, so the number tested is always a power of two (or the largest usize).",
"C73": "C73_open_refuted: if the local address cannot be determined the pipe stays open while the server runs. C73_stale_refuted: after an error of the running server it binds again and tells nobody. The partial theorems cover the other cases.",
"C74": "A check has an arbitrary duration and result.",
"C75": "SqlQuery.v gives SELECT with joins, ORDER BY, LIMIT, UNION ALL and WITH a meaning as a relation (SQL leaves orders open) and writes the queries out; its header lists what is taken from SQLite's documentation. SQLite refuses a SELECT that joins more than 64 tables: C75_preferences_refuted (more than 63 nested PreferDistinct) and C75_constraints_refuted (more than 63 metadata pairs) show that such queries have no result at all; the partial theorems cover the others. C75_strategies_partial assumes ids below 2^62 and chunk numbers below 2^61 (the generated column random_order is 64-bit arithmetic). C75_prefix: the text of the lookup has no ORDER BY, so among several submissions with one prefix in the same table it guarantees no particular one; SubmissionDb.v takes the index order. The sum is over integers (the code sums doubles).",
"C76": "An attempt reads one committed database; that a status may be assembled from queries at different moments is C13. C76_answered: an attempt without trouble gives an answer (if the status is readable at all, see C15, and the count is below 2^32, see C44's u32, and a metadata lookup has at most 63 pairs, see C16).",
"C77": "The partial theorem covers calls without a lost reply; otherwise a cancel call may be refused because of itself (C59_told_refuted). An unknown or a cancelled submission raises SubmissionNotCompletedYetError in try_stream (C77_stream), although it never will be completed. C77_everything: what except Exception and except BaseException catch.",
"C78": "C78_cause_refuted: any exception of the caller's iterator, KeyboardInterrupt included, becomes a ChunksStorageError ('Failed to read chunk element from stream/iterator'), the same as for a failed upload; the cause is dropped.",
"C79": "Release builds (interval 1 s). The time a check takes and a main thread that holds the GIL in other code are not modelled. Iterating over results (PyChunksIter.__next__) is not interruptible and not covered.",
"C80": "C80_gauge_refuted: a connection whose task panics (a submission cancelled between the reservation of its chunk and the lookup of the submission, as in C36) is never subtracted; the gauge stays too high until the next restart. C80_gauge_law gives the exact value.",
"C81": "C81_duration_refuted: after an expiry the report of the slow consumer records how long the consumer has had the chunk that has it now (1 ms for 60 s of work). C81_recorded_refuted: a chunk finished after its reservation expired adds no sample. Hence no sample ever reaches the expiration time (C81_below_expiration, all runs). The partial theorem covers runs in which reservations do not expire while they are held (the condition of C34).",
"C82": "C82_counts_only_given_refuted: a request that meets a database error after reserving is answered with an empty list, and its reservations stay counted. The partial theorem excludes database errors and broken connections.",
"C83": "C83_status_refuted: a server that could never listen (port taken) ends with status 0, and so does one whose serving fails; supervisors that restart on failure do nothing. The time to flush traces at the end is not modelled. The pauses are those of backon's Fibonacci policy; the jitter is arbitrary.",
"C84": "C84_options_refuted: an expiration time above 1000 years (moka's limit) or a maximum age above about 264000 years (chrono's first date) panics at the start; a zero heartbeat interval (tokio's interval) breaks every connection. C84_zero_expiration_refuted: with an expiration time of zero a chunk is given to everybody who asks. These limits are those of the libraries. A pool of one reader connection is accepted, too, and gives out no chunk: C90.",
"C85": "Wire.v: serde values; Bytes.v: their CBOR bytes and JSON texts, and readers for what the writers make; Rfc3339.v: the texts of times (years 0 to 9999), with the calendar (C85_calendar). Hypotheses are the ranges of the Rust types. C85_server_bytes, C85_client_bytes_partial, C85_request_bytes, C85_answer_bytes: the bytes are read as the value that was sent; C85_cut_off. C85_values_checked: numbers out of range are refused. C85_nesting_refuted: ciborium reads 256 levels, so the server refuses a strategy of more than 127 levels. C85_lenient, C85_lenient_answers: members left out or added. C85_prefix_partial: a prefix with / ? # or % does not arrive as it is (C60).",
"C86": "C86_lengths: the lengths used are those of the bytes. C86_insert_refuted: axum's default limit of 2 MiB for a request body is left in place and a byte takes two to four characters of JSON, so no insert of more than 1 MiB of direct chunks succeeds (413, not retried). C86_reply_refuted: tungstenite's default limit of 16 MiB per frame; a reply repeats the submission's metadata for each of its chunks, so a submission the server accepted cannot be reserved in one request. C86_report_refuted: an output over 16 MiB is sent by complete_chunk, which returns Ok, and breaks the connection. The partial theorems give sizes that fit. The limits are those of the libraries' versions in Cargo.lock.",
"C87": "An event of the order carries the faults its statements had and whether it was cut off (History.v), so that the order is a history and every theorem about histories holds for runs (C87_histories). sqlx rolls back a connection that is dropped in a transaction.",
"C88": "A statement outside a transaction sees what is committed when it starts (WAL). 'moment' = a prefix of the run in which the query has been asked; its database is the committed one.",
"C89": "C89_whole_partial: proved for all operations, except that a submission without chunks is seen in progress between its insert and its completion, two transactions (C89_whole_refuted).",
"C90": "A reserve request keeps one reader connection while it waits for a second one. C90_goes_on_partial, C90_enough_partial: with more connections than simultaneous requests (or connected consumers) everybody is served without time passing (an empty list is given only to requests with more than 63 preferences, C27). C90_stall_refuted: as many requests as connections can block each other and all queries until sqlx's acquire timeout of 30 s; C90_one_connection_refuted: with max_read_pool_size 1 no chunk is ever given out. C90_same_server: the pool adds delays and errors only, so all properties of the server hold; C90_wait_bound: nobody waits for more than 30 s per connection. C90_apart: reports, writes, the completer and expiries do not wait for it.",
"C91": "C91_server: the server never gives up a client that is there. C91_quiet_partial, C91_rare_reports_partial: nor the client the server, if its messages are answered at once or its unanswered ones are further apart than the heartbeat interval. C91_busy_client, C91_busy_client_refuted: a client that sends reports (never answered) more often than the interval keeps the server from pinging and closes the connection after (max_missable_heartbeats + 2) intervals, even if nothing is ever late; C91_stall_refuted: so does one whose server is busy with one message for long. C91_client_gone, C91_server_gone: the side that is left closes the connection after at most (max_missable_heartbeats + 2) intervals and the delays. Losses of single messages are not modelled.",
"C92": "C92_once (no result twice, for all callers and cancellations), C92_in_order_partial (a plain loop), C92_threads_partial (threads that share an iterator get every result between them). C92_cancel_refuted: the task of a cancelled __anext__ goes on, takes the next result and drops it, so the iteration ends regularly without it. C92_after_end_refuted, C92_one_end: a call after the end panics (the stream is not fused), so of several threads only one ends regularly. That futures-util's unfold panics when polled after its end and that tokio's spawned tasks outlive their handles is knowledge about these libraries.",
"C93": "C93_interrupts_partial: a second if no attempt ends without chunks, two and a half if those take more than a second; C93_ends_partial, C93_not_without_signal. C93_refuted: every attempt and every pause of half a second starts a new clock for the checks, which come once a second; while the server answers at once without chunks (it does so when its database fails, conn.rs:225) no signal is ever noticed. Release builds; in debug builds the checks come every 100 ms.",
"C94": "C94_one_partial: with an object store that works, for all errors of the connection, results of the function and interrupts. C94_own. C94_same_loop: the function is called, and the loop ends, as in the model of C70 to C72. C94_unreadable_refuted, C94_unwritable_refuted: with an object store that cannot be read or written the loop goes on with the next chunk without a word to the server, and so takes every chunk there is, until the reservations expire. That the server gives at most one chunk for a limit of one is C27.",
"C95": "C95_accounted_partial: calls interrupted before the answer, or not at all, with an object store that works; C95_returned. C95_interrupt_refuted: an answer that has been put into the channel of the call, or whose contents are being fetched, is dropped without a word. C95_retries_refuted: giving back is done with FailChunk, so that interrupted calls alone use up the attempts of a chunk and make its submission fail.",
"C96": "C96_asks_partial: exactly which arguments are accepted and what is asked for. C96_default_refuted: the default strategy is the class Strategy.Newest instead of an object of it, which pyo3 refuses, so that a call without a strategy always raises a TypeError. C96_negative_refuted: a negative limit raises an OverflowError. C96_zero_refuted: a limit of 0 closes the connection, which ends the reservations made before.",
"C97": "A chunk that is tried again starts with its first operation, so that operations before the failing one are done more than once; this is the at-least-once of chunks.",
"C98": "C98_own_result_partial: for values that the format does not change (no tuples; with json also no bytes and only texts as keys). C98_tuple_refuted: a tuple arrives as a list; C98_keys_refuted, C98_collision_refuted: with json, keys that are numbers arrive as texts, and may replace other members. C98_refused: a value that cannot be written raises before anything is submitted (C78). What cbor2 and json make of a value is knowledge about these libraries; floats, sets, dates are not modelled.",
"C99": "C99_read_partial: lists and tuples of plain values. C99_unreadable_refuted: only the reader checks for a sequence; a chunk whose function returned None, a number or a dictionary is completed, and every attempt of the producer to read the results raises an AssertionError there, although the submission is completed. C99_text_refuted, C99_bytes_refuted: a text is a sequence of characters, bytes one of numbers. C99_count_refuted: the number of results is not checked, later results move to earlier operations.",
"C100": "C100_reported_partial, C100_reported_in_order_partial, C100_seen_partial (down to the datetime of a Python producer): up to 1.111 ms, for every time that is not stored as a whole Julian day. C100_noon_refuted: at noon UTC the Julian day is a whole number; a column declared DATETIME has NUMERIC affinity and stores an integer, which sqlx reads as seconds since 1970, so that an event in the millisecond of noon is reported as one of January to March 1970 (checked with SQLite 3.46: the stored value has type integer). C100_answered, C100_order, C100_cutoff: every time has an answer; the cleanup compares milliseconds exactly, also at noon. What SQLite and sqlx do with times is knowledge about these libraries; the conversion of calendar dates is taken to be exact.",
"C101": "C101_key_order_partial: for Oldest and every PreferDistinct, if rows that the query does not order come in the order of the primary key (checked with SQLite 3.46 that they do). C101_newest_refuted: for Newest the key is then read backwards, so that the chunks of a submission come last one first, against the documentation of Strategy (checked with SQLite 3.46). C101_not_asked_refuted: the queries do not ask for any order of the chunks of a submission.",
"C102": "C102_stored_partial: for sizes below 2^63 (C102_nothing_stored: calls that raise). C102_size_refuted: a size of 2^63 or more is a u64 whose bits are taken for a negative number; C102_backlog_refuted: the estimate of the backlog in operations is then negative. Lost replies: see C43. Empty submissions: see C12.",
"C103": "C103_reports: in every run what is written is a part of what was reported, in the order of the reports, each at most as often. C103_completed: nothing is completed without reports on its chunks. C103_given_partial: if consumers report on nothing but what they hold, the reporter had been given the chunk. Without that C103_stranger_refuted: the server does not compare a report with the reservations of its sender; a consumer that was given nothing completes the chunk that another one works on.",
"C104": "C104_isolated: for every frame and every step by which the server serves its sender. C104_ends: which frames end the connection. That the chunks of the sender become available again is C35, and what a report on somebody else's chunk does is C103.",
"C105": "C105_as_submitted: for every run; the insert is the only one of its id.",
"C106": "C106_continued_partial: if the log level of the server is DEBUG or TRACE. C106_default_refuted: with the default level INFO the spans of the request (DEBUG) do not exist, also not for OpenTelemetry, and the insert starts a trace of its own whatever the producer sent; C106_quiet_refuted: with a higher level the carrier is empty. C106_one_bad_refuted: one entry of the producer's carrier that cannot be a header makes the client send none.",
"C107": "C107_counts_partial: as long as nothing goes wrong, it counts each of these chunks once, and besides them those whose report waits, those that a request has just picked and those settled less than a second before. C107_at_rest_partial: when there are none of the latter it is exact. C107_refuted: right after its only chunk is completed, nobody works on anything and the gauge says one. C107_retried_refuted: serve_producer_and_consumer builds a router for every attempt to listen, and the maintenance loop of a failed attempt runs on with an empty reserver of its own; it sets the gauge to zero every 10 ms. Reservations that get lost: see C36.",
"C108": "C108_own_id_partial: if the clock does not go back over a restart; it gives the hypothesis fresh_ids of the theorems on histories. C108_refuted: the generator of a new process knows nothing of the ids in the database; if the clock was set back, a submission can get the id of a finished one. The insert is accepted, the new submission hides the old one, and it stays in progress although every completion of its chunk is acknowledged (the insert into chunks_completed violates the key and the error is dropped, C19).",
"C109": "C109_fresh_partial: while nothing fails and the rounds of the loop are not delayed by more than d, the value is at most 5 s + 2 d old, less some of the chunks that failed for good since; C109_no_failures_partial. C109_start_refuted: no metric in the first 5 s of each start. C109_negative_refuted: move_chunk_to_failed_chunks lowers the gauge although it is recomputed from the database, so that it says -1 when a chunk fails for good in the first 5 s. C109_error_refuted: after an error the old value stays, for as long as the errors last. What is counted: C64.",
"C110": "C110_in_order: at any moment, also during a shutdown. C110_all: before the shutdown, with the mailbox of 1024 places. C110_shutdown_partial: at a shutdown all but 1024 + 1 + one per connection of the reports received are dealt with. C110_shutdown_refuted: up to 1024 reports that wait in the mailbox are dropped, because the completer leaves its loop without emptying it; their chunks are still in the database and are handed out again after the restart (C41), so that the work is done twice. Dealt with includes an error that is only logged (C19).",
"C111": "The id of a new submission is taken to be made; that panics from 2039 on (C57). The subtraction of the in-flight counters never underflows (C31). Conversions of lengths to 63 bits are not modelled: they fail only for lists that fit no memory.",
"C112": "C112_open_partial: while the connection lasts, every request is answered or kept, exactly once. C112_once_partial, C112_ended_partial: at most once, and nothing on a connection that has ended. C112_insert_partial: an insert clears away what was kept for connections that have ended. C112_refuted: without an insert it stays; each request that found nothing spawns a task that waits for the next insert and is not ended with its connection, so that n visits to an idle queue leave n tasks, each with the strategy of its request.",
"C113": "C113_distinct_partial: limit and strategy can be read off the labels, whatever the keys consist of and whichever characters the standard library takes as printable. C113_one_each_partial: one series for each pair served. C113_bounded_refuted: the limit is a label, so that n requests with different limits leave n series for the life of the process, also on an empty queue; the same goes for the keys of PreferDistinct. What the exporter makes of the labels in its text is not modelled.",
"C114": "C114_answered_or_kept, C114_at_most_once, C114_nonces: for every run of Server.v. C114_client_safe: gives the hypothesis of C39_no_panic for clients of this server. That a request that is being handled gets on: C36_answered_partial; when a kept one is woken: C37. What outlives the connection: C112.",
"C115": "C115_limit, C115_order: for every run of Server.v with ids of submissions that differ (C108). How many it gets when nobody interferes: C27. That each request has one reply: C114.",
}
