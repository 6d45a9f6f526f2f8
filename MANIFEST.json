{
 "claims": [
  {
   "property": "C01",
   "status": "proved",
   "theorems": [
    "C01_conservation"
   ],
   "note": "All histories with arbitrary faults and crash points; ids in the inserts are distinct (snowflake)."
  },
  {
   "property": "C02",
   "status": "proved",
   "theorems": [
    "C02_one_state",
    "C02_status_is_the_state",
    "C02_accepted_stays_known"
   ],
   "note": "Status theorems assume that the clock does not run backwards within one operation (clocks_ok), see C15."
  },
  {
   "property": "C03",
   "status": "proved",
   "theorems": [
    "C03_completed_means_all_acknowledged",
    "C03_last_acknowledgement_completes",
    "C03_in_progress_has_open_chunk"
   ],
   "note": ""
  },
  {
   "property": "C04",
   "status": "proved",
   "theorems": [
    "C04_terminal_permanent",
    "C04_only_a_later_cleanup_removes"
   ],
   "note": ""
  },
  {
   "property": "C05",
   "status": "proved",
   "theorems": [
    "C05_not_waiting_no_effect",
    "C05_duplicate_completion"
   ],
   "note": "First theorem holds for any database."
  },
  {
   "property": "C06",
   "status": "proved",
   "theorems": [
    "C06_retry_counter",
    "C06_retry_limit",
    "C06_report_below_limit"
   ],
   "note": "The limit is the constant passed by the server; a limit of 0 behaves like 1."
  },
  {
   "property": "C07",
   "status": "proved",
   "theorems": [
    "C07_permanent_failure"
   ],
   "note": ""
  },
  {
   "property": "C08",
   "status": "proved",
   "theorems": [
    "C08_cancel_decision_table",
    "C08_cancel_effect",
    "C08_cancel_never_panics"
   ],
   "note": "HTTP handler level; never-panics for any database and any faults."
  },
  {
   "property": "C09",
   "status": "proved",
   "theorems": [
    "C09_isolation",
    "C09_prefix_lookup"
   ],
   "note": "Cleanup is excluded (it concerns every submission, see C14)."
  },
  {
   "property": "C10",
   "status": "proved",
   "theorems": [
    "C10_insert_all_or_nothing",
    "C10_insert_refused_leaves_nothing"
   ],
   "note": "C09 gives that nothing else changes. A refused non-empty insert leaves nothing."
  },
  {
   "property": "C11",
   "status": "proved",
   "theorems": [
    "C11_all_or_nothing",
    "C11_error_means_unchanged",
    "C11_ok_means_whole_effect"
   ],
   "note": "Any database, any faults, any crash point."
  },
  {
   "property": "C12",
   "status": "partial",
   "theorems": [
    "C12_empty_completes_partial",
    "C12_refuted"
   ],
   "note": "C12_refuted: when the server dies between the two transactions of the insert of an empty submission, the submission stays in progress for ever unless cancelled."
  },
  {
   "property": "C13",
   "status": "proved",
   "theorems": [
    "C13_racing_status",
    "C13_known_is_found"
   ],
   "note": "Each of the handler's queries sees a later committed database; clock assumption as in C15."
  },
  {
   "property": "C14",
   "status": "partial",
   "theorems": [
    "C14_cleanup_removes_exactly_the_old_partial",
    "C14_refuted"
   ],
   "note": "C14_refuted: cleanup deletes rows of completed chunks of submissions still in progress (status unaffected)."
  },
  {
   "property": "C15",
   "status": "partial",
   "theorems": [
    "C15_status_readable_partial",
    "C15_refuted"
   ],
   "note": "C15_refuted: with a clock running backwards between the two timestamps of one failure, a cleanup can make the status unreadable."
  },
  {
   "property": "C16",
   "status": "partial",
   "theorems": [
    "C16_metadata_lookup_partial",
    "C16_many_refuted"
   ],
   "note": "Any database. Full statement: for every number of constraints. C16_many_refuted: with more than 63 pairs the lookup always fails (SQLite joins at most 64 tables; checked against SQLite 3.46.0, the version that libsqlite3-sys 0.30.1 bundles)."
  },
  {
   "property": "C17",
   "status": "partial",
   "theorems": [
    "C17_prefix_lookup_partial",
    "C17_refuted"
   ],
   "note": "C17_refuted: cancelled submissions are not searched."
  },
  {
   "property": "C18",
   "status": "partial",
   "theorems": [
    "C18_attributes_partial",
    "C18_chunk_contents",
    "C18_refuted"
   ],
   "note": "C18_refuted: chunk size and tracing carrier are replaced by constants when a submission completes or fails."
  },
  {
   "property": "C19",
   "status": "partial",
   "theorems": [
    "C19_waiting_chunk_is_recorded_partial",
    "C19_refuted"
   ],
   "note": "C19_refuted: the database error is logged and swallowed; also for a chunk that does not exist."
  },
  {
   "property": "C20",
   "status": "proved",
   "theorems": [
    "C20_submission_counters",
    "C20_chunk_counter"
   ],
   "note": ""
  },
  {
   "property": "C21",
   "status": "proved",
   "theorems": [
    "C21_insert_stores_every_chunk",
    "C21_insert_request",
    "C21_single_chunk"
   ],
   "note": "Also at the HTTP handler level."
  },
  {
   "property": "C22",
   "status": "proved",
   "theorems": [
    "C22_migration",
    "C22_same_keys",
    "C22_down_up"
   ],
   "note": "The migration script as a function on the set of old rows."
  },
  {
   "property": "C23",
   "status": "proved",
   "theorems": [
    "C23_offers_available_once",
    "C23_every_strategy_answers"
   ],
   "note": "Relation between database and rows that allows every order SQL leaves open; the rows of one query are taken against one state of reservations (the server model re-checks each row when it is reached)."
  },
  {
   "property": "C24",
   "status": "proved",
   "theorems": [
    "C24_oldest",
    "C24_newest"
   ],
   "note": "Older/newer by id; ids are increasing in time (C45)."
  },
  {
   "property": "C25",
   "status": "proved",
   "theorems": [
    "C25_random_cut",
    "C25_positions_differ",
    "C25_positions_in_range",
    "C25_rotation"
   ],
   "note": ""
  },
  {
   "property": "C26",
   "status": "proved",
   "theorems": [
    "C26_prefer_distinct"
   ],
   "note": "Keys with NUL characters are excluded, see C56."
  },
  {
   "property": "C27",
   "status": "partial",
   "theorems": [
    "C27_gets_what_is_available_partial",
    "C27_can_be_asked_partial",
    "C27_preferences_refuted",
    "C27_zero_refused"
   ],
   "note": "A fetch that no other connection disturbs; the request limit 0 is refused (C27_zero_refused). The partial theorems are for strategies with at most 63 preferences. C27_preferences_refuted: a request with more is always answered with an empty list, whatever is available (SQLite joins at most 64 tables, C75)."
  },
  {
   "property": "C28",
   "status": "partial",
   "theorems": [
    "C28_exclusive_partial",
    "C28_exclusive_refuted"
   ],
   "note": "C28_exclusive_refuted: a delayed removal queued by an earlier reservation of the same chunk removes the current one. The partial theorem assumes that none is queued when the chunk is reserved."
  },
  {
   "property": "C29",
   "status": "proved",
   "theorems": [
    "C29_gone_after_ttl",
    "C29_notice",
    "C29_maintenance_tells"
   ],
   "note": "moka's expiry behaviour is trusted (Reserver.v)."
  },
  {
   "property": "C30",
   "status": "proved",
   "theorems": [
    "C30_not_given_again",
    "C30_orderly"
   ],
   "note": "C30_orderly: the run conditions of C34."
  },
  {
   "property": "C31",
   "status": "proved",
   "theorems": [
    "C31_bag",
    "C31_balanced_empty"
   ],
   "note": "Arbitrary interleavings of threads at the granularity of the table's locks."
  },
  {
   "property": "C32",
   "status": "partial",
   "theorems": [
    "C32_counts_partial",
    "C32_refuted"
   ],
   "note": "C32_refuted: a consumer that disconnects while holding chunks leaves the counters behind (the disconnect removes reservations, not counts). The partial theorem assumes that consumers disconnect only when they hold nothing, and also excludes expiry, database errors and cleanup."
  },
  {
   "property": "C33",
   "status": "partial",
   "theorems": [
    "C33_exclusive_refuted",
    "C33_spacing_partial"
   ],
   "note": "C33_exclusive_refuted: the late failure report of a consumer whose reservation expired removes the reservation of the consumer that has the chunk now. C33_spacing_partial: while nobody reports on a chunk and no connection that was given it ends, it is given out again only after the expiration time has passed since the request that got it before; missing: requests that take longer than the expiration time to answer. Without expirations: C34."
  },
  {
   "property": "C34",
   "status": "partial",
   "theorems": [
    "C34_exclusive_partial",
    "C34_exclusive_refuted"
   ],
   "note": "C34_exclusive_refuted: two connections hold a chunk when a connection ends while a report it sent is still queued. The partial theorem assumes that reservations do not expire while in use, consumers report only what they hold and no connection ends with a report of its own unprocessed."
  },
  {
   "property": "C35",
   "status": "partial",
   "theorems": [
    "C35_disconnect_returns_partial",
    "C35_disconnect_returns_refuted"
   ],
   "note": "C35_disconnect_returns_refuted: the disconnect of a consumer whose reservation expired removes the reservation of the consumer that has the chunk now. The partial theorem covers orderly runs (see C34)."
  },
  {
   "property": "C36",
   "status": "partial",
   "theorems": [
    "C36_answered_partial",
    "C36_ends_only_partial",
    "C36_nothing_left_partial",
    "C36_refuted"
   ],
   "note": "C36_refuted: a submission cancelled between the reservation of a chunk and the lookup of its submission ends the connection, and what the request had reserved stays reserved until it expires. The partial theorems: every other request is answered or waits, a connection ends only for the listed reasons, and otherwise every reservation is accounted for."
  },
  {
   "property": "C37",
   "status": "partial",
   "theorems": [
    "C37_insert_calls_partial",
    "C37_call_wakes_partial",
    "C37_woken_stays_partial",
    "C37_retry_answers_partial",
    "C37_lost_call_refuted",
    "C37_returned_chunk_refuted"
   ],
   "note": "C37_lost_call_refuted: an insert between a failed search and the registration of the waiting request wakes nobody. C37_returned_chunk_refuted: a chunk that becomes available because a consumer failed or left wakes nobody. The partial theorems cover inserts after the registration; C37_retry_answers_partial also needs a strategy with at most 63 preferences (C27)."
  },
  {
   "property": "C38",
   "status": "proved",
   "theorems": [
    "C38_heartbeats",
    "C38_time"
   ],
   "note": "Same counter on both sides. C38_time takes tokio's interval (first tick at once, reset by messages) as modelled in closes_at, for every sequence of message times."
  },
  {
   "property": "C39",
   "status": "proved",
   "theorems": [
    "C39_own_answer",
    "C39_delivered",
    "C39_nonces",
    "C39_handed_back",
    "C39_no_panic"
   ],
   "note": "The nonce counter is unbounded in the model. Pairwise different nonces of everything sent are claimed while the background task runs; for waiting calls always."
  },
  {
   "property": "C40",
   "status": "proved",
   "theorems": [
    "C40_success_wins"
   ],
   "note": "The completer's mailbox is first in, first out; runs without crashes, lost messages and database faults."
  },
  {
   "property": "C41",
   "status": "proved",
   "theorems": [
    "C41_everything_offered",
    "C41_crash_between_writes",
    "C41_crash_during_write"
   ],
   "note": "Any state of the server; a crash may interrupt a write at any point."
  },
  {
   "property": "C42",
   "status": "partial",
   "theorems": [
    "C42_work_decreases",
    "C42_reports_bounded",
    "C42_in_progress_has_work",
    "C42_all_finished",
    "C42_can_finish",
    "C42_request_gets_work_partial"
   ],
   "note": "Progress is stated on reports: work left decreases with every report on a waiting chunk, so that reports run out only when every submission has ended. C42_request_gets_work_partial: strategies with at most 63 preferences (C27_preferences_refuted)."
  },
  {
   "property": "C43",
   "status": "partial",
   "theorems": [
    "C43_one_submission_partial",
    "C43_one_submission_refuted"
   ],
   "note": "C43_one_submission_refuted: a lost reply makes the client insert again. The partial theorem assumes that replies arrive and the submission has a chunk."
  },
  {
   "property": "C44",
   "status": "proved",
   "theorems": [
    "C44_retries",
    "C44_goes_on"
   ],
   "note": "Answers of a proxy or of the router in front of the handlers (Intercepted) are covered: a 5xx is retried by the requests that check the status first, not by cancel and lookup by metadata, which retry unreadable 404/409 (200/400) answers instead."
  },
  {
   "property": "C45",
   "status": "proved",
   "theorems": [
    "C45_conversions",
    "C45_generated"
   ],
   "note": "The snowflake generator (crate snowflaked) is modelled, not verified; ids until the clock reaches 2^41 ms, see C57."
  },
  {
   "property": "C46",
   "status": "partial",
   "theorems": [
    "C46_limit_partial",
    "C46_documented_bound_refuted"
   ],
   "note": "C46_documented_bound_refuted: the comment promises max+1 < i64::MAX, the code allows equality; overflow is impossible all the same."
  },
  {
   "property": "C47",
   "status": "proved",
   "theorems": [
    "C47_paths_distinct",
    "C47_roundtrip",
    "C47_store_succeeds",
    "C47_others_untouched",
    "C47_names"
   ],
   "note": "The crate object_store is modelled (paths, stores as finite maps), not verified. Slashes in prefixes do cause collisions: C47_slashes_collide."
  },
  {
   "property": "C48",
   "status": "proved",
   "theorems": [
    "C48_roundtrip",
    "C48_sizes",
    "C48_size_refused",
    "C48_broken"
   ],
   "note": "The serialisation format is assumed to read back what it wrote, as the library assumes."
  },
  {
   "property": "C49",
   "status": "proved",
   "theorems": [
    "C49_end_to_end",
    "C49_chunks"
   ],
   "note": "Producers and consumers that use the Python library (World.v); all consumers run the same callback. Identifiers are unique (C45)."
  },
  {
   "property": "C50",
   "status": "partial",
   "theorems": [
    "C50_completed_or_failed_partial",
    "C50_refuted"
   ],
   "note": "C50_refuted: the wait for a cancelled submission never ends. The partial theorem covers completed and failed submissions."
  },
  {
   "property": "C51",
   "status": "partial",
   "theorems": [
    "C51_refuted"
   ],
   "note": "C51_refuted: in every run every element of the stream is an error, since the outputs are looked up in the object store under an empty prefix."
  },
  {
   "property": "C52",
   "status": "proved",
   "theorems": [
    "C52_backoff"
   ],
   "note": ""
  },
  {
   "property": "C53",
   "status": "partial",
   "theorems": [
    "C53_whole_batch_partial",
    "C53_refuted"
   ],
   "note": "C53_refuted: one failing retrieval drops the whole batch without a word to the server. The partial theorem: if all contents can be fetched the whole batch arrives in order."
  },
  {
   "property": "C54",
   "status": "proved",
   "theorems": [
    "C54_roundtrip",
    "C54_equality"
   ],
   "note": ""
  },
  {
   "property": "C55",
   "status": "partial",
   "theorems": [
    "C55_refuted",
    "C55_disconnect_counts_nothing"
   ],
   "note": "C55_refuted: a disconnect changes no retry counter, however often it happens."
  },
  {
   "property": "C56",
   "status": "partial",
   "theorems": [
    "C56_whole_key_partial",
    "C56_whole_key_refuted"
   ],
   "note": "Proved for keys without a NUL character (C56_whole_key_partial). Refuted for the others: the callback reads the key as a C string."
  },
  {
   "property": "C57",
   "status": "partial",
   "theorems": [
    "C57_any_date_partial",
    "C57_any_date_refuted"
   ],
   "note": "Proved for dates before September 2039 (C57_any_date_partial). Refuted for later ones: from 2^41 ms after the epoch (September 2039) on the generated number exceeds 63 bits and the conversion panics."
  },
  {
   "property": "C58",
   "status": "partial",
   "theorems": [
    "C58_pending_fail_partial",
    "C58_later_calls_refuted"
   ],
   "note": "C58_later_calls_refuted: after the map was cleared nobody clears it again, and the client stays 'healthy'. The partial theorem covers the calls waiting at the loss."
  },
  {
   "property": "C59",
   "status": "partial",
   "theorems": [
    "C59_told_partial",
    "C59_told_refuted"
   ],
   "note": "C59_told_refuted: after a lost reply the retry is refused with 409."
  },
  {
   "property": "C60",
   "status": "partial",
   "theorems": [
    "C60_plain_partial",
    "C60_escaped",
    "C60_never",
    "C60_dots_refuted",
    "C60_any_prefix_refuted",
    "C60_elsewhere_refuted",
    "C60_dot_refuted",
    "C60_request_line"
   ],
   "note": "C60_plain_partial: prefixes that mean in a URL what they are (no ? # / backslash, tabs and ends of lines, no % followed by two hexadecimal digits, no blank at the end, not . or ..). The prefix goes into the URL unescaped. C60_any_prefix_refuted: 'run?1' finds the submission 'run'. C60_elsewhere_refuted: '../count' reaches another endpoint and returns the number of submissions in progress as an id. C60_dots_refuted: '.' and '..' cannot be looked up, even escaped. C60_dot_refuted: './p' is looked up as 'p'. C60_request_line: only printable characters are sent. C60_escaped covers callers that escape the prefix themselves, C60_never what always fails. The URL syntax (crate url) is modelled in Url.v."
  },
  {
   "property": "C61",
   "status": "proved",
   "theorems": [
    "C61_back_to_one_point",
    "C61_every_property_of_histories",
    "C61_checkpoint_kept",
    "C61_completed_means_reported",
    "C61_no_power_failure_no_loss"
   ],
   "note": "A checkpoint is one step; what SQLite restores after a power failure (WAL, synchronous=NORMAL) is trusted: some prefix of the commits since the last checkpoint."
  },
  {
   "property": "C62",
   "status": "partial",
   "theorems": [
    "C62_refuted",
    "C62_checkpointed_partial"
   ],
   "note": "C62_refuted: with synchronous=NORMAL an answer is given before the disk has the commit. The partial theorem covers what was recorded before a checkpoint."
  },
  {
   "property": "C63",
   "status": "proved",
   "theorems": [
    "C63_kept_for_max_age",
    "C63_removed_in_time"
   ],
   "note": "The finishing time is the one the server reports. Cleanup rounds may fail; the second theorem concerns the first round after the age."
  },
  {
   "property": "C64",
   "status": "proved",
   "theorems": [
    "C64_gauges",
    "C64_estimate_error"
   ],
   "note": "What is computed and set. Numbers are exact in the model; the code converts them to doubles. What the gauge says between two settings: C109."
  },
  {
   "property": "C65",
   "status": "partial",
   "theorems": [
    "C65_same_program",
    "C65_totals_count_requests",
    "C65_submissions_partial",
    "C65_finished_submissions_partial",
    "C65_chunks_partial",
    "C65_finished_chunks_partial",
    "C65_retried_partial",
    "C65_never_too_low",
    "C65_backlog_refuted",
    "C65_failed_insert_refuted"
   ],
   "note": "C65_backlog_refuted: a second report of completion is counted as a completion, so the difference of the chunk counters is not the backlog. C65_failed_insert_refuted: an insert that fails is counted. The partial theorems give the exact relation when no statement fails; the chunk counters assume that sqlx reports the number of skipped chunks as rows_affected. Without that assumption on failures the counters are never too low (C65_never_too_low). fail_submission, which the server never calls, is left out."
  },
  {
   "property": "C66",
   "status": "proved",
   "theorems": [
    "C66_statements",
    "C66_queries",
    "C66_never_refused",
    "C66_file_determines_database",
    "C66_random_order"
   ],
   "note": "SqlText.v writes the statements of the two db modules out as syntax trees with their parameters and row decoders; SqlLang.v gives them meaning. The two lookups, the backlog sum and the strategies' queries are C75. Times are compared as numbers (julianday rounding is not modelled)."
  },
  {
   "property": "C67",
   "status": "proved",
   "theorems": [
    "C67_upgrade",
    "C67_interrupted",
    "C67_new_file",
    "C67_old_columns",
    "C67_going_back"
   ],
   "note": "Each migration script is one transaction (sqlx). 13 scripts; Migrations.v. Finding in C67_example: a submission from before the chunk_size column is reported with chunk size 1 but adds 0 to the backlog estimate."
  },
  {
   "property": "C68",
   "status": "partial",
   "theorems": [
    "C68_one_caller_partial",
    "C68_stays_partial",
    "C68_panics_only_partial",
    "C68_panics_refuted",
    "C68_late_error_refuted",
    "C68_two_connect_refuted"
   ],
   "note": "C68_panics_refuted: the client is checked and taken out of its slot in two steps; another thread's error in between empties the slot, and the call panics. C68_late_error_refuted: any error empties the slot, also when another connection is in it by now. C68_two_connect_refuted: two calls that connect at the same time replace each other's connection. The partial theorems: one call at a time, no errors, and that a panic needs another call's error. An emptied slot closes the connection, and the server then hands back the chunks reserved on it (C35)."
  },
  {
   "property": "C69",
   "status": "partial",
   "theorems": [
    "C69_plain_partial",
    "C69_scheme_refuted",
    "C69_websocket"
   ],
   "note": "C69_scheme_refuted: an address with scheme http or https makes the consumer look for a server named 'http:' or 'https:' (and, as connecting is retried without end, its first call never returns); with any other scheme the producer client panics. The partial theorem covers addresses without a scheme. C69_websocket: the consumer takes ws and wss addresses as they are."
  },
  {
   "property": "C70",
   "status": "proved",
   "theorems": [
    "C70_reported",
    "C70_called"
   ],
   "note": "What reserving, the function and sending do in each round is arbitrary. That a round has one chunk follows from the limit of 1 in the code (C27)."
  },
  {
   "property": "C71",
   "status": "partial",
   "theorems": [
    "C71_ends_partial",
    "C71_interrupt_refuted"
   ],
   "note": "C71_interrupt_refuted: the report of the failure comes first and its error wins over the interrupt. The partial theorem says exactly what ends the loop."
  },
  {
   "property": "C72",
   "status": "partial",
   "theorems": [
    "C72_progress_refuted"
   ],
   "note": "C72_progress_refuted: compute_chunk_outcome returns the count it was given plus one and the loop adds that to its own count, so the number tested is always a power of two (or the largest usize)."
  },
  {
   "property": "C73",
   "status": "partial",
   "theorems": [
    "C73_port_partial",
    "C73_gives_up",
    "C73_nothing_partial",
    "C73_open_refuted",
    "C73_stale_refuted"
   ],
   "note": "C73_open_refuted: if the local address cannot be determined the pipe stays open while the server runs. C73_stale_refuted: after an error of the running server it binds again and tells nobody. The partial theorems cover the other cases."
  },
  {
   "property": "C74",
   "status": "proved",
   "theorems": [
    "C74_ping",
    "C74_recent",
    "C74_shutdown"
   ],
   "note": "A check has an arbitrary duration and result."
  },
  {
   "property": "C75",
   "status": "partial",
   "theorems": [
    "C75_strategies_partial",
    "C75_preferences_refuted",
    "C75_prefix",
    "C75_metadata_partial",
    "C75_constraints_refuted",
    "C75_backlog"
   ],
   "note": "SqlQuery.v gives SELECT with joins, ORDER BY, LIMIT, UNION ALL and WITH a meaning as a relation (SQL leaves orders open) and writes the queries out; its header lists what is taken from SQLite's documentation. SQLite refuses a SELECT that joins more than 64 tables: C75_preferences_refuted (more than 63 nested PreferDistinct) and C75_constraints_refuted (more than 63 metadata pairs) show that such queries have no result at all; the partial theorems cover the others. C75_strategies_partial assumes ids below 2^62 and chunk numbers below 2^61 (the generated column random_order is 64-bit arithmetic). C75_prefix: the text of the lookup has no ORDER BY, so among several submissions with one prefix in the same table it guarantees no particular one; SubmissionDb.v takes the index order. The sum is over integers (the code sums doubles)."
  },
  {
   "property": "C76",
   "status": "proved",
   "theorems": [
    "C76_status",
    "C76_prefix",
    "C76_metadata",
    "C76_count",
    "C76_answered"
   ],
   "note": "An attempt reads one committed database; that a status may be assembled from queries at different moments is C13. C76_answered: an attempt without trouble gives an answer (if the status is readable at all, see C15, and the count is below 2^32, see C44's u32, and a metadata lookup has at most 63 pairs, see C16)."
  },
  {
   "property": "C77",
   "status": "partial",
   "theorems": [
    "C77_cancel_partial",
    "C77_stream",
    "C77_classes",
    "C77_everything"
   ],
   "note": "The partial theorem covers calls without a lost reply; otherwise a cancel call may be refused because of itself (C59_told_refuted). An unknown or a cancelled submission raises SubmissionNotCompletedYetError in try_stream (C77_stream), although it never will be completed. C77_everything: what except Exception and except BaseException catch."
  },
  {
   "property": "C78",
   "status": "partial",
   "theorems": [
    "C78_raises_partial",
    "C78_returns",
    "C78_cause_refuted"
   ],
   "note": "C78_cause_refuted: any exception of the caller's iterator, KeyboardInterrupt included, becomes a ChunksStorageError ('Failed to read chunk element from stream/iterator'), the same as for a failed upload; the cause is dropped."
  },
  {
   "property": "C79",
   "status": "proved",
   "theorems": [
    "C79_interrupts",
    "C79_ends"
   ],
   "note": "Release builds (interval 1 s). The time a check takes and a main thread that holds the GIL in other code are not modelled. Iterating over results (PyChunksIter.__next__) is not interruptible and not covered."
  },
  {
   "property": "C80",
   "status": "partial",
   "theorems": [
    "C80_gauge_law",
    "C80_gauge_partial",
    "C80_gauge_refuted"
   ],
   "note": "C80_gauge_refuted: a connection whose task panics (a submission cancelled between the reservation of its chunk and the lookup of the submission, as in C36) is never subtracted; the gauge stays too high until the next restart. C80_gauge_law gives the exact value."
  },
  {
   "property": "C81",
   "status": "partial",
   "theorems": [
    "C81_below_expiration",
    "C81_duration_partial",
    "C81_duration_refuted",
    "C81_recorded_refuted"
   ],
   "note": "C81_duration_refuted: after an expiry the report of the slow consumer records how long the consumer has had the chunk that has it now (1 ms for 60 s of work). C81_recorded_refuted: a chunk finished after its reservation expired adds no sample. Hence no sample ever reaches the expiration time (C81_below_expiration, all runs). The partial theorem covers runs in which reservations do not expire while they are held (the condition of C34)."
  },
  {
   "property": "C82",
   "status": "partial",
   "theorems": [
    "C82_counts_given",
    "C82_counts_only_given_partial",
    "C82_counts_only_given_refuted"
   ],
   "note": "C82_counts_only_given_refuted: a request that meets a database error after reserving is answered with an empty list, and its reservations stay counted. The partial theorem excludes database errors and broken connections."
  },
  {
   "property": "C83",
   "status": "partial",
   "theorems": [
    "C83_ctrl_c",
    "C83_goes_on",
    "C83_cannot_listen",
    "C83_no_database",
    "C83_status_partial",
    "C83_status_refuted"
   ],
   "note": "C83_status_refuted: a server that could never listen (port taken) ends with status 0, and so does one whose serving fails; supervisors that restart on failure do nothing. The time to flush traces at the end is not modelled. The pauses are those of backon's Fibonacci policy; the jitter is arbitrary."
  },
  {
   "property": "C84",
   "status": "partial",
   "theorems": [
    "C84_pipe",
    "C84_options_partial",
    "C84_options_refuted",
    "C84_zero_expiration_refuted"
   ],
   "note": "C84_options_refuted: an expiration time above 1000 years (moka's limit) or a maximum age above about 264000 years (chrono's first date) panics at the start; a zero heartbeat interval (tokio's interval) breaks every connection. C84_zero_expiration_refuted: with an expiration time of zero a chunk is given to everybody who asks. These limits are those of the libraries. A pool of one reader connection is accepted, too, and gives out no chunk: C90."
  },
  {
   "property": "C85",
   "status": "partial",
   "theorems": [
    "C85_server_bytes",
    "C85_client_bytes_partial",
    "C85_nesting_refuted",
    "C85_cut_off",
    "C85_request_bytes",
    "C85_answer_bytes",
    "C85_calendar",
    "C85_requests",
    "C85_prefix_partial",
    "C85_no_id",
    "C85_ids_checked",
    "C85_values_checked",
    "C85_calls",
    "C85_prefix_call",
    "C85_messages",
    "C85_lenient",
    "C85_lenient_answers"
   ],
   "note": "Wire.v: serde values; Bytes.v: their CBOR bytes and JSON texts, and readers for what the writers make; Rfc3339.v: the texts of times (years 0 to 9999), with the calendar (C85_calendar). Hypotheses are the ranges of the Rust types. C85_server_bytes, C85_client_bytes_partial, C85_request_bytes, C85_answer_bytes: the bytes are read as the value that was sent; C85_cut_off. C85_values_checked: numbers out of range are refused. C85_nesting_refuted: ciborium reads 256 levels, so the server refuses a strategy of more than 127 levels. C85_lenient, C85_lenient_answers: members left out or added. C85_prefix_partial: a prefix with / ? # or % does not arrive as it is (C60)."
  },
  {
   "property": "C86",
   "status": "partial",
   "theorems": [
    "C86_lengths",
    "C86_insert_partial",
    "C86_insert_refuted",
    "C86_reply_partial",
    "C86_reply_refuted",
    "C86_report_partial",
    "C86_report_refuted"
   ],
   "note": "C86_lengths: the lengths used are those of the bytes. C86_insert_refuted: axum's default limit of 2 MiB for a request body is left in place and a byte takes two to four characters of JSON, so no insert of more than 1 MiB of direct chunks succeeds (413, not retried). C86_reply_refuted: tungstenite's default limit of 16 MiB per frame; a reply repeats the submission's metadata for each of its chunks, so a submission the server accepted cannot be reserved in one request. C86_report_refuted: an output over 16 MiB is sent by complete_chunk, which returns Ok, and breaks the connection. The partial theorems give sizes that fit. The limits are those of the libraries' versions in Cargo.lock."
  },
  {
   "property": "C87",
   "status": "proved",
   "theorems": [
    "C87_serializable",
    "C87_connection_returns"
   ],
   "note": "An event of the order carries the faults its statements had and whether it was cut off (History.v), so that the order is a history and every theorem about histories holds for runs (C87_histories). sqlx rolls back a connection that is dropped in a transaction."
  },
  {
   "property": "C88",
   "status": "proved",
   "theorems": [
    "C88_status",
    "C88_single",
    "C88_scaling"
   ],
   "note": "A statement outside a transaction sees what is committed when it starts (WAL). 'moment' = a prefix of the run in which the query has been asked; its database is the committed one."
  },
  {
   "property": "C89",
   "status": "partial",
   "theorems": [
    "C89_whole_partial",
    "C89_whole_refuted"
   ],
   "note": "C89_whole_partial: proved for all operations, except that a submission without chunks is seen in progress between its insert and its completion, two transactions (C89_whole_refuted)."
  },
  {
   "property": "C90",
   "status": "partial",
   "theorems": [
    "C90_same_server",
    "C90_capacity",
    "C90_wait_bound",
    "C90_goes_on_partial",
    "C90_enough_partial",
    "C90_apart",
    "C90_one_connection_refuted",
    "C90_stall_refuted"
   ],
   "note": "A reserve request keeps one reader connection while it waits for a second one. C90_goes_on_partial, C90_enough_partial: with more connections than simultaneous requests (or connected consumers) everybody is served without time passing (an empty list is given only to requests with more than 63 preferences, C27). C90_stall_refuted: as many requests as connections can block each other and all queries until sqlx's acquire timeout of 30 s; C90_one_connection_refuted: with max_read_pool_size 1 no chunk is ever given out. C90_same_server: the pool adds delays and errors only, so all properties of the server hold; C90_wait_bound: nobody waits for more than 30 s per connection. C90_apart: reports, writes, the completer and expiries do not wait for it."
  },
  {
   "property": "C91",
   "status": "partial",
   "theorems": [
    "C91_server",
    "C91_quiet_partial",
    "C91_rare_reports_partial",
    "C91_busy_client",
    "C91_busy_client_refuted",
    "C91_stall_refuted",
    "C91_client_gone",
    "C91_server_gone"
   ],
   "note": "C91_server: the server never gives up a client that is there. C91_quiet_partial, C91_rare_reports_partial: nor the client the server, if its messages are answered at once or its unanswered ones are further apart than the heartbeat interval. C91_busy_client, C91_busy_client_refuted: a client that sends reports (never answered) more often than the interval keeps the server from pinging and closes the connection after (max_missable_heartbeats + 2) intervals, even if nothing is ever late; C91_stall_refuted: so does one whose server is busy with one message for long. C91_client_gone, C91_server_gone: the side that is left closes the connection after at most (max_missable_heartbeats + 2) intervals and the delays. Losses of single messages are not modelled."
  },
  {
   "property": "C92",
   "status": "partial",
   "theorems": [
    "C92_once",
    "C92_in_order_partial",
    "C92_threads_partial",
    "C92_cancel_refuted",
    "C92_after_end_refuted",
    "C92_one_end"
   ],
   "note": "C92_once (no result twice, for all callers and cancellations), C92_in_order_partial (a plain loop), C92_threads_partial (threads that share an iterator get every result between them). C92_cancel_refuted: the task of a cancelled __anext__ goes on, takes the next result and drops it, so the iteration ends regularly without it. C92_after_end_refuted, C92_one_end: a call after the end panics (the stream is not fused), so of several threads only one ends regularly. That futures-util's unfold panics when polled after its end and that tokio's spawned tasks outlive their handles is knowledge about these libraries."
  },
  {
   "property": "C93",
   "status": "partial",
   "theorems": [
    "C93_interrupts_partial",
    "C93_ends_partial",
    "C93_not_without_signal",
    "C93_refuted"
   ],
   "note": "C93_interrupts_partial: a second if no attempt ends without chunks, two and a half if those take more than a second; C93_ends_partial, C93_not_without_signal. C93_refuted: every attempt and every pause of half a second starts a new clock for the checks, which come once a second; while the server answers at once without chunks (it does so when its database fails, conn.rs:225) no signal is ever noticed. Release builds; in debug builds the checks come every 100 ms."
  },
  {
   "property": "C94",
   "status": "partial",
   "theorems": [
    "C94_one_partial",
    "C94_own",
    "C94_reports",
    "C94_same_loop",
    "C94_unreadable_refuted",
    "C94_unwritable_refuted"
   ],
   "note": "C94_one_partial: with an object store that works, for all errors of the connection, results of the function and interrupts. C94_own. C94_same_loop: the function is called, and the loop ends, as in the model of C70 to C72. C94_unreadable_refuted, C94_unwritable_refuted: with an object store that cannot be read or written the loop goes on with the next chunk without a word to the server, and so takes every chunk there is, until the reservations expire. That the server gives at most one chunk for a limit of one is C27."
  },
  {
   "property": "C95",
   "status": "partial",
   "theorems": [
    "C95_accounted_partial",
    "C95_returned",
    "C95_interrupt_refuted",
    "C95_retries_refuted"
   ],
   "note": "C95_accounted_partial: calls interrupted before the answer, or not at all, with an object store that works; C95_returned. C95_interrupt_refuted: an answer that has been put into the channel of the call, or whose contents are being fetched, is dropped without a word. C95_retries_refuted: giving back is done with FailChunk, so that interrupted calls alone use up the attempts of a chunk and make its submission fail."
  },
  {
   "property": "C96",
   "status": "partial",
   "theorems": [
    "C96_asks_partial",
    "C96_default_refuted",
    "C96_negative_refuted",
    "C96_zero_refuted"
   ],
   "note": "C96_asks_partial: exactly which arguments are accepted and what is asked for. C96_default_refuted: the default strategy is the class Strategy.Newest instead of an object of it, which pyo3 refuses, so that a call without a strategy always raises a TypeError. C96_negative_refuted: a negative limit raises an OverflowError. C96_zero_refuted: a limit of 0 closes the connection, which ends the reservations made before."
  },
  {
   "property": "C97",
   "status": "proved",
   "theorems": [
    "C97_completed",
    "C97_completes",
    "C97_failed"
   ],
   "note": "A chunk that is tried again starts with its first operation, so that operations before the failing one are done more than once; this is the at-least-once of chunks."
  },
  {
   "property": "C98",
   "status": "partial",
   "theorems": [
    "C98_own_result_partial",
    "C98_accepted",
    "C98_refused",
    "C98_tuple_refuted",
    "C98_keys_refuted",
    "C98_collision_refuted"
   ],
   "note": "C98_own_result_partial: for values that the format does not change (no tuples; with json also no bytes and only texts as keys). C98_tuple_refuted: a tuple arrives as a list; C98_keys_refuted, C98_collision_refuted: with json, keys that are numbers arrive as texts, and may replace other members. C98_refused: a value that cannot be written raises before anything is submitted (C78). What cbor2 and json make of a value is knowledge about these libraries; floats, sets, dates are not modelled."
  },
  {
   "property": "C99",
   "status": "partial",
   "theorems": [
    "C99_read_partial",
    "C99_unreadable_refuted",
    "C99_text_refuted",
    "C99_bytes_refuted",
    "C99_count_refuted"
   ],
   "note": "C99_read_partial: lists and tuples of plain values. C99_unreadable_refuted: only the reader checks for a sequence; a chunk whose function returned None, a number or a dictionary is completed, and every attempt of the producer to read the results raises an AssertionError there, although the submission is completed. C99_text_refuted, C99_bytes_refuted: a text is a sequence of characters, bytes one of numbers. C99_count_refuted: the number of results is not checked, later results move to earlier operations."
  },
  {
   "property": "C100",
   "status": "partial",
   "theorems": [
    "C100_answered",
    "C100_reported_partial",
    "C100_seen_partial",
    "C100_noon_refuted",
    "C100_reported_in_order_partial",
    "C100_order",
    "C100_cutoff"
   ],
   "note": "C100_reported_partial, C100_reported_in_order_partial, C100_seen_partial (down to the datetime of a Python producer): up to 1.111 ms, for every time that is not stored as a whole Julian day. C100_noon_refuted: at noon UTC the Julian day is a whole number; a column declared DATETIME has NUMERIC affinity and stores an integer, which sqlx reads as seconds since 1970, so that an event in the millisecond of noon is reported as one of January to March 1970 (checked with SQLite 3.46: the stored value has type integer). C100_answered, C100_order, C100_cutoff: every time has an answer; the cleanup compares milliseconds exactly, also at noon. What SQLite and sqlx do with times is knowledge about these libraries; the conversion of calendar dates is taken to be exact."
  },
  {
   "property": "C101",
   "status": "partial",
   "theorems": [
    "C101_key_order_partial",
    "C101_newest_refuted",
    "C101_not_asked_refuted"
   ],
   "note": "C101_key_order_partial: for Oldest and every PreferDistinct, if rows that the query does not order come in the order of the primary key (checked with SQLite 3.46 that they do). C101_newest_refuted: for Newest the key is then read backwards, so that the chunks of a submission come last one first, against the documentation of Strategy (checked with SQLite 3.46). C101_not_asked_refuted: the queries do not ask for any order of the chunks of a submission."
  },
  {
   "property": "C102",
   "status": "partial",
   "theorems": [
    "C102_stored_partial",
    "C102_nothing_stored",
    "C102_size_refuted",
    "C102_backlog_refuted"
   ],
   "note": "C102_stored_partial: for sizes below 2^63 (C102_nothing_stored: calls that raise). C102_size_refuted: a size of 2^63 or more is a u64 whose bits are taken for a negative number; C102_backlog_refuted: the estimate of the backlog in operations is then negative. Lost replies: see C43. Empty submissions: see C12."
  },
  {
   "property": "C103",
   "status": "partial",
   "theorems": [
    "C103_reports",
    "C103_completed",
    "C103_given_partial",
    "C103_stranger_refuted"
   ],
   "note": "C103_reports: in every run what is written is a part of what was reported, in the order of the reports, each at most as often. C103_completed: nothing is completed without reports on its chunks. C103_given_partial: if consumers report on nothing but what they hold, the reporter had been given the chunk. Without that C103_stranger_refuted: the server does not compare a report with the reservations of its sender; a consumer that was given nothing completes the chunk that another one works on."
  },
  {
   "property": "C104",
   "status": "proved",
   "theorems": [
    "C104_isolated",
    "C104_ends"
   ],
   "note": "C104_isolated: for every frame and every step by which the server serves its sender. C104_ends: which frames end the connection. That the chunks of the sender become available again is C35, and what a report on somebody else's chunk does is C103."
  },
  {
   "property": "C105",
   "status": "proved",
   "theorems": [
    "C105_as_submitted"
   ],
   "note": "C105_as_submitted: for every run; the insert is the only one of its id."
  },
  {
   "property": "C106",
   "status": "partial",
   "theorems": [
    "C106_continued_partial",
    "C106_default_refuted",
    "C106_quiet_refuted",
    "C106_one_bad_refuted"
   ],
   "note": "C106_continued_partial: if the log level of the server is DEBUG or TRACE. C106_default_refuted: with the default level INFO the spans of the request (DEBUG) do not exist, also not for OpenTelemetry, and the insert starts a trace of its own whatever the producer sent; C106_quiet_refuted: with a higher level the carrier is empty. C106_one_bad_refuted: one entry of the producer's carrier that cannot be a header makes the client send none."
  },
  {
   "property": "C107",
   "status": "partial",
   "theorems": [
    "C107_counts_partial",
    "C107_at_rest_partial",
    "C107_refuted",
    "C107_retried_refuted"
   ],
   "note": "C107_counts_partial: as long as nothing goes wrong, it counts each of these chunks once, and besides them those whose report waits, those that a request has just picked and those settled less than a second before. C107_at_rest_partial: when there are none of the latter it is exact. C107_refuted: right after its only chunk is completed, nobody works on anything and the gauge says one. C107_retried_refuted: serve_producer_and_consumer builds a router for every attempt to listen, and the maintenance loop of a failed attempt runs on with an empty reserver of its own; it sets the gauge to zero every 10 ms. Reservations that get lost: see C36."
  },
  {
   "property": "C108",
   "status": "partial",
   "theorems": [
    "C108_own_id_partial",
    "C108_refuted"
   ],
   "note": "C108_own_id_partial: if the clock does not go back over a restart; it gives the hypothesis fresh_ids of the theorems on histories. C108_refuted: the generator of a new process knows nothing of the ids in the database; if the clock was set back, a submission can get the id of a finished one. The insert is accepted, the new submission hides the old one, and it stays in progress although every completion of its chunk is acknowledged (the insert into chunks_completed violates the key and the error is dropped, C19)."
  },
  {
   "property": "C109",
   "status": "partial",
   "theorems": [
    "C109_fresh_partial",
    "C109_no_failures_partial",
    "C109_start_refuted",
    "C109_negative_refuted",
    "C109_error_refuted"
   ],
   "note": "C109_fresh_partial: while nothing fails and the rounds of the loop are not delayed by more than d, the value is at most 5 s + 2 d old, less some of the chunks that failed for good since; C109_no_failures_partial. C109_start_refuted: no metric in the first 5 s of each start. C109_negative_refuted: move_chunk_to_failed_chunks lowers the gauge although it is recomputed from the database, so that it says -1 when a chunk fails for good in the first 5 s. C109_error_refuted: after an error the old value stays, for as long as the errors last. What is counted: C64."
  },
  {
   "property": "C110",
   "status": "partial",
   "theorems": [
    "C110_in_order",
    "C110_all",
    "C110_shutdown_partial",
    "C110_shutdown_refuted"
   ],
   "note": "C110_in_order: at any moment, also during a shutdown. C110_all: before the shutdown, with the mailbox of 1024 places. C110_shutdown_partial: at a shutdown all but 1024 + 1 + one per connection of the reports received are dealt with. C110_shutdown_refuted: up to 1024 reports that wait in the mailbox are dropped, because the completer leaves its loop without emptying it; their chunks are still in the database and are handed out again after the restart (C41), so that the work is done twice. Dealt with includes an error that is only logged (C19)."
  },
  {
   "property": "C111",
   "status": "proved",
   "theorems": [
    "C111_requests",
    "C111_queries",
    "C111_reports"
   ],
   "note": "The id of a new submission is taken to be made; that panics from 2039 on (C57). The subtraction of the in-flight counters never underflows (C31). Conversions of lengths to 63 bits are not modelled: they fail only for lists that fit no memory."
  },
  {
   "property": "C112",
   "status": "partial",
   "theorems": [
    "C112_open_partial",
    "C112_once_partial",
    "C112_ended_partial",
    "C112_insert_partial",
    "C112_refuted"
   ],
   "note": "C112_open_partial: while the connection lasts, every request is answered or kept, exactly once. C112_once_partial, C112_ended_partial: at most once, and nothing on a connection that has ended. C112_insert_partial: an insert clears away what was kept for connections that have ended. C112_refuted: without an insert it stays; each request that found nothing spawns a task that waits for the next insert and is not ended with its connection, so that n visits to an idle queue leave n tasks, each with the strategy of its request."
  },
  {
   "property": "C113",
   "status": "partial",
   "theorems": [
    "C113_distinct_partial",
    "C113_one_each_partial",
    "C113_bounded_refuted"
   ],
   "note": "C113_distinct_partial: limit and strategy can be read off the labels, whatever the keys consist of and whichever characters the standard library takes as printable. C113_one_each_partial: one series for each pair served. C113_bounded_refuted: the limit is a label, so that n requests with different limits leave n series for the life of the process, also on an empty queue; the same goes for the keys of PreferDistinct. What the exporter makes of the labels in its text is not modelled."
  },
  {
   "property": "C114",
   "status": "proved",
   "theorems": [
    "C114_answered_or_kept",
    "C114_at_most_once",
    "C114_nonces",
    "C114_client_safe"
   ],
   "note": "C114_answered_or_kept, C114_at_most_once, C114_nonces: for every run of Server.v. C114_client_safe: gives the hypothesis of C39_no_panic for clients of this server. That a request that is being handled gets on: C36_answered_partial; when a kept one is woken: C37. What outlives the connection: C112."
  },
  {
   "property": "C115",
   "status": "proved",
   "theorems": [
    "C115_limit",
    "C115_order"
   ],
   "note": "C115_limit, C115_order: for every run of Server.v with ids of submissions that differ (C108). How many it gets when nobody interferes: C27. That each request has one reply: C114."
  }
 ]
}