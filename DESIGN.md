# Formal model of opsqueue in Rocq: design

The model is in `rocq/theories`. Every definition cites the file and lines of /repo it models. The property theorems are
in the files `Prop*.v`, one or more per property of `properties.jsonl`, named after it (`C01_…`); the suffix `_partial`
marks a theorem that proves a part of the property, `_refuted` a theorem that proves that the property as stated is false
of the code (a counterexample run of the model, with what follows from it). Next to each theorem an `Example` shows that
its hypotheses are met by a concrete case. `MANIFEST.json` lists the theorems of each property.

## Layers of the model

| file | models | source in /repo |
|---|---|---|
| `Types.v` | ids, chunks, submissions, statuses, the database tables, error values | `common/*.rs`, `migrations/` |
| `Sqlite.v` | one SQLite connection: statements, `BEGIN/SAVEPOINT`, `COMMIT/RELEASE`, `ROLLBACK`, crash at any point; a program type whose steps are single SQL statements | `db/mod.rs`, sqlx transactions |
| `ChunkDb.v`, `SubmissionDb.v` | every function of the two `db` modules, statement by statement | `common/chunk.rs`, `common/submission.rs` |
| `ProducerServer.v` | the HTTP handlers of the producer API | `producer/server.rs` |
| `History.v` | histories: sequences of API operations, each complete or cut by a crash | (composition) |
| `Spec.v` | the small specification: what was inserted, acknowledged and reported according to the history alone | (English properties) |
| `Strategy.v` | which rows in which order each strategy's query yields, `random_order` | `consumer/strategy.rs`, `migrations/` |
| `MetaState.v`, `Reserver.v` | in-flight counters (with the SQL callback), reservations with expiry and delayed removal | `consumer/dispatcher/` |
| `Server.v` | the concurrent consumer server: connections, interleaved fetches, completer mailbox, clock, expiry, disconnect, cleanup, inserts, cancels, restart | `consumer/dispatcher/mod.rs`, `consumer/server/*.rs`, `producer/server.rs` |
| `ProducerClient.v`, `ConsumerClient.v` | retry loop, heartbeats, nonces, loss of the connection | `producer/client.rs`, `consumer/client.rs`, `consumer/server/conn.rs` |
| `SharedClient.v` | the reconnecting consumer client used by several threads; the addresses given to the clients | `consumer/client.rs`, `producer/client.rs` |
| `RunLoop.v` | the loop of Python consumers, with exceptions and interrupts | `libs/opsqueue_python/src/consumer.rs` |
| `Boot.v` | binding, the pipe for the port, the watchdog and /ping | `server.rs`, `config.rs`, `main.rs` |
| `App.v` | the life of the process, the command line | `app/main.rs`, `config.rs`, `server.rs` |
| `Wire.v`, `Url.v`, `Bytes.v` | what travels between clients and server: serde values, URLs (the crate url's reading of a path) and routes; their CBOR bytes and JSON text; size limits | `producer/{common,client,server}.rs`, `consumer/common.rs` |
| `Ids.v` | integer conversions, limits, id generator, metadata migration | `common/*.rs`, `migrations/` |
| `ObjectStore.v` | object paths, storing and retrieving chunks | `object_store/mod.rs` |
| `PyLib.v` | chunking, serialization, polling, waiting, batch retrieval, strategies of the Python library | `libs/opsqueue_python` |
| `PyApi.v` | the Python producer API: objects, exceptions, uploads from an iterator, interrupts | `libs/opsqueue_python` |
| `PyDirect.v` | submissions sent with their contents | `libs/opsqueue_python/src/producer.rs` |
| `Frames.v` | the server's reaction to each frame of a consumer | `opsqueue/src/consumer/server/conn.rs` |
| `Trace.v` | tracing contexts: headers, the spans of an insert, the carrier in the database | `opsqueue/src/tracing.rs`, `opsqueue/src/server.rs`, `opsqueue/app/main.rs`, `opsqueue/src/producer/client.rs` |
| `PyStream.v` | the iterators over results, shared and cancelled | `libs/opsqueue_python/src/producer.rs` |
| `PyConsumer.v` | the Python consumer: arguments, interrupts in time, what becomes of the chunks | `libs/opsqueue_python/src/consumer.rs`, `python/opsqueue/consumer.py`, `src/common.rs` (run_unless_interrupted) |
| `PyOps.v` | operations as Python values: run_submission, run_each_op, run_each_chunk, cbor2 and json | `python/opsqueue/producer.py`, `python/opsqueue/consumer.py`, `python/opsqueue/common.py` |
| `World.v` | the whole system: server, object store, producers uploading and submitting, consumers fetching, running, reporting or dying, in any interleaving | (composition) |
| `Durability.v` | checkpoints and power failures | `db/mod.rs` |
| `Retention.v` | the cleanup loop | `common/submission.rs`, `main.rs` |
| `Rfc3339.v` | the texts of times, and the calendar | chrono's serde for `common/*.rs` |
| `Julian.v` | times as doubles: into a DATETIME column and back, comparison | `common/*.rs`, `migrations/` |
| `Backlog.v` | the gauges for autoscaling | `prometheus.rs` |
| `Pool.v` | tasks that use the database connections at the same time | `db/mod.rs`, `producer/server.rs` |
| `Readers.v` | the pool of reader connections: who waits for whom | `consumer/dispatcher/mod.rs`, `db/mod.rs` |
| `Heartbeat.v` | both ends of a connection in time: intervals, missed heartbeats, messages on the way | `consumer/server/conn.rs`, `consumer/client.rs` |
| `Metrics.v` | the database functions with the counters they increment | `prometheus.rs`, `common/*.rs` |
| `ServerMetrics.v` | the gauge, the counters and the histograms of the consumers' side | `consumer/server/mod.rs`, `consumer/dispatcher/reserver.rs` |
| `ScalingLoop.v` | the loop that sets the gauges for autoscaling, with its times | `prometheus.rs` |
| `Mailbox.v` | the completer's mailbox with its capacity, and the shutdown of the connections and the completer | `consumer/server/{mod,state,conn}.rs`, `app/main.rs` |
| `Waiters.v` | the tasks that wait for an insert on behalf of requests that found no chunk, also after the end of their connection (not the size and the strategy of the requests) | `consumer/server/conn.rs`, `producer/server.rs` |
| `Labels.v` | the labels of the histogram of reserve requests (not the tables of printable characters, which are a parameter, nor the exporter's text) | `consumer/server/state.rs`, `consumer/strategy.rs` |
| `SqlLang.v`, `SqlText.v` | SQL statements as syntax trees with a meaning; the functions of the two `db` modules once more with the text of their statements, parameters and row decoders | `common/*.rs` |
| `SqlQuery.v` | queries with joins, sorting, LIMIT, UNION ALL and common tables as relations between the file and the rows; the text of the strategies' queries, the lookups and the backlog sum | `consumer/strategy.rs`, `common/*.rs` |
| `Migrations.v`, `Upgrade.v` | all migration scripts, up and down; database files of every earlier version | `migrations/` |
| `*Proofs.v`, `ServerFacts.v`, `Sql{Table,Statements,Refine,Calm}.v` | lemmas | |
| `Prop*.v` | the property theorems and their examples | `properties.jsonl` |
### Modelling decisions

* Every SQL statement is one total function on the database record; a unique-key violation, a missing row for
  `fetch_one` and a panic are explicit values, never defaults. A statement that fails changes nothing (SQLite's
  default conflict resolution). A statement may also fail because of the environment (disk full, I/O): the runs of
  `Sqlite.v` let every statement, `BEGIN` and `COMMIT` fail.
* A Rust function of the `db` modules is a *program* (`prog`): a tree of statements and transaction brackets. Running it
  gives the result; cutting it after any number of statements gives the crash points; what survives a crash is the
  database at the outermost open `BEGIN`.
* The writer pool has exactly one connection, so two write programs never interleave. Readers use other connections and
  see, at each query, some committed database: a reader program is run against an arbitrary sequence of committed
  databases.
* `Utc::now()` becomes a parameter, one per call in the code, so the clock is arbitrary (also non-monotone) unless a
  theorem says otherwise.
* Ids are natural numbers; that they fit 63 bits is the subject of C45 and C57. Metadata values are integers.
* Submission ids come from a generator; the histories let the environment choose any id not used before
  (`C45_generated` proves that the generator never repeats one).
* `Server.v` splits each request of the consumer server at its `await` points into atomic steps; every interleaving of
  the steps of all connections, the completer, the expiry of reservations and the producers is a run.

## Properties: what is modelled, how it is proved

* C01–C09, C20: an invariant over all histories (induction over the list of operations) relating the tables to what the
  history alone says (`Spec.v`); the statements quote only the API (`status`, counts, operation results).
* C10–C12: `Sqlite.v` crash semantics; all-or-nothing for every prefix of the program, by a general lemma about
  bracketed programs plus the functional result of each function. C12 is refuted for a crash between its two
  transactions; the part without crash is proved.
* C13: the reader program against arbitrary sequences of committed databases ordered by the lifecycle relation.
* C14, C15, C17, C18, C19: proved where true; the code violates a part of each, proved as `…_refuted`.
* C16: list/permutation/sortedness reasoning over the query result. C21: induction over batches. C22: fold over rows.
* C23–C27: query results as lists; permutation and sortedness lemmas; counting for the limit.
* C28–C31: state machines of `Reserver.v` and `MetaState.v`, induction over calls with a ghost history.
* C32–C37, C40–C42, C55: invariants over all runs of `Server.v`, and counterexample runs.
* C38, C39, C58: state machines of `ConsumerClient.v`. C43, C44, C59, C60: retry loop against an arbitrary list of
  outcomes. C45, C46, C57: arithmetic. C47, C48, C54: strings and lists.
* C49, C51, C53: runs of `World.v`. C50, C52: the polling state machine of `PyLib.v`. C56: `MetaState.v`.
* C61, C62: `Durability.v`: the databases committed since the last checkpoint are part of the state; invariant over all
  sequences. C63: `Retention.v`, with the permanence of terminal states. C64: sums over the query results.
* C65: `Metrics.v`: an erasure lemma to the plain functions; balance equations by induction over the history.
* C66: a simulation between the programs of `SqlText.v` and those of `ChunkDb.v`/`SubmissionDb.v`: each statement of the text
  preserves "the rows of the file are those of the database" and gives the same result, with faults and crashes.
  C67: the scripts run on an arbitrary file of version k; what a script does to each table is computed once per script
  (a finite check over the 13 scripts), what that does to arbitrary rows is proved by induction over the rows.
* C68: `SharedClient.v`: the calls cut between check, connect, take and return; an invariant over all interleavings. C69: string
  functions; a URL has one reading. C70-C72: `RunLoop.v`, induction over the rounds. C73, C74: `Boot.v`, induction over the
  attempts and over the checks.

* C75: `SqlQuery.v`: what each part of a query may yield, up to the orders SQL leaves open; induction over the keys of a nested
  preference and over the constraints of a lookup.
* C76, C77: `PyApi.v` on top of the retry loop: queries are programs that only read (induction over the program), so a call
  changes nothing whatever happens to its attempts; field-by-field relations say what objects and exceptions show. C78:
  induction over the iterator. C79: induction over the checks.
* C80-C82: `ServerMetrics.v` adds the metrics to the steps of `Server.v`; invariants over all runs relate them to what one
  sees from outside (who is connected, which chunks were given out and when).
* C83, C84: `App.v`: the end of the process as a function of what happens and when; induction over the attempts and the digits.
* C85: `Wire.v`: the serde encodings and decodings of all types that travel, the URLs and the router; decoding after encoding, field by field; what the handlers can answer, for every program of statements. `Bytes.v`: the CBOR bytes and the JSON text of a value and readers for them; reading after writing by induction on values, for everything that may follow. `Rfc3339.v`: times as texts; the calendar as the rule for the next day (`next_day`), days split into cycles of 400, 100, 4 and 1 years.
* C86: `Wire.v`: the lengths of JSON and CBOR (`Bytes.v`: they are those of the bytes); bounds by summing over contents; a run of the server for the refutation.
* C87-C89: `Pool.v`: any number of tasks, one connection for writing, statements interleaved in any order, hang-ups and crashes. A ghost
  order grows with the run (an operation enters it when it gets the connection; faults and the cut-off are added as they
  happen); invariant: running the order gives the connection's state. Reads: the log of the databases a query saw, with C13's lemma.
* C90: `Readers.v`: who has how many reader connections and who waits since when, around `Server.v`. Invariant: connections in use are within the
  pool's size, and a request's stage fits the server's state; erasure gives a run of `Server.v`; a measure for progress; a set of requests that block each other as an invariant for the refutation.
* C91: `Heartbeat.v`: every message on the way and every due tick has a time by which it is handled; invariants bound the time of the next message from the other side by that of the first missed tick, and the time of the end once the other side is gone. The refutations are runs built by induction over time.
* C92: `PyStream.v`: calls, the tasks they start, the lock of the stream. Invariant: tasks and indices taken correspond one to one; for a loop, what was returned is a prefix of the expected sequence. The refutations are runs built by induction over the number of chunks.
* C93: `PyConsumer.v`, `waits`: attempts and pauses in sequence, each with the checks for signals of C79. Bounds by induction over the attempts; the refutation is for all sequences of short attempts.
* C94, C95: `PyConsumer.v`, `consume` and `reserve_call`: the events between one consumer and the server; `reserved_after` computes what the server keeps for the consumer. Induction over the rounds with the invariant that nothing is reserved between rounds.
* C96: `PyConsumer.v`, `reserve_arguments`: the conversion of the arguments, in both directions.
* C97 to C99: `PyOps.v`: Python values, functions of the caller that depend on all earlier calls, and the two formats by what they make of a value (`is_format`). Induction over operations, values and chunks; the refutations hold for every such format.
* C100: `Julian.v`: IEEE operations with exact rounding on pairs of integers. Every operation has a relative error of at most 2^-53 (an inequality between integers); the rest is linear arithmetic on rationals.
* C101: `Strategy.v`, `offers` (what the queries ask for) and `scan` (rows in the order of the primary key): sortedness of merge sort and of its filtered concatenations.
* C102: `PyDirect.v` on top of the retry loop of the client: induction over the attempts, with the answers and effects of each insert (C21, C43).
* C103: induction over the runs of `Server.v`: the reports in the trace, the messages in the completer's mailbox and the writes in the history; the part about who reports uses the lemmas on what consumers hold.
* C104: `Frames.v`, case analysis on the steps that a frame can start; the round trip of the messages (C85).
* C105: the invariant of `WorldProofs.v` on what fetches hold (rows and joined submissions come from an insert), induction over runs.
* C106: `Trace.v`; hexadecimal numbers by induction over their digits, JSON by the round trip of C85, the rest of the way by C105. The libraries opentelemetry, tracing-opentelemetry and tracing-subscriber are modelled as documented.
* C107: `PropGauge.v`; the entries left by a maintenance run, matched with the invariants of C34 and C36.
* C108: the generator of `Ids.v`, once for each life of the process; ids are compared by their times. Discharges the hypothesis `fresh_ids`.
* C109: `ScalingLoop.v`, the rounds of the loop with their durations; induction over the rounds.
* C110: `Mailbox.v`, the completer with its bounded mailbox and the orderly shutdown; an invariant on where each report is, a measure for its progress.
* C111: `PanicProofs.v`, a predicate on programs that no result of their statements leads to a panic; for cancel, the transaction sees one state.
* C112: `Waiters.v`, the tasks that wait for the next insert; an invariant that says of each request where it is.
* C113: `Labels.v`, the labels of the histogram of reserve requests with Rust's Debug of strings and strategies; each piece of the text is a prefix code, by induction on the strategy.
* C114: `Server.v`; an invariant that says of each request whether it was answered or where it is; with the invariant of `ConsumerClient.v` for the client.
* C115: `Server.v`; an invariant of running searches: what is collected, reserved and still to come is a sublist of what the query yielded.

## Findings: properties the code does not have

Each is a `…_refuted` theorem; `MANIFEST.json` has the details.

* C12: C12_refuted: when the server dies between the two transactions of the insert of an empty submission, the submission stays in progress for ever unless cancelled.
* C14: C14_refuted: cleanup deletes rows of completed chunks of submissions still in progress (status unaffected).
* C15: C15_refuted: with a clock running backwards between the two timestamps of one failure, a cleanup can make the status unreadable.
* C16: C16_many_refuted: a lookup with more than 63 metadata pairs always fails (SQLite joins at most 64 tables).
* C17: C17_refuted: cancelled submissions are not searched.
* C18: C18_refuted: chunk size and tracing carrier are replaced by constants when a submission completes or fails.
* C19: C19_refuted: the database error is logged and swallowed; also for a chunk that does not exist.
* C27: C27_preferences_refuted: a request whose strategy nests more than 63 preferences always gets an empty list, whatever is available.
* C28: C28_exclusive_refuted: a delayed removal queued by an earlier reservation of the same chunk removes the current one.
* C32: C32_refuted: a consumer that disconnects while holding chunks leaves the counters behind (the disconnect removes reservations, not counts).
* C33: C33_exclusive_refuted: the late failure report of a consumer whose reservation expired removes the reservation of the consumer that has the chunk now. C33_spacing_partial (SpacingProofs.v): a log of the reservations of one chunk, with the times and whether they were given out, is an invariant; entries are at least the expiration time apart.
* C34: C34_exclusive_refuted: two connections hold a chunk when a connection ends while a report it sent is still queued.
* C35: C35_disconnect_returns_refuted: the disconnect of a consumer whose reservation expired removes the reservation of the consumer that has the chunk now.
* C36: C36_refuted: a submission cancelled between the reservation of a chunk and the lookup of its submission ends the connection, and what the request had reserved stays reserved until it expires.
* C37: C37_lost_call_refuted: an insert between a failed search and the registration of the waiting request wakes nobody. C37_returned_chunk_refuted: a chunk that becomes available because a consumer failed or left wakes nobody.
* C43: C43_one_submission_refuted: a lost reply makes the client insert again.
* C46: C46_documented_bound_refuted: the comment promises max+1 < i64::MAX, the code allows equality; overflow is impossible all the same.
* C50: C50_refuted: the wait for a cancelled submission never ends.
* C51: C51_refuted: in every run every element of the stream is an error, since the outputs are looked up in the object store under an empty prefix.
* C53: C53_refuted: one failing retrieval drops the whole batch without a word to the server.
* C55: C55_refuted: a disconnect changes no retry counter, however often it happens.
* C56 (proved for keys without NUL characters): Refuted: the callback reads the key as a C string.
* C57 (proved for earlier dates): Refuted: from 2^41 ms after the epoch (September 2039) on the generated number exceeds 63 bits and the conversion panics.
* C58: C58_later_calls_refuted: after the map was cleared nobody clears it again, and the client stays 'healthy'.
* C59: C59_told_refuted: after a lost reply the retry is refused with 409.
* C60: C60_any_prefix_refuted: the prefix goes into the URL unescaped; 'run?1' finds the submission 'run'. C60_elsewhere_refuted: '../count' returns the number of submissions as an id. C60_dot_refuted: './p' is looked up as 'p'. C60_dots_refuted.
* C62: C62_refuted: with synchronous=NORMAL an answer is given before the disk has the commit; a power failure before the next checkpoint loses it.
* C67 (example): a submission from before the column chunk_size existed is reported with chunk size 1 and adds 0 to the backlog estimate.
* C65: C65_backlog_refuted: a second report of completion counts as a completion. C65_failed_insert_refuted: a failing insert counts as a submission.
* C68: C68_panics_refuted, C68_late_error_refuted, C68_two_connect_refuted: threads that share a consumer client make each other panic or close each other's connections, with the chunks reserved on them.
* C69: C69_scheme_refuted: no address with a scheme works for both clients; `https://…`, documented for producers, makes a consumer wait for ever.
* C71: C71_interrupt_refuted: Ctrl-C in the user's function is lost if the failure of the chunk cannot be reported.
* C72: C72_progress_refuted: the progress message is never logged.
* C73: C73_open_refuted, C73_stale_refuted: the pipe stays open if the local address is unknown; a second bind is not reported.
* C75: C75_preferences_refuted, C75_constraints_refuted: the queries of such strategies and lookups join more than 64 tables; SQLite refuses them.
* C78: C78_cause_refuted: an exception of the caller's iterator, KeyboardInterrupt included, is replaced by a ChunksStorageError without its cause.
* C80: C80_gauge_refuted: a connection that breaks down is never subtracted from the gauge of connected consumers.
* C81: C81_duration_refuted, C81_recorded_refuted: a report after an expiry records the time of another consumer, or nothing.
* C82: C82_counts_only_given_refuted: a reservation that is given back because of a database error stays counted.
* C83: C83_status_refuted: the process ends with status 0 although it could never listen.
* C84: C84_options_refuted, C84_zero_expiration_refuted: accepted options that make the server panic, or give every chunk to everybody.
* C85 (proved except for prefixes in URLs, see C60). C85_nesting_refuted: a strategy nested more than 127 levels deep is sent but cannot be read by the server.
* C86: C86_insert_refuted, C86_reply_refuted, C86_report_refuted: the default limits of axum (2 MiB per body) and tungstenite (16 MiB per frame).
* C89: C89_whole_refuted: a submission without chunks is seen in progress before it is completed.
* C90: C90_stall_refuted, C90_one_connection_refuted: as many reserve requests at the same time as reader connections block each other and all queries for 30 seconds, and the chunks they reserved stay reserved; with one reader connection no chunk is ever given out.
* C91: C91_busy_client_refuted: a consumer that reports on chunks more often than the heartbeat interval (e.g. one every 9 seconds of a batch it reserved) resets the server's interval each time, gets no pings and closes the connection after 50 seconds (defaults); what it has reserved goes to others. C91_stall_refuted: likewise while the server is busy with one message.
* C92: C92_cancel_refuted: an asyncio caller that gives up waiting for the next result (asyncio.wait_for) loses it. C92_after_end_refuted: calling next() after the end panics instead of raising StopIteration.
* C93: C93_refuted: a consumer whose server has a failing database cannot be interrupted with Ctrl-C.
* C94: C94_unreadable_refuted, C94_unwritable_refuted: a consumer with a broken object store reserves all the chunks of the queue, one after the other, and keeps them from everybody else until the reservations expire.
* C95: C95_interrupt_refuted: an interrupt during the retrieval of the contents leaves the chunks reserved. C95_retries_refuted: interrupted consumers use up the attempts of a chunk.
* C96: C96_default_refuted: ConsumerClient.reserve_chunks() with its default strategy always raises a TypeError. C96_negative_refuted, C96_zero_refuted.
* C98: C98_tuple_refuted, C98_keys_refuted: tuples arrive as lists, numeric keys as texts (json).
* C99: C99_unreadable_refuted: a function for run_each_chunk that returns no sequence completes the chunk, and the results of the completed submission can never be read. C99_text_refuted, C99_count_refuted.
* C100: C100_noon_refuted: an event in the millisecond of noon UTC is reported as one of the first months of 1970.
* C101: C101_newest_refuted: with the strategy Newest the chunks of a submission are handed out last one first.
* C102: C102_size_refuted, C102_backlog_refuted: chunk sizes of 2^63 and more become negative, and so does the estimate of the backlog.
* C103: C103_stranger_refuted: a consumer that was given nothing completes another one's chunk.
* C106: C106_default_refuted, C106_quiet_refuted, C106_one_bad_refuted: with the default log level the trace of the producer is not continued.
* C107: C107_refuted: a completed chunk is counted as being worked on for another second. C107_retried_refuted: after a failed attempt to listen, an idle maintenance loop sets the gauge to zero again and again.
* C108: C108_refuted: if the clock is set back over a restart, an id may be used twice, and the second submission never ends.
* C109: C109_start_refuted, C109_negative_refuted, C109_error_refuted: no value, or -1, in the first 5 s of each start, and an old value while the query fails.
* C110: C110_shutdown_refuted: the reports in the completer's mailbox are dropped when the server is told to shut down.
* C112: C112_refuted: the tasks of unsatisfied requests outlive their connections, without bound on an idle queue.
* C113: C113_bounded_refuted: every new limit or key of a strategy adds a series to /metrics for good.

## Trusted base

* Coq 8.16.1's kernel (`coqc`, rechecked with `coqchk`).
* `Print Assumptions` on every property theorem (printed during the build, at the end of each `Prop*.v`) says "Closed
  under the global context": no axiom at all. The development imports only the Coq standard library and std++. Loading
  std++ loads `Coq.ssr.ssrunder`, whose module `Under_rel` contains the seven opaque constants that `coqchk` lists for the
  environment as a whole (`Coq.ssr.ssrunder.Under_rel.*`); no theorem here uses them. No axiom, parameter, functor or
  module type is defined here.
* The reading of the Rust, SQL and Python sources recorded in the comments of the model.
* The behaviour assumed of libraries: SQLite (statement atomicity, WAL snapshots, recovery of a prefix of the commits after a power failure, constraint errors, `RETURNING`), sqlx
  (transactions roll back when dropped, `fetch_one` on no row is an error, a pool of one connection serialises, `acquire` fails after 30 seconds), moka
  (expiry after the time to live, eviction listener), tokio (`Notify`, `interval`, `select!`), snowflaked (layout of
  ids), reqwest/backon (which errors are retried), axum/url (routing, escaping), the `object_store` crate (a map from
  paths to bytes), Python's `itertools`, the limits at which moka, chrono and `tokio::time::interval` panic, moro's
  scopes (a panic of a task is one of the scope), backon's pauses, serde's derived formats, serde_json and ciborium (a value
  and its text or bytes), the size limits of axum and tungstenite.

### Modelled

All functions of `common/{chunk,submission}.rs` `db` modules, `producer/server.rs`, `consumer/dispatcher/*`,
`consumer/server/*`, `consumer/strategy.rs`, the retry and connection logic of the two clients, `object_store/mod.rs`, the
chunking, polling, waiting and consuming logic of the Python library, ids and limits, the migration scripts, the text of the SQL statements of the `db` modules and of the queries of the strategies, checkpoints, the cleanup loop, the autoscaling gauges, the counters, the reconnecting consumer client, the loop of Python consumers, start and health of the server, the life of its process, requests, answers and messages as serde values, the router.

### Not modelled

Performance; the histograms other than those of chunk durations; websocket frames; of CBOR and JSON the forms that no writer here makes; OpenTelemetry and Sentry; TLS; memory safety of
the FFI callbacks (C56 models what the callback reads); SQLite's own limits (number of bound parameters, size of a
value); the query planner (`SqlQuery.v` allows every order that SQLite's documentation leaves open).
