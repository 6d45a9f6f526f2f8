(** The life of the server's process: app/main.rs, the command line (config.rs), and the pauses
    between attempts to serve (server.rs:19-25). Times are milliseconds since the process was
    started. Not modelled: Sentry, tracing (the time that its guard takes to flush at the end,
    main.rs:151-156), SIGTERM (which kills the process at any time, as SIGKILL does: a crash). *)
From Coq Require Export Ascii.
From Verif Require Export Boot Retention.
Local Open Scope N_scope.

(** *** The command line *)
(** i32::from_str: an optional sign and at least one decimal digit, in range. *)
Definition digit (c : ascii) : option N :=
  let n := N_of_ascii c in if (48 <=? n) && (n <=? 57) then Some (n - 48) else None.
Fixpoint digits_from (acc : N) (s : string) : option N :=
  match s with
  | EmptyString => Some acc
  | String c s => match digit c with Some d => digits_from (10 * acc + d) s | None => None end
  end.
Definition digits (s : string) : option N := match s with EmptyString => None | _ => digits_from 0 s end.
Definition parse_i32 (s : string) : option Z :=
  let in_range z := if (- 2 ^ 31 <=? z)%Z && (z <? 2 ^ 31)%Z then Some z else None in
  match s with
  | String "-" r => n ← digits r; in_range (- Z.of_N n)%Z
  | String "+" r => n ← digits r; in_range (Z.of_N n)
  | _ => n ← digits s; in_range (Z.of_N n)
  end.
(** parse_report_bound_port_fd, config.rs:170-189. [None]: clap prints the error and the process
    exits with status 2. *)
Inductive pipe_choice : Set := NoPipe | PipeTo (fd : N).
Definition parse_report_bound_port_fd (s : string) : option pipe_choice :=
  fd ← parse_i32 s;
  if (fd =? -1)%Z then Some NoPipe else if (fd <? 0)%Z then None else Some (PipeTo (Z.to_N fd)).
(** The other options, config.rs:25-108, as clap gives them: every value of the types is accepted.
    Durations in milliseconds (humantime has nanoseconds); u64 seconds at most. *)
Record options : Set := Options {
  reservation_expiration : N; heartbeat_interval : N; max_missable_heartbeats : N; max_chunk_retries : N; max_submission_age : N }.
(** config.rs:63, 86, 93, 98, 101: 10 minutes, 10 seconds, 3, 10, 1 hour. *)
Definition default_options : options := Options 600000 10000 3 10 3600000.
Definition year : N := 365 * 24 * 3600 * 1000.
(** Reserver::new, dispatcher/reserver.rs:42-44: moka's builder panics if the time to live is longer
    than 1000 years. *)
Definition reserver_panics (o : options) : bool := 1000 * year <? reservation_expiration o.
(** submission.rs:1173: Utc::now() - max_age panics if the result is before chrono's first date,
    -262143-01-01. [now]: the clock, in ms since 1970. *)
Definition chrono_min : time := (-8334601228800000)%Z.
Definition cleanup_panics (o : options) (now : time) : bool := (now - Z.of_N (max_submission_age o) <? chrono_min)%Z.
(** ConsumerConn::new, consumer/server/conn.rs:63-64: tokio::time::interval panics if the period is
    zero. It is the connection's own task that panics. *)
Definition connection_panics (o : options) : bool := heartbeat_interval o =? 0.

(** *** Attempts to serve *)
(** The pauses before the retries: retry_policy, server.rs:19-25, with backon's FibonacciBackoff. *)
Definition min_delay : N := 10.
Definition max_delay : N := 10000.
Definition max_times : nat := 10.
Fixpoint pauses (previous : option N) (current : N) (times : nat) : list N :=
  match times with
  | O => []
  | S times =>
    let next := match previous with Some p => if current <? max_delay then current + p else current | None => current end in
    next :: pauses (if current <? max_delay then Some current else previous) next times
  end.
Definition retry_policy : list N := match max_times with O => [] | S n => min_delay :: pauses None min_delay n end.
(** When serve_producer_and_consumer returns an error. It began at [start]. [fails]: how long the
    failing attempts took, in order, and the jitter added to the pause after each. If there are at
    most ten, an attempt succeeds, or goes on, and nothing is returned. *)
Fixpoint gives_up_at (start : N) (pauses : list N) (fails : list (N * N)) {struct fails} : option N :=
  match fails with
  | [] => None
  | (takes, jitter) :: fails =>
    match pauses with
    | [] => Some (start + takes)
    | p :: pauses => gives_up_at (start + takes + p + jitter) pauses fails
    end
  end.
(** *** The process *)
(** open_and_setup, db/mod.rs:420-429: it is done at some time, or one of its steps panics, or it hangs. *)
Inductive opening : Set := OpenAt (t : N) | OpenPanicsAt (t : N) | OpenHangs.
(** How the process ends: by itself with a status, or by SIGINT while it has no handler for it. *)
Inductive exit_of_process : Set := Exits (status : N) (t : N) | KilledBySigint (t : N) | StillRuns.
Definition open_timeout : N := 10000.
Definition last_moments : N := 500.
(** Ctrl-C at [sigint] while something goes on that would end the process at [t] at the latest. *)
Definition unless_killed (sigint : option N) (t : N) (e : exit_of_process) : exit_of_process :=
  match sigint with Some s => if s <? t then KilledBySigint s else e | None => e end.
(** async_main, main.rs:33-128. The status of a panic of the main task is 101, and a panic in one of
    the tasks of the scope is one of the main task. Of the five tasks only the server can end before
    it is told to: the loops of checkpoints and cleanups have no end (db/mod.rs:265-273,
    submission.rs:1170-1185), those of metrics and health end when the token is cancelled
    (prometheus.rs:231-247, server.rs:209-227). The handler of SIGINT is installed when the select!
    of 88-110 is first polled. From then on the process ends half a second after the first event.
    [now]: the clock when the first cleanup begins. *)
Definition async_main (o : options) (now : time) (db : opening) (fails : list (N * N)) (sigint : option N) : exit_of_process :=
  match db with
  | OpenHangs => unless_killed sigint open_timeout (Exits 101 open_timeout)
  | OpenPanicsAt t => unless_killed sigint (N.min t open_timeout) (Exits 101 (N.min t open_timeout))
  | OpenAt t =>
    if open_timeout <? t then unless_killed sigint open_timeout (Exits 101 open_timeout)
    else unless_killed sigint t
      (if reserver_panics o || cleanup_panics o now then Exits 101 t
       else
         match gives_up_at t retry_policy fails, sigint with
         | Some e, Some s => Exits 0 (N.min e s + last_moments)
         | Some e, None => Exits 0 (e + last_moments)
         | None, Some s => Exits 0 (s + last_moments)
         | None, None => StillRuns
         end)
  end.
