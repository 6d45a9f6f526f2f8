(** Starting the server (server.rs, config.rs): the pipe that tells a parent process the port, and
    the health that /ping reports. *)
From Verif Require Export Types.
Local Open Scope N_scope.

(** *** The port *)
(** How write_port ends (config.rs:164-167): both bytes are written, or an error comes after some of them. *)
Inductive write_result : Set := Written | WriteFails (bytes : nat).
(** How serving ends: with an error, by a graceful shutdown, or not yet. *)
Inductive served : Set := ServeFails | ShutsDown | StillServing.
(** What happens in one attempt to start (server.rs:44-76). [addr]: the port that local_addr gives, if it does not fail. *)
Inductive attempt : Set := BindFails | Binds (addr : option N) (w : write_result) (s : served).
(** The writing end of the pipe: whether the server still holds it, and what has been written. *)
Record pipe : Set := Pipe { p_open : bool; p_bytes : list N }.
Inductive boot_state : Set := Trying | Serving | Ended | GaveUp.
(** u16::to_be_bytes. *)
Definition to_be_bytes (port : N) : list N := [port / 256; port mod 256].
(** config.report_bound_port_pipe.take() and write_port, server.rs:57-65 and config.rs:150-152,
    164-167: the pipe is taken once, and dropped, that is closed, when write_port returns. *)
Definition report_port (p : pipe) (port : N) (w : write_result) : pipe :=
  if p_open p then Pipe false (p_bytes p ++ match w with Written => to_be_bytes port | WriteFails n => take n (to_be_bytes port) end) else p.
(** serve_producer_and_consumer, server.rs:44-89, with this many retries left (19-25: ten). *)
Fixpoint boot (retries : nat) (p : pipe) (l : list attempt) {struct l} : pipe * boot_state :=
  match l with
  | [] => (p, Trying)
  | a :: l =>
    let failed p := match retries with O => (Pipe false (p_bytes p), GaveUp) | S n => boot n p l end in
    match a with
    | BindFails => failed p
    | Binds addr w s =>
      let p := match addr with Some port => report_port p port w | None => p end in
      match s with ServeFails => failed p | ShutsDown => (p, Ended) | StillServing => (p, Serving) end
    end
  end.
Definition serve (l : list attempt) : pipe * boot_state := boot 10 (Pipe true []) l.

(** *** Health *)
(** app_watchdog, server.rs:209-227. A check (check_health, db/mod.rs:207-227) takes some time and
    has a result; times in milliseconds. [start]: when the next check starts. [cancel]: when the
    server is told to shut down. The flag at time [t], which /ping reports (server.rs:197-206); the
    flag starts as false (app/main.rs:40). If the pause ends at the very moment of the shutdown,
    one more check is made. *)
Definition pause_ms : N := 10000.
Fixpoint flag_at (start : N) (flag : bool) (checks : list (N * bool)) (cancel : option N) (t : N) : bool :=
  match checks with
  | [] => flag
  | (takes, ok) :: checks =>
    let ended := start + takes in
    if t <? ended then flag
    else
      let next := flag_at (ended + pause_ms) ok checks cancel t in
      match cancel with
      | Some c => if c <? ended + pause_ms then (if t <? N.max c ended then ok else false) else next
      | None => next
      end
  end.
Inductive pong : Set := OkPong | Unavailable.
(** server.rs:197-206: 200 "pong" or 503 "unhealthy". *)
Definition ping (checks : list (N * bool)) (cancel : option N) (t : N) : pong :=
  if flag_at 0 false checks cancel t then OkPong else Unavailable.
