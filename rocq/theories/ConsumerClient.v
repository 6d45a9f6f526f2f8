(** The consumer's WebSocket client (consumer/client.rs) and the heartbeats of both sides. *)
From Verif Require Export Types.
Local Open Scope N_scope.

(** *** Heartbeats *)
(** What a connection's loop meets: a tick of the heartbeat interval, or any message of the peer. *)
Inductive beat : Set := Tick | Message.
Global Instance beat_eq_dec : EqDecision beat.
Proof. solve_decision. Defined.
(** Heartbeats missed so far; [None] once the connection has been closed for it. Server:
    beat_heart, server/conn.rs:170-181, and handle_incoming_msg, 184-187. Client: client.rs:341-357,
    where the same counter is kept. *)
Definition beat_step (m : N) (st : option N) (b : beat) : option N :=
  match st, b with
  | None, _ => None
  | Some missed, Tick => if m <? missed then None else Some (missed + 1)
  | Some _, Message => Some 0
  end.
Definition beats (m : N) (l : list beat) : option N := foldl (beat_step m) (Some 0) l.

(** The same with the clock. The interval (tokio::time::interval) first ticks at once, then every
    [p]; each message resets it, so that the next tick is [p] after the message. [messages] are the
    times since the start at which messages come, increasing; the result is the time at which the
    connection is closed for missed heartbeats. [fuel] bounds the number of ticks considered. *)
Fixpoint closes_at (m p : N) (next missed : N) (messages : list N) (fuel : nat) : option N :=
  match fuel with
  | O => None
  | S fuel =>
    match messages with
    | t :: rest =>
      if t <? next then closes_at m p (t + p) 0 rest fuel
      else if m <? missed then Some next else closes_at m p (next + p) (missed + 1) messages fuel
    | [] => if m <? missed then Some next else closes_at m p (next + p) (missed + 1) messages fuel
    end
  end.

(** *** Requests and responses on one connection *)
(** The background task (client.rs:327-439): it runs; it has left its loop and is in clear(), with
    the lock of the map; it has ended. *)
Inductive task : Set := Running | Clearing | Ended.
Global Instance task_eq_dec : EqDecision task.
Proof. solve_decision. Defined.
(** Callers of reserve_chunks are numbered in the order of their requests. [cl_counter] and
    [cl_map] are InFlightRequests (client.rs:206-211), the map giving the caller that waits for a
    nonce (its oneshot sender). The counter is a usize, here unbounded: 2^64 messages on one
    connection are out of reach. [cl_gone]: callers that have stopped waiting (their oneshot
    receiver is dropped). *)
Record client : Set := Client {
  cl_counter : N; cl_map : gmap N N; cl_callers : N; cl_gone : gset N; cl_task : task }.
Definition client_new : client := Client 0 ∅ 0 ∅ Running.
(** The chunks reserved, or [None] for the usage error of the server. *)
Notation answer_t := (option (list chunk_id)) (only parsing).
(** What a step does that others can see. *)
Inductive effect : Set :=
| Requested (caller nonce : N)              (* a reserve request leaves for the server *)
| Notified (nonce : N)                      (* a fire-and-forget message leaves *)
| GaveBack (nonce : N) (cid : chunk_id)     (* FailChunk "Requester disappeared" leaves *)
| Answered (caller nonce : N) (a : answer_t)   (* reserve_chunks returns *)
| CallFailed (caller : N)                   (* reserve_chunks returns a connection error *)
| TaskPanicked.
Global Instance effect_eq_dec : EqDecision effect.
Proof. solve_decision. Defined.
(** [Request sent]: a call of reserve_chunks, whose message could be sent or not. [GiveUp k]: the
    future of a pending call is dropped. [LoseBegin] and [LoseEnd] are the two halves of clear()
    (client.rs:240-245), which runs when the connection is closed, broken, or silent for too long:
    it holds the lock of the map, but fire-and-forget messages draw their nonces without it. *)
Inductive cstep : Set :=
| Request (sent : bool) | Notify | Respond (nonce : N) (a : answer_t) | GiveUp (caller : N) | LoseBegin | LoseEnd.

(** FailChunk for each chunk of a response that nobody waits for: client.rs:381-399. *)
Fixpoint give_back (nonce : N) (l : list chunk_id) : list effect :=
  match l with [] => [] | c :: l => GaveBack nonce c :: give_back (nonce + 1) l end.
Definition client_step (c : client) (s : cstep) : client * list effect :=
  match s with
  (* next_nonce_with_oneshot and sync_request: 218-227, 441-453. While the lock is held elsewhere
     the call has not begun. *)
  | Request sent =>
    if bool_decide (cl_task c = Clearing) then (c, [])
    else
      let m := <[cl_counter c := cl_callers c]> (cl_map c) in
      if sent then
        (Client (cl_counter c + 1) m (cl_callers c + 1) (cl_gone c) (cl_task c), [Requested (cl_callers c) (cl_counter c)])
      else
        (Client (cl_counter c + 1) m (cl_callers c + 1) ({[ cl_callers c ]} ∪ cl_gone c) (cl_task c), [CallFailed (cl_callers c)])
  (* async_request: 455-467 *)
  | Notify => (Client (cl_counter c + 1) (cl_map c) (cl_callers c) (cl_gone c) (cl_task c), [Notified (cl_counter c)])
  (* InFlightRequests::send in the background task: 229-238, 378-401 *)
  | Respond n a =>
    if bool_decide (cl_task c = Running) then
      match cl_map c !! n with
      | None => (Client (cl_counter c) (cl_map c) (cl_callers c) (cl_gone c) Ended, [TaskPanicked])
      | Some k =>
        if bool_decide (k ∈ cl_gone c) then
          (Client (cl_counter c + N.of_nat (length (default [] a))) (delete n (cl_map c)) (cl_callers c) (cl_gone c) Running,
           give_back (cl_counter c) (default [] a))
        else (Client (cl_counter c) (delete n (cl_map c)) (cl_callers c) (cl_gone c) Running, [Answered k n a])
      end
    else (c, [])
  | GiveUp k =>
    if k <? cl_callers c then (Client (cl_counter c) (cl_map c) (cl_callers c) ({[ k ]} ∪ cl_gone c) (cl_task c), [])
    else (c, [])
  (* the loop is left, and clear: 337-373, 436-438, 240-245 *)
  | LoseBegin =>
    if bool_decide (cl_task c = Running) then (Client 0 (cl_map c) (cl_callers c) (cl_gone c) Clearing, []) else (c, [])
  | LoseEnd =>
    if bool_decide (cl_task c = Clearing) then
      (Client (cl_counter c) ∅ (cl_callers c) (cl_gone c) Ended,
       CallFailed <$> base.filter (fun k => k ∉ cl_gone c) (map_to_list (cl_map c)).*2)
    else (c, [])
  end.
Fixpoint client_run (c : client) (l : list cstep) : client * list effect :=
  match l with
  | [] => (c, [])
  | s :: l => let '(c1, e1) := client_step c s in let '(c2, e2) := client_run c1 l in (c2, e1 ++ e2)
  end.

(** *** Specification *)
(** Everything that happened on a new connection. *)
Definition effects (l : list cstep) : list effect := snd (client_run client_new l).
(** What one more step does. *)
Definition then_does (l : list cstep) (s : cstep) : list effect := snd (client_step (fst (client_run client_new l)) s).
Definition task_after (l : list cstep) : task := cl_task (fst (client_run client_new l)).
Definition nonce_sent (e : effect) : option N :=
  match e with Requested _ n | Notified n | GaveBack n _ => Some n | _ => None end.
(** The reserve call [k], sent with nonce [n], still waits: it has not returned and was not dropped. *)
Definition returned (k : N) (e : effect) : Prop := (exists n a, e = Answered k n a) \/ e = CallFailed k.
Definition waiting_call (l : list cstep) (k n : N) : Prop :=
  Requested k n ∈ effects l /\ GiveUp k ∉ l /\ forall e, e ∈ effects l -> ~ returned k e.
(** A server that answers only what was asked, and that once. *)
Definition proper_server (l : list cstep) : Prop :=
  forall l1 n a l2, l = l1 ++ Respond n a :: l2 ->
    (exists k, Requested k n ∈ effects l1) /\ (forall a', Respond n a' ∉ l1).
