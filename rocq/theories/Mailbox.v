(** The completer's mailbox and what becomes of it when the server is told to shut down:
    consumer/server/mod.rs:144-224, state.rs:116-139, conn.rs:104-138, app/main.rs:112-119.

    Server.v has an unbounded mailbox and only crashes. Here the mailbox has its capacity, and the
    process ends in its orderly way. What is done with a report is in Server.v; here it is one step,
    which begins when the completer takes the report and ends when it is through with it. *)
From Verif Require Export Server.
Local Open Scope N_scope.

(** Completer::new, mod.rs:198: mpsc::channel(1024). *)
Definition capacity : N := 1024.
(** [x_box]: the mailbox. [x_wait]: reports of connections that wait for room; a connection's loop
    goes on only when its report is in the mailbox (conn.rs:250-257, state.rs:116-139), so that each
    has one at most. [x_busy]: the report the completer works on. [x_told]: the cancellation token
    (main.rs:115). [x_stopped]: the completer has left its loop, and its mailbox with the messages in
    it is gone (mod.rs:209-224). [x_open]: the connections. *)
Record desk : Set := Desk { x_box : list mail; x_wait : gmap N mail; x_busy : option mail; x_told : bool; x_stopped : bool; x_open : gset N }.
Definition desk_new : desk := Desk [] ∅ None false false ∅.

Inductive xlabel : Set :=
| XOpen (c : N)
| XReceive (m : mail)          (* the loop of connection [m_conn m] has read a report *)
| XRoom (c : N)                (* the report of connection [c] gets into the mailbox *)
| XTake                        (* the completer takes a report *)
| XDone                        (* ... and is through with it *)
| XClose (c : N)               (* the loop of connection [c] ends, for whatever reason *)
| XTell                        (* the server is told to shut down *)
| XStop                        (* the completer's loop ends *)
| XExit (committed : bool).    (* the process ends; [committed]: what the completer was at is in the database *)

(** The second component: the reports that the completer is through with. *)
Definition xnext (l : xlabel) (s : desk) : option (desk * list mail) :=
  let '(Desk box wait busy told stopped open) := s in
  match l with
  | XOpen c => if bool_decide (c ∈ open) then None else Some (Desk box wait busy told stopped ({[c]} ∪ open), [])
  (* conn.rs:106-138, 250-257. The select! of the loop takes any branch that is ready, so that reports
     are read also after the server was told to shut down. When the receiver is gone, send fails and
     the report is dropped (state.rs:117-126). *)
  | XReceive m =>
    if bool_decide (m_conn m ∈ open /\ wait !! m_conn m = None)
    then Some (Desk box (if stopped then wait else <[m_conn m := m]> wait) busy told stopped open, []) else None
  (* tokio's mpsc: Sender::send waits for one of [capacity] permits; simplification: waiting senders
     get them in any order *)
  | XRoom c =>
    match wait !! c with
    | Some m => if bool_decide (N.of_nat (length box) < capacity) then Some (Desk (box ++ [m]) (delete c wait) busy told stopped open, []) else None
    | None => None
    end
  (* mod.rs:212-215: the select! is not biased, so that a report may be taken also after XTell *)
  | XTake => match busy, box with None, m :: box' => Some (Desk box' wait (Some m) told stopped open, []) | _, _ => None end
  | XDone => match busy with Some m => Some (Desk box wait None told stopped open, [m]) | None => None end
  (* the loop is not left while it waits for room *)
  | XClose c => if bool_decide (c ∈ open /\ wait !! c = None) then Some (Desk box wait busy told stopped (open ∖ {[c]}), []) else None
  | XTell => Some (Desk box wait busy true stopped open, [])
  (* mod.rs:213-214: the handler of the other branch is not interrupted by the token *)
  | XStop => if told && negb stopped && bool_decide (busy = None) then Some (Desk [] ∅ None told true open, []) else None
  (* main.rs:115-119: 500 ms after XTell, whatever the tasks are at; the transaction that the
     completer is in is committed by then or never *)
  | XExit committed => if told then Some (Desk [] ∅ None told true ∅, if committed then match busy with Some m => [m] | None => [] end else []) else None
  end.
(** The reports read, and those the completer was through with, each in the order of time. *)
Inductive xrun : list xlabel -> list mail -> desk -> Prop :=
| xrun_nil : xrun [] [] desk_new
| xrun_snoc tr done s l s' ms : xrun tr done s -> xnext l s = Some (s', ms) -> xrun (tr ++ [l]) (done ++ ms) s'.
