(** What the server keeps for requests that found no chunk, also beyond the end of the connection:
    consumer/server/conn.rs:104-138 and 206-250, producer/server.rs:196-212.

    Server.v forgets the waiting requests of a connection that ends, because they have no effect any
    more. Here they are kept as long as the server keeps them. *)
From stdpp Require Export gmap fin_maps fin_sets list.
Local Open Scope N_scope.

(** A request: its connection and its nonce (conn.rs:240-244). The size and the strategy of the
    request, which the task keeps as well, are left out. *)
Notation ask := (N * N)%type (only parsing).
(** [w_used]: the connections there ever were; [w_open]: those whose loop runs. [w_new]: tasks that are
    spawned and not yet registered with the notifier (conn.rs:238-239). [w_tasks]: tasks that wait for the
    notification. [w_again]: the contents of the channels rx2 (conn.rs:58-59). *)
Record room : Set := Room { w_used : gset N; w_open : gset N; w_new : list ask; w_tasks : list ask; w_again : list ask }.
Definition room_new : room := Room ∅ ∅ [] [] [].

Inductive wlabel : Set :=
| WConnect (c : N)
| WAsk (c n : N) (found : bool)          (* a request is handled; [found]: it is answered at once *)
| WRegister (c n : N)                    (* the first poll of a spawned task *)
| WInsert                                (* a submission is inserted: notify_waiters *)
| WRetry (c n : N) (found : bool)        (* the loop takes a request from rx2 *)
| WClose (c : N).                        (* the loop ends, for whatever reason *)

(** One occurrence less. *)
Fixpoint drop_one (p : ask) (l : list ask) : list ask :=
  match l with [] => [] | q :: r => if decide (q = p) then r else q :: drop_one p r end.
(** The second component: the requests that are answered. *)
Definition wnext (l : wlabel) (s : room) : option (room * list ask) :=
  let '(Room used open new tasks again) := s in
  match l with
  (* conn.rs:61-96; the ids are fresh *)
  | WConnect c => if bool_decide (c ∈ used) then None else Some (Room ({[c]} ∪ used) ({[c]} ∪ open) new tasks again, [])
  (* conn.rs:211-250. An error is an answer as well. *)
  | WAsk c n found =>
    if bool_decide (c ∈ open)
    then Some (if found then (s, [(c, n)]) else (Room used open (new ++ [(c, n)]) tasks again, []))
    else None
  (* conn.rs:239. The task is a task of the runtime, not of the connection: it does not matter
     whether the connection is still there. *)
  | WRegister c n =>
    if bool_decide ((c, n) ∈ new) then Some (Room used open (drop_one (c, n) new) (tasks ++ [(c, n)]) again, []) else None
  (* producer/server.rs:212, conn.rs:240-245: every registered task wakes, sends and ends. A send to a
     connection that has ended has no effect. That the tasks send one after the other is left out. *)
  | WInsert => Some (Room used open new [] (again ++ filter (fun p => p.1 ∈ open) tasks), [])
  (* conn.rs:127-131 *)
  | WRetry c n found =>
    if bool_decide (c ∈ open /\ (c, n) ∈ again)
    then Some (if found then (Room used open new tasks (drop_one (c, n) again), [(c, n)])
               else (Room used open (new ++ [(c, n)]) tasks (drop_one (c, n) again), []))
    else None
  (* conn.rs:104-138: [self] is dropped, and rx2 with what is in it; the spawned tasks are not. *)
  | WClose c => if bool_decide (c ∈ open) then Some (Room used (open ∖ {[c]}) new tasks (filter (fun p => p.1 <> c) again), []) else None
  end.
(** Runs: the steps, the requests answered, the state reached. *)
Inductive wrun : list wlabel -> list ask -> room -> Prop :=
| wrun_nil : wrun [] [] room_new
| wrun_snoc tr out s l s' o : wrun tr out s -> wnext l s = Some (s', o) -> wrun (tr ++ [l]) (out ++ o) s'.
