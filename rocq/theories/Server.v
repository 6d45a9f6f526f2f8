(** The server seen by consumers: consumer/server/{mod,state,conn}.rs and consumer/dispatcher/mod.rs
    as a transition system. Connections, the completer, the maintenance of the reserver and the
    producers' handlers interleave at the granularity of the labels below; each label is one access
    to shared data (database transaction, reserver, counters, mailbox).

    Not modelled: metrics, tracing, heartbeats (ConsumerClient.v), WAL checkpoints, the capacity
    1024 of the completer's mailbox (a full mailbox only makes senders wait), graceful shutdown. *)
From Verif Require Export Spec Strategy Reserver.
Local Open Scope N_scope.

(** The two settings that matter: reservation_expiration in ms and max_chunk_retries (config.rs). *)
Record config : Set := Config { cf_ttl : N; cf_retries : N }.

(** What a consumer reports of a chunk: ClientToServerMessage, consumer/common.rs. *)
Inductive report : Set := Complete (out : content) | Fail (failure : string).
(** CompleterMessage, mod.rs:144-155. The shared set of reservations is that of the connection. *)
Record mail : Set := Mail { m_conn : N; m_chunk : chunk_id; m_report : report }.
(** A reserve request (RetryReservation, conn.rs:35-40, has the same fields). *)
Record req : Set := Req { q_nonce : N; q_max : N; q_strategy : strategy }.
(** dispatcher/mod.rs:212-234, Dispatcher::fetch_and_reserve_chunks while it runs: the rows of the
    query not yet reached, the chunks collected so far with their submissions, and the chunk that
    is reserved but not yet joined with its submission. *)
Record fetch : Set := Fetch { f_req : req; f_rows : list chunk; f_got : list (chunk * submission); f_join : option chunk }.

(** A connection: conn.rs:42-58 and state.rs:21-26. [c_set]: the reservations of ConsumerState.
    [c_rx]: expiry notices to be passed on. [c_spawned]: requests whose task was spawned
    (conn.rs:239-246) but does not wait yet; [c_waiting]: those that wait for an insert; [c_retry]:
    the channel tx2/rx2. A closed connection stays in the table because messages in the mailbox
    still refer to its set. *)
Record peer : Set := Peer {
  c_open : bool; c_set : gset chunk_id; c_rx : list chunk_id; c_fetch : option fetch;
  c_spawned : list req; c_waiting : list req; c_retry : list req }.
Definition peer_new : peer := Peer true ∅ [] None [] [] [].
(** The completer, mod.rs:226-309: between messages; after the database write, with the [delayed]
    flag for the reserver; after the reservation was finished. *)
Inductive phase : Set := Ready | Written (m : mail) (delayed : bool) | Finished (m : mail).
(** The whole server. The database is [after s_hist]. [s_notifies]: inserts whose wake-up call is
    still to come (producer/server.rs:206). *)
Record state : Set := State {
  s_now : N; s_hist : history; s_res : reserver; s_counts : metastate; s_conns : gmap N peer;
  s_mail : list mail; s_phase : phase; s_notifies : nat }.
Definition s_db (s : state) : db := after (s_hist s).
Definition server_start (h : history) (now : N) : state := State now h reserver_new ∅ ∅ [] Ready 0.

(** What the server sends to a consumer. *)
Inductive out : Set :=
| Given (c nonce : N) (l : list (chunk * submission))   (* ChunksReserved(Ok(..)) *)
| Refused (c nonce : N)                                 (* ChunksReserved(Err(LimitIsZero)) *)
| Expired (c : N) (cid : chunk_id)                      (* ChunkReservationExpired *)
| Closed (c : N).                                       (* the connection ends *)

Inductive label : Set :=
| LProducer (e : event)                      (* a write by a producer or by the cleanup task *)
| LNotify                                    (* notify_waiters *)
| LConnect (c : N)
| LDisconnect (c : N)                        (* the connection's loop ends, for whatever reason *)
| LReserve (c : N) (q : req) (off : N) (rows : list chunk)   (* a request arrives; the query starts *)
| LRetry (c : N) (off : N) (rows : list chunk)               (* the same for a woken request *)
| LRow (c : N)                               (* the next row: try to reserve it *)
| LSkip (c : N) (i : nat)                    (* a row that opsqueue_is_reserved filters out *)
| LJoin (c : N) (fault : bool)               (* join the reserved chunk with its submission *)
| LFetchError (c : N)                        (* a database error during the fetch *)
| LReply (c : N)                             (* the fetch is over *)
| LRegister (c : N)                          (* a spawned task starts to wait for an insert *)
| LReport (c : N) (cid : chunk_id) (r : report)
| LWrite (fs : faults) (n1 n2 n3 : time)     (* the completer takes a message and writes *)
| LLost                                      (* the completer gets no connection: mod.rs:231 *)
| LFinish                                    (* the completer finishes the reservation *)
| LCounters (ok : bool)                      (* ... and updates the in-flight counters *)
| LTime (dt : N)
| LPurge (i : nat)                           (* one delayed removal *)
| LEvict (k : chunk_id)                      (* one expired reservation *)
| LNotice (c : N)                            (* an expiry notice is passed on to the consumer *)
| LCrash (e : option event).                 (* the process dies, maybe during a write, and restarts *)

(** *** Helpers *)
Notation cid_of c := (c_sub c, c_index c).
Definition set_conn (c : N) (x : peer) (s : state) : state :=
  State (s_now s) (s_hist s) (s_res s) (s_counts s) (<[c := x]> (s_conns s)) (s_mail s) (s_phase s) (s_notifies s).
Definition set_res (r : reserver) (s : state) : state :=
  State (s_now s) (s_hist s) r (s_counts s) (s_conns s) (s_mail s) (s_phase s) (s_notifies s).
Definition with_fetch (f : option fetch) (x : peer) : peer :=
  Peer (c_open x) (c_set x) (c_rx x) f (c_spawned x) (c_waiting x) (c_retry x).
(** The listener's sends: an unbounded channel per connection; nothing happens when it is closed. *)
Definition deliver (cs : gmap N peer) (n : N * chunk_id) : gmap N peer :=
  match cs !! n.1 with
  | Some x =>
    if c_open x then
      <[n.1 := Peer true (c_set x) (c_rx x ++ [n.2]) (c_fetch x) (c_spawned x) (c_waiting x) (c_retry x)]> cs
    else cs
  | None => cs
  end.
(** A new state of the reserver together with the notices its listener sent. *)
Definition with_res (rn : reserver * list (N * chunk_id)) (s : state) : state :=
  State (s_now s) (s_hist s) (fst rn) (s_counts s) (foldl deliver (s_conns s) (snd rn)) (s_mail s) (s_phase s) (s_notifies s).
(** The connection's task ends: Drop for ConsumerState, state.rs:28-38, with
    Dispatcher::finish_reservations_sync, dispatcher/mod.rs:326-330; its channels are closed. The
    order in which a hash set is traversed is irrelevant. *)
Definition close (cfg : config) (c : N) (x : peer) (s : state) : state :=
  set_conn c (Peer false (c_set x) [] None [] [] [])
    (with_res (seq_notices (fun r k => finish_reservation_sync (cf_ttl cfg) (s_now s) k r) (s_res s) (elements (c_set x)))
       (set_conn c (Peer false (c_set x) [] None [] [] []) s)).
(** Dispatcher::join_chunk_with_submission_info, dispatcher/mod.rs:306-324: the submission and its
    strategic metadata (two reads, here one). *)
Definition joined_submission (d : db) (c : chunk) : option submission :=
  match fst (exec (get_submission (c_sub c)) d []) with Ok s => Some s | _ => None end.
Definition metadata_of (d : db) (id : sub_id) : strat_map :=
  match fst (exec (get_submission_strategic_metadata id) d []) with Ok m => m | _ => ∅ end.
(** The write of the completer for a message: mod.rs:239-245 and 275-283. *)
Definition mail_op (cfg : config) (m : mail) (n1 n2 n3 : time) : op :=
  match m_report m with
  | Complete out => OComplete (m_chunk m) out n1 n2
  | Fail f => OFail (m_chunk m) f (cf_retries cfg) n1 n2 n3
  end.
(** The flag [delayed] that follows from its result: mod.rs:248-251 and 284-291. *)
Definition delayed_of (a : answer) : bool :=
  match a with AComplete _ => true | AFail (Ok b) => b | _ => false end.
Definition is_producer_op (o : op) : bool :=
  match o with OComplete _ _ _ _ | OFail _ _ _ _ _ _ => false | _ => true end.
(** An insert that was answered with an id calls notify_waiters: producer/server.rs:196-206. *)
Definition wakes (d : db) (e : event) : bool :=
  match answer_of d e with Some (AInsert (Ok _)) => true | _ => false end.

(** *** Steps. [None]: the step cannot be taken. *)
Definition next (cfg : config) (l : label) (s : state) : option (state * list out) :=
  let ttl := cf_ttl cfg in
  match l with
  (* The handler of a request whose client disconnects is dropped: [e_crash]. The server lives on. *)
  | LProducer e =>
    if is_producer_op (e_op e) then
      Some (State (s_now s) (s_hist s ++ [e]) (s_res s) (s_counts s) (s_conns s) (s_mail s) (s_phase s)
              (if wakes (s_db s) e then S (s_notifies s) else s_notifies s), [])
    else None
  | LNotify =>
    match s_notifies s with
    | O => None
    | S n =>
      Some (State (s_now s) (s_hist s) (s_res s) (s_counts s)
              ((fun x => Peer (c_open x) (c_set x) (c_rx x) (c_fetch x) (c_spawned x) [] (c_retry x ++ c_waiting x)) <$> s_conns s)
              (s_mail s) (s_phase s) n, [])
    end
  (* conn.rs:61-96 *)
  | LConnect c =>
    match s_conns s !! c with None => Some (set_conn c peer_new s, []) | Some _ => None end
  (* conn.rs:104-140. While a message is being handled the loop does not end. *)
  | LDisconnect c =>
    match s_conns s !! c with
    | Some x => if c_open x then match c_fetch x with None => Some (close cfg c x s, [Closed c]) | Some _ => None end else None
    | None => None
    end
  (* conn.rs:213-218, state.rs:60-82. Whether [rows] can be the result of the query: [allowed].
     A query that cannot be prepared is answered like any other error (conn.rs:219-228). *)
  | LReserve c q off rows =>
    match s_conns s !! c with
    | Some x =>
      if c_open x then
        match c_fetch x with
        | Some _ => None
        | None => if q_max q =? 0 then Some (s, [Refused c (q_nonce q)])
                  else if negb (can_ask (q_strategy q)) then Some (s, [Given c (q_nonce q) []])
                  else Some (set_conn c (with_fetch (Some (Fetch q rows [] None)) x) s, [])
        end
      else None
    | None => None
    end
  (* conn.rs:127-131 *)
  | LRetry c off rows =>
    match s_conns s !! c with
    | Some x =>
      if c_open x then
        match c_fetch x, c_retry x with
        | None, q :: rest =>
          let x' := Peer true (c_set x) (c_rx x) None (c_spawned x) (c_waiting x) rest in
          if q_max q =? 0 then Some (set_conn c x' s, [Refused c (q_nonce q)])
          else if negb (can_ask (q_strategy q)) then Some (set_conn c x' s, [Given c (q_nonce q) []])
          else Some (set_conn c (with_fetch (Some (Fetch q rows [] None)) x') s, [])
        | _, _ => None
        end
      else None
    | None => None
    end
  (* dispatcher/mod.rs:225-228, 295-304; take(limit) stops asking for rows in time: 230 *)
  | LRow c =>
    match s_conns s !! c with
    | Some x =>
      match c_fetch x with
      | Some (Fetch q (r :: rows) got None) =>
        if N.of_nat (length got) <? q_max q then
          let '(ok, res, ns) := try_reserve ttl (s_now s) (cid_of r) c (s_res s) in
          Some (with_res (res, ns) (set_conn c (with_fetch (Some (Fetch q rows got (if ok then Some r else None))) x) s), [])
        else None
      | _ => None
      end
    | None => None
    end
  (* the filter of the query, strategy.rs:97-98, evaluated at some time before the row is reached *)
  | LSkip c i =>
    match s_conns s !! c with
    | Some x =>
      match c_fetch x with
      | Some (Fetch q rows got j) =>
        match rows !! i with
        | Some r =>
          if is_reserved ttl (s_now s) (cid_of r) (s_res s) then
            Some (set_conn c (with_fetch (Some (Fetch q (delete i rows) got j)) x) s, [])
          else None
        | None => None
        end
      | None => None
      end
    | None => None
    end
  (* dispatcher/mod.rs:229, 306-324: a failure panics the connection's task *)
  | LJoin c fault =>
    match s_conns s !! c with
    | Some x =>
      match c_fetch x with
      | Some (Fetch q rows got (Some r)) =>
        match (if fault then None else joined_submission (s_db s) r) with
        | Some sub =>
          let s' := set_conn c (with_fetch (Some (Fetch q rows (got ++ [(r, sub)]) None)) x) s in
          Some (State (s_now s') (s_hist s') (s_res s') (insert_metadata (metadata_of (s_db s) (c_sub r)) (s_counts s')) (s_conns s') (s_mail s') (s_phase s') (s_notifies s'), [])
        | None => Some (close cfg c x s, [Closed c])
        end
      | _ => None
      end
    | None => None
    end
  (* conn.rs:219-228: the consumer gets an empty list; what was reserved is forgotten. The join, too,
     fails this way when it gets no database connection: dispatcher/mod.rs:311. *)
  | LFetchError c =>
    match s_conns s !! c with
    | Some x =>
      match c_fetch x with
      | Some (Fetch q rows got j) => Some (set_conn c (with_fetch None x) s, [Given c (q_nonce q) []])
      | None => None
      end
    | None => None
    end
  (* state.rs:84-88, conn.rs:229-249, 261-269 *)
  | LReply c =>
    match s_conns s !! c with
    | Some x =>
      match c_fetch x with
      | Some (Fetch q rows got None) =>
        if bool_decide (rows = []) || (q_max q <=? N.of_nat (length got)) then
          match got with
          | [] => Some (set_conn c (Peer (c_open x) (c_set x) (c_rx x) None (c_spawned x ++ [q]) (c_waiting x) (c_retry x)) s, [])
          | _ =>
            let ids := list_to_set ((fun p => cid_of p.1) <$> got) in
            Some (set_conn c (Peer (c_open x) (c_set x ∪ ids) (c_rx x) None (c_spawned x) (c_waiting x) (c_retry x)) s,
                  [Given c (q_nonce q) got])
          end
        else None
      | _ => None
      end
    | None => None
    end
  (* conn.rs:239-241 *)
  | LRegister c =>
    match s_conns s !! c with
    | Some x =>
      match c_spawned x with
      | q :: rest => Some (set_conn c (Peer (c_open x) (c_set x) (c_rx x) (c_fetch x) rest (c_waiting x ++ [q]) (c_retry x)) s, [])
      | [] => None
      end
    | None => None
    end
  (* conn.rs:251-258, state.rs:116-139 *)
  | LReport c cid r =>
    match s_conns s !! c with
    | Some x =>
      if c_open x then
        match c_fetch x with
        | Some _ => None
        | None =>
          let s' := set_conn c (Peer true (c_set x) (c_rx x) None (c_spawned x) (c_waiting x) (c_retry x)) s in
          Some (State (s_now s') (s_hist s') (s_res s') (s_counts s') (s_conns s') (s_mail s' ++ [Mail c cid r]) (s_phase s') (s_notifies s'), [])
        end
      else None
    | None => None
    end
  (* mod.rs:230-245, 270-283 *)
  | LWrite fs n1 n2 n3 =>
    match s_phase s, s_mail s with
    | Ready, m :: rest =>
      let e := Event (mail_op cfg m n1 n2 n3) fs None in
      Some (State (s_now s) (s_hist s ++ [e]) (s_res s) (s_counts s) (s_conns s) rest
              (Written m (delayed_of (fst (finished e (s_db s))))) (s_notifies s), [])
    | _, _ => None
    end
  | LLost =>
    match s_phase s, s_mail s with
    | Ready, m :: rest => Some (State (s_now s) (s_hist s) (s_res s) (s_counts s) (s_conns s) rest Ready (s_notifies s), [])
    | _, _ => None
    end
  (* mod.rs:247-256, 284-292; dispatcher/mod.rs:332-338. The removal from the connection's set and
     the call of the reserver, which follow each other, are one step here. *)
  | LFinish =>
    match s_phase s with
    | Written m delayed =>
      let cs := alter (fun x => Peer (c_open x) (c_set x ∖ {[ m_chunk m ]}) (c_rx x) (c_fetch x) (c_spawned x) (c_waiting x) (c_retry x)) (m_conn m) (s_conns s) in
      let '(_, res, ns) := finish_reservation ttl (s_now s) (m_chunk m) delayed (s_res s) in
      Some (with_res (res, ns) (State (s_now s) (s_hist s) (s_res s) (s_counts s) cs (s_mail s) (Finished m) (s_notifies s)), [])
    | _ => None
    end
  (* dispatcher/mod.rs:340-350; an error of the read counts as no metadata *)
  | LCounters ok =>
    match s_phase s with
    | Finished m =>
      let md := if ok : bool then metadata_of (s_db s) (m_chunk m).1 else ∅ in
      Some (State (s_now s) (s_hist s) (s_res s) (remove_metadata md (s_counts s)) (s_conns s) (s_mail s) Ready (s_notifies s), [])
    | _ => None
    end
  | LTime dt => Some (State (s_now s + dt) (s_hist s) (s_res s) (s_counts s) (s_conns s) (s_mail s) (s_phase s) (s_notifies s), [])
  (* reserver.rs:148-161, one round *)
  | LPurge i =>
    match r_pending (s_res s) !! i with
    | Some (k, t) =>
      if t <=? s_now s then
        Some (with_res (cache_remove ttl (s_now s) k (Reserver (r_entries (s_res s)) (delete i (r_pending (s_res s))))) s, [])
      else None
    | None => None
    end
  (* reserver.rs:137, one entry *)
  | LEvict k =>
    match r_entries (s_res s) !! k with
    | Some e => if is_live ttl (s_now s) e then None else Some (with_res (cache_remove ttl (s_now s) k (s_res s)) s, [])
    | None => None
    end
  (* conn.rs:134-137 *)
  | LNotice c =>
    match s_conns s !! c with
    | Some x =>
      match c_fetch x, c_rx x with
      | None, k :: rest =>
        Some (set_conn c (Peer (c_open x) (c_set x) rest None (c_spawned x) (c_waiting x) (c_retry x)) s, [Expired c k])
      | _, _ => None
      end
    | None => None
    end
  (* everything in memory is gone *)
  | LCrash oe => Some (server_start (match oe with Some e => s_hist s ++ [e] | None => s_hist s end) (s_now s), [])
  end.

(** Conditions that are not computed: the rows of a query are what the strategy's query yields on
    the present database and counters (the filter for reserved chunks is LSkip), and a crash
    interrupts only a write that the server was making. *)
Definition allowed (cfg : config) (l : label) (s : state) : Prop :=
  match l with
  | LReserve c q off rows => offers (q_strategy q) off (s_db s) (s_counts s) (fun _ => false) rows
  | LRetry c off rows =>
    exists x q rest, s_conns s !! c = Some x /\ c_retry x = q :: rest /\
      offers (q_strategy q) off (s_db s) (s_counts s) (fun _ => false) rows
  | LCrash (Some e) =>
    is_Some (e_crash e) /\
    (is_producer_op (e_op e) = true \/
     s_phase s = Ready /\ exists m rest n1 n2 n3, s_mail s = m :: rest /\ e_op e = mail_op cfg m n1 n2 n3)
  | _ => True
  end.
Definition step_to (cfg : config) (s : state) (l : label) (s' : state) (o : list out) : Prop :=
  allowed cfg l s /\ next cfg l s = Some (s', o).

(** Runs: the steps taken with what was sent at each. [ok] restricts which steps are taken: it may
    refer to the steps so far and the state before the step. *)
Notation trace := (list (label * list out)) (only parsing).
Inductive run_to (cfg : config) (ok : trace -> state -> label -> Prop) (s : state) : trace -> state -> Prop :=
| run_nil : run_to cfg ok s [] s
| run_snoc tr s1 l s2 o : run_to cfg ok s tr s1 -> ok tr s1 l -> step_to cfg s1 l s2 o -> run_to cfg ok s (tr ++ [(l, o)]) s2.
Definition anything (tr : trace) (s : state) (l : label) : Prop := True.

(** *** Vocabulary of the statements *)
(** The chunks that connection [c] was given and has not reported on since, as one sees from what
    was sent and received. *)
Definition ids_of (l : list (chunk * submission)) : gset chunk_id := list_to_set ((fun p => cid_of p.1) <$> l).
Definition hold_out (c : N) (k : gset chunk_id) (o : out) : gset chunk_id :=
  match o with
  | Given c' _ l => if bool_decide (c' = c) then k ∪ ids_of l else k
  | Closed c' => if bool_decide (c' = c) then ∅ else k
  | _ => k
  end.
Definition hold_step (c : N) (k : gset chunk_id) (lo : label * list out) : gset chunk_id :=
  foldl (hold_out c)
    (match lo.1 with
     | LReport c' cid _ => if bool_decide (c' = c) then k ∖ {[ cid ]} else k
     | LCrash _ => ∅
     | _ => k
     end) lo.2.
Definition holding (tr : trace) (c : N) : gset chunk_id := foldl (hold_step c) ∅ tr.
(** The chunks that a running fetch has reserved. *)
Definition fetched (x : peer) : list chunk_id :=
  match c_fetch x with
  | Some f => ((fun p => cid_of p.1) <$> f_got f) ++ match f_join f with Some r => [cid_of r] | None => [] end
  | None => []
  end.
(** Chunk [k] counts as reserved by an open connection (or its running fetch), or its reservation
    is kept for the second after it was finished. *)
Definition used (s : state) (k : chunk_id) : Prop :=
  (exists c x, s_conns s !! c = Some x /\ c_open x = true /\ (k ∈ c_set x \/ k ∈ fetched x)) \/ k ∈ (r_pending (s_res s)).*1.
(** No reservation that is still in use has expired. *)
Definition timely (cfg : config) (s : state) : Prop :=
  forall k e, r_entries (s_res s) !! k = Some e -> used s k -> is_live (cf_ttl cfg) (s_now s) e = true.
(** Reports that the server has not dealt with: at the completer, then in its mailbox. *)
Definition inbox (s : state) : list mail := match s_phase s with Written m _ => [m] | _ => [] end ++ s_mail s.
(** What C34 asks of a run: reservations do not expire while in use, consumers report only chunks
    that they hold, and no connection ends while a report it sent is still to be dealt with. *)
Definition orderly (cfg : config) (tr : trace) (s : state) (l : label) : Prop :=
  timely cfg s /\
  (forall c cid r, l = LReport c cid r -> cid ∈ holding tr c) /\
  (forall s' o c m, next cfg l s = Some (s', o) -> Closed c ∈ o -> m ∈ inbox s -> m_conn m <> c).
