(** The metrics of the consumers' side of the server: the gauge of connected consumers
    (consumer/server/mod.rs:121, 140), the histograms of how long chunks were reserved
    (mod.rs:250-251, 289-290) and the counters of reservations (dispatcher/reserver.rs:75, 81), as
    values that the steps of Server.v change. The gauge of the number of
    reservations (reserver.rs:142) is at the end. Not modelled: the durations of the calls
    themselves (state.rs:104, mod.rs:253, 293). *)
From Verif Require Export SpacingProofs CountProofs.
Local Open Scope N_scope.

(** The values; of a histogram, the samples in the order in which they were recorded, in ms. *)
Record meters : Set := Meters {
  consumers_connected : Z; reservations_succeeded : N; reservations_failed : N;
  durations_completed : list N; durations_failed : list N }.
(** A process starts with all of them at zero. *)
Definition meters_zero : meters := Meters 0 0 0 [] [].

(** What a step, taken in state [s], does to them. A connection's task that panics ([LJoin]) unwinds
    past line 140 of mod.rs. *)
Definition metered (cfg : config) (s : state) (l : label) (m : meters) : meters :=
  let '(Meters n ok no comp fail) := m in
  match l with
  | LConnect _ => Meters (n + 1) ok no comp fail                       (* mod.rs:121 *)
  | LDisconnect _ => Meters (n - 1) ok no comp fail                    (* mod.rs:140 *)
  | LRow c =>                                                          (* reserver.rs:73-82 *)
    match s_conns s !! c with
    | Some (Peer _ _ _ (Some (Fetch _ (r :: _) _ _)) _ _ _) =>
      if (try_reserve (cf_ttl cfg) (s_now s) (cid_of r) c (s_res s)).1.1
      then Meters n (ok + 1) no comp fail else Meters n ok (no + 1) comp fail
    | _ => m
    end
  | LFinish =>                                                         (* mod.rs:246-252, 280-291 *)
    match s_phase s with
    | Written r delayed =>
      match (finish_reservation (cf_ttl cfg) (s_now s) (m_chunk r) delayed (s_res s)).1.1 with
      | Some at_ =>
        match m_report r with
        | Complete _ => Meters n ok no (comp ++ [s_now s - at_]) fail
        | Fail _ => Meters n ok no comp (fail ++ [s_now s - at_])
        end
      | None => m
      end
    | _ => m
    end
  | LCrash _ => meters_zero
  | _ => m
  end.
(** Their values after the steps of a run that begins in state [s]. *)
Fixpoint metered_from (cfg : config) (s : state) (tr : trace) (m : meters) : meters :=
  match tr with
  | [] => m
  | (l, _) :: tr => match next cfg l s with Some (s', _) => metered_from cfg s' tr (metered cfg s l m) | None => m end
  end.
Definition meters_after (cfg : config) (s : state) (tr : trace) : meters := metered_from cfg s tr meters_zero.

(** *** Specification: what one sees from outside *)
(** The consumers that are connected: those that came and whose connection has not ended, since the
    server was started. *)
Definition online_step (on : gset N) (lo : label * list out) : gset N :=
  foldl (fun on o => match o with Closed c => on ∖ {[ c ]} | _ => on end)
    (match lo.1 with LConnect c => on ∪ {[ c ]} | LCrash _ => ∅ | _ => on end) lo.2.
Definition online (tr : trace) : gset N := foldl online_step ∅ tr.
(** Connections that ended because their task broke down while it joined a chunk with its
    submission, since the server was started. *)
Definition breaks_step (n : nat) (lo : label * list out) : nat :=
  match lo with (LJoin _ _, Closed _ :: _) => S n | (LCrash _, _) => 0 | _ => n end.
Definition breakdowns (tr : trace) : nat := foldl breaks_step 0%nat tr.
(** The number of chunks that were given to consumers since the server was started. *)
Definition given_step (n : nat) (lo : label * list out) : nat :=
  foldl (fun n o => match o with Given _ _ g => n + length g | _ => n end)%nat (match lo.1 with LCrash _ => 0%nat | _ => n end) lo.2.
Definition chunks_given (tr : trace) : nat := foldl given_step 0%nat tr.
(** Nobody waits for the answer to a request. *)
Definition no_requests (s : state) : Prop := forall c x, s_conns s !! c = Some x -> c_fetch x = None.
(** When chunk [k] was last given to consumer [c]: the time at which the request had been received
    and the time at which it was answered, as seen from the steps taken since [t0]. *)
Definition handed_step (t0 : N) (p : trace * gmap (N * chunk_id) (N * N)) (lo : label * list out) : trace * gmap (N * chunk_id) (N * N) :=
  (p.1 ++ [lo],
   foldl (fun m o => match o with
     | Given c _ g => foldr (fun x m => <[(c, cid_of x.1) := (asked t0 p.1 c, (foldl tick (t0, ∅) p.1).1)]> m) m g
     | _ => m end) p.2 lo.2).
Definition handed (t0 : N) (tr : trace) (c : N) (k : chunk_id) : option (N * N) := (foldl (handed_step t0) ([], ∅) tr).2 !! (c, k).

(** What RESERVER_CHUNKS_RESERVED_GAUGE is set to by a maintenance run at time [now],
    dispatcher/reserver.rs:135-144: the number of entries that this run leaves in the cache.
    Simplification: entry_count is read as the exact number, which is what moka promises for a
    cache that nobody changes between run_pending_tasks and entry_count. The run happens every 10 ms
    (reserver.rs:167-178). In Server.v its removals are the steps [LPurge] and [LEvict]; here they are
    made all at once, as the code does between two readings of the clock. *)
Definition reserved_gauge (ttl now : N) (r : reserver) : N :=
  N.of_nat (size (r_entries (fst (run_pending_tasks ttl now r)))).
(** serve_producer_and_consumer builds a router anew for every attempt to listen (server.rs:44-52,
    retried from line 76 on), each with a reserver of its own and a loop that maintains it
    (server.rs:103-110, consumer/server/mod.rs:100-107). The loops of failed attempts go on until the
    process is told to end (reserver.rs:167-178), with reservers in which nothing is ever reserved.
    [failed]: the number of failed attempts; [r]: the reserver of the attempt that succeeded. *)
Definition maintained (failed : nat) (r : reserver) : list reserver := replicate failed reserver_new ++ [r].
(** What loop [i] sets the gauge to; all of them set the same one. *)
Definition gauge_set_by (ttl now : N) (failed : nat) (r : reserver) (i : nat) : option N :=
  reserved_gauge ttl now <$> maintained failed r !! i.
