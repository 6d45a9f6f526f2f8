(** Reservations of chunks: consumer/dispatcher/reserver.rs.

    The moka cache is modelled as a finite map from keys to entries. An entry is live while less
    than the time-to-live has passed since it was written; an entry that is not live is treated as
    absent by every operation, and whichever operation takes it out of the map (a maintenance run,
    an insert over it, a removal) calls the eviction listener with cause Expired, which notifies the
    sender stored in the entry (reserver.rs:41-53). This behaviour of moka is trusted. Instants are
    milliseconds ([N]). *)
From Verif Require Export Types.
Local Open Scope N_scope.

(** One reservation: who is told when it expires (the connection that owns the sender) and when it
    was made. The value V of the cache is the key itself (dispatcher/mod.rs:295-304). *)
Record entry : Set := Entry { e_holder : N; e_at : N }.
(** Reserver, reserver.rs:16-20. [r_pending]: the DelayQueue of keys with their deadlines. *)
Record reserver : Set := Reserver { r_entries : gmap chunk_id entry; r_pending : list (chunk_id * N) }.
Definition reserver_new : reserver := Reserver ∅ [].
(** What the eviction listener sends: the holder is told the key. *)
Notation notice := (N * chunk_id)%type (only parsing).

(** How long a finished reservation is kept: reserver.rs:112-113. *)
Definition removal_delay : N := 1000.

Definition is_live (ttl now : N) (e : entry) : bool := now <? e_at e + ttl.
(** The listener, reserver.rs:44-51: only an expired entry is reported. *)
Definition listener (ttl now : N) (k : chunk_id) (e : entry) : list notice :=
  if is_live ttl now e then [] else [(e_holder e, k)].
(** Cache::get as seen by the callers. *)
Definition get_live (ttl now : N) (k : chunk_id) (r : reserver) : option entry :=
  match r_entries r !! k with Some e => if is_live ttl now e then Some e else None | None => None end.
(** Cache::remove. *)
Definition cache_remove (ttl now : N) (k : chunk_id) (r : reserver) : reserver * list notice :=
  (Reserver (delete k (r_entries r)) (r_pending r),
   match r_entries r !! k with Some e => listener ttl now k e | None => [] end).

(** try_reserve, reserver.rs:67-84. *)
Definition try_reserve (ttl now : N) (k : chunk_id) (holder : N) (r : reserver) : bool * reserver * list notice :=
  match get_live ttl now k r with
  | Some _ => (false, r, [])
  | None => (true, Reserver (<[k := Entry holder now]> (r_entries r)) (r_pending r),
             match r_entries r !! k with Some e => listener ttl now k e | None => [] end)
  end.
(** is_reserved, reserver.rs:87-89. *)
Definition is_reserved (ttl now : N) (k : chunk_id) (r : reserver) : bool :=
  match get_live ttl now k r with Some _ => true | None => false end.
(** finish_reservation, reserver.rs:95-120. *)
Definition finish_reservation (ttl now : N) (k : chunk_id) (delayed : bool) (r : reserver) : option N * reserver * list notice :=
  match get_live ttl now k r with
  | None => (None, r, [])
  | Some e =>
    if delayed then (Some (e_at e), Reserver (r_entries r) (r_pending r ++ [(k, now + removal_delay)]), [])
    else let '(r', ns) := cache_remove ttl now k r in (Some (e_at e), r', ns)
  end.
(** finish_reservation_sync, reserver.rs:124-128. (Its result is ignored by its only caller.) *)
Definition finish_reservation_sync (ttl now : N) (k : chunk_id) (r : reserver) : reserver * list notice :=
  cache_remove ttl now k r.

(** purge_pending_removals, reserver.rs:148-161: one round of its loop for the key [k] ... *)
Definition purge_one (ttl now : N) (r : reserver) (k : chunk_id) : reserver * list notice := cache_remove ttl now k r.
Definition seq_notices {A} (f : reserver -> A -> reserver * list notice) (r : reserver) (l : list A) : reserver * list notice :=
  foldl (fun '(r, ns) a => let '(r', ns') := f r a in (r', ns ++ ns')) (r, []) l.
(** ... and all of them: every key whose delay has passed leaves the queue and the cache. *)
Definition purge_pending_removals (ttl now : N) (r : reserver) : reserver * list notice :=
  let due := filter (fun p => p.2 <= now) (r_pending r) in
  let rest := filter (fun p => now < p.2) (r_pending r) in
  seq_notices (purge_one ttl now) (Reserver (r_entries r) rest) due.*1.
(** Cache::run_pending_tasks: the expired entries leave the cache. *)
Definition expired_keys (ttl now : N) (r : reserver) : list chunk_id :=
  (map_to_list (filter (fun p => is_live ttl now p.2 = false) (r_entries r))).*1.
Definition evict_expired (ttl now : N) (r : reserver) : reserver * list notice :=
  seq_notices (fun r k => cache_remove ttl now k r) r (expired_keys ttl now r).
(** run_pending_tasks, reserver.rs:135-144. *)
Definition run_pending_tasks (ttl now : N) (r : reserver) : reserver * list notice :=
  let '(r1, ns1) := purge_pending_removals ttl now r in
  let '(r2, ns2) := evict_expired ttl now r1 in (r2, ns1 ++ ns2).

(** *** Sequences of calls, each at its time *)
Inductive rop : Set :=
| RTry (k : chunk_id) (holder : N) | RFinish (k : chunk_id) (delayed : bool) | RFinishSync (k : chunk_id) | RRun.
Definition rstep (ttl : N) (r : reserver) (o : N * rop) : reserver * list notice :=
  match o.2 with
  | RTry k h => let '(_, r', ns) := try_reserve ttl o.1 k h r in (r', ns)
  | RFinish k b => let '(_, r', ns) := finish_reservation ttl o.1 k b r in (r', ns)
  | RFinishSync k => finish_reservation_sync ttl o.1 k r
  | RRun => run_pending_tasks ttl o.1 r
  end.
Definition rrun (ttl : N) (r : reserver) (ops : list (N * rop)) : reserver := foldl (fun r o => fst (rstep ttl r o)) r ops.
(** All notices sent, in order. *)
Fixpoint rnotices (ttl : N) (r : reserver) (ops : list (N * rop)) : list notice :=
  match ops with [] => [] | o :: l => snd (rstep ttl r o) ++ rnotices ttl (fst (rstep ttl r o)) l end.
Definition about_key (k : chunk_id) (ns : list notice) : list notice := filter (fun n => n.2 = k) ns.
