(** The in-flight counters: consumer/dispatcher/metastate.rs. *)
From Verif Require Export Types.
Local Open Scope N_scope.

(** MetaStateField: metastate.rs:68-71. A DashMap from values to usize counts. *)
Notation field := (gmap Z N) (only parsing).
(** MetaState: metastate.rs:5-6. *)
Notation metastate := (gmap string (gmap Z N)) (only parsing).

(** MetaStateField::increment, metastate.rs:80-85. usize is modelled as unbounded [N]. *)
Definition field_increment (v : Z) (f : field) : field :=
  match f !! v with Some c => <[v := c + 1]> f | None => <[v := 1]> f end.
(** MetaStateField::decrement, metastate.rs:87-96. [None]: the subtraction underflows (a panic in
    debug builds). *)
Definition field_decrement (v : Z) (f : field) : option field :=
  match f !! v with
  | Some 0 => None
  | Some c => Some (if c - 1 =? 0 then delete v f else <[v := c - 1]> f)
  | None => Some f
  end.
(** MetaStateField::is_empty, metastate.rs:98-101. *)
Definition field_is_empty (f : field) : bool := bool_decide (f = ∅).
(** MetaStateField::get, metastate.rs:103-106. *)
Definition field_get (v : Z) (f : field) : option N := f !! v.

(** MetaState::increment, metastate.rs:14-19: both arms add one to the field, which the second arm
    first creates. The lookup that chooses the arm has no effect, and [entry(..).or_default()]
    keeps a field created meanwhile, so the effect is one atomic step. *)
Definition increment (k : string) (v : Z) (m : metastate) : metastate :=
  match m !! k with
  | Some f => <[k := field_increment v f]> m
  | None => <[k := field_increment v ∅]> m
  end.

(** MetaState::decrement, metastate.rs:21-47, in its three atomic parts: the decrement of the
    field under the shard's read lock (line 24; an absent key is only logged), ... *)
Definition decrement_field (k : string) (v : Z) (m : metastate) : option metastate :=
  match m !! k with Some f => (fun f' => <[k := f']> m) <$> field_decrement v f | None => Some m end.
(** ... the test whether the field is ripe for removal (line 25) ... *)
Definition ripe (k : string) (m : metastate) : bool :=
  match m !! k with Some f => field_is_empty f | None => false end.
(** ... and remove_if with its second test under the write lock (line 45). *)
Definition remove_if_empty (k : string) (m : metastate) : metastate := if ripe k m then delete k m else m.
(** The whole decrement when nobody interferes. *)
Definition decrement (k : string) (v : Z) (m : metastate) : option metastate :=
  (fun m' => if ripe k m' then remove_if_empty k m' else m') <$> decrement_field k v m.

(** MetaState::get and MetaStateField::get together: the count of a value. *)
Definition count (m : metastate) (k : string) (v : Z) : N := default 0 (m !! k ≫= field_get v).

(** MetaStateField::to_json (metastate.rs:109-114) as the list of its members; [None] when the key
    is absent, for which the caller uses "{}" (dispatcher/mod.rs:129-157). *)
Definition counts_of (m : metastate) (k : string) : list (Z * N) := map_to_list (default ∅ (m !! k)).

(** insert_metadata and remove_metadata, dispatcher/mod.rs:195-205. The order in which the map is
    traversed is irrelevant; the model uses [map_to_list]. A panic of one decrement is dropped here;
    it never happens (MetaStateProofs.v). *)
Definition insert_metadata (st : strat_map) (m : metastate) : metastate :=
  foldr (fun kv => increment kv.1 kv.2) m (map_to_list st).
Definition remove_metadata (st : strat_map) (m : metastate) : metastate :=
  foldr (fun kv m => default m (decrement kv.1 kv.2 m)) m (map_to_list st).

(** *** Threads that share the table *)
Inductive mop : Set := MInc (k : string) (v : Z) | MDec (k : string) (v : Z).
Global Instance mop_eq_dec : EqDecision mop.
Proof. solve_decision. Defined.
(** Where a thread is: between operations, after the decrement of a field and before the test, or
    before [remove_if]. The read lock that a thread holds between its decrement and its test is not
    modelled, which only allows more interleavings. *)
Inductive mpc : Set := Idle | AtTest (k : string) | AtRemove (k : string).
Record mthread : Set := MThread { mt_pc : mpc; mt_todo : list mop }.
(** The table ([None] after a panic), the threads, and the increments and decrements in the order
    in which they took effect (only there for the statements). *)
Record mstate : Set := MState { ms_table : option metastate; ms_threads : list mthread; ms_log : list mop }.

Definition mstart (progs : list (list mop)) : mstate := MState (Some ∅) (MThread Idle <$> progs) [].
(** One atomic step of thread [i]; a thread that has finished stays where it is. *)
Definition mstep (i : nat) (s : mstate) : mstate :=
  match ms_table s, ms_threads s !! i with
  | Some m, Some t =>
    match mt_pc t, mt_todo t with
    | Idle, [] => s
    | Idle, MInc k v :: l => MState (Some (increment k v m)) (<[i := MThread Idle l]> (ms_threads s)) (ms_log s ++ [MInc k v])
    | Idle, MDec k v :: l => MState (decrement_field k v m) (<[i := MThread (AtTest k) l]> (ms_threads s)) (ms_log s ++ [MDec k v])
    | AtTest k, l => MState (Some m) (<[i := MThread (if ripe k m then AtRemove k else Idle) l]> (ms_threads s)) (ms_log s)
    | AtRemove k, l => MState (Some (remove_if_empty k m)) (<[i := MThread Idle l]> (ms_threads s)) (ms_log s)
    end
  | _, _ => s
  end.
Definition mrun (sched : list nat) (s : mstate) : mstate := foldl (fun s i => mstep i s) s sched.
Definition quiescent (s : mstate) : Prop := Forall (fun t => mt_pc t = Idle) (ms_threads s).

(** *** Specification *)
Definition incs (l : list mop) (k : string) (v : Z) : nat :=
  length (filter (fun o => o = MInc k v) l).
Definition decs (l : list mop) (k : string) (v : Z) : nat :=
  length (filter (fun o => o = MDec k v) l).
(** No prefix decrements a value more often than it was incremented. *)
Definition matched (l : list mop) : Prop := forall l1 l2, l = l1 ++ l2 -> forall k v, (decs l1 k v <= incs l1 k v)%nat.
