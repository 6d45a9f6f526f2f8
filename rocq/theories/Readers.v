(** The pool of reader connections: who has how many of them, who waits for one and how long.
    db/mod.rs:468-480 (config.rs:66-74: its size is the option max_read_pool_size).

    A reserve request takes a connection for the query that finds chunks (dispatcher/mod.rs:219) and
    keeps it while it takes a second one, from the same pool, for each chunk found (311). Every other
    user of the pool takes one connection and gives it back (producer/server.rs:145-231,
    prometheus.rs:213). A task that has waited for 30 seconds gets an error (sqlx's default
    acquire_timeout). What the requests do with the connections is Server.v. *)
From Verif Require Export Server.
Local Open Scope N_scope.

Definition acquire_timeout : N := 30000.

(** The reserve request of a connection between a consumer and the server (it is handled within the loop of that
    connection, conn.rs:104-140, which does nothing else meanwhile). [WaitsFirst None]: the retry of an earlier request
    (conn.rs:127-131). [since]: when it began to wait. *)
Inductive stage : Set := WaitsFirst (q : option req) (since : N) | HasFirst | WaitsSecond (since : N) | HasBoth.
(** [rd_queries]: all other users of the pool; [Some since]: it waits, [None]: it has its connection. *)
Record readers : Set := Readers { rd_server : state; rd_stage : gmap N stage; rd_queries : gmap N (option N) }.
Definition readers_start (h : history) (now : N) : readers := Readers (server_start h now) ∅ ∅.

(** How many connections are in use. *)
Definition takes (st : stage) : nat := match st with WaitsFirst _ _ => 0 | HasFirst | WaitsSecond _ => 1 | HasBoth => 2 end.
Definition holds (w : option N) : nat := match w with Some _ => 0 | None => 1 end.
Definition in_use (s : readers) : nat :=
  (sum_list_with (fun p => takes p.2) (map_to_list (rd_stage s)) + sum_list_with (fun p => holds p.2) (map_to_list (rd_queries s)))%nat.

Inductive rlabel : Set :=
| PRequest (c : N) (q : req)                       (* a reserve request arrives *)
| PWoken (c : N)                                   (* an earlier one is to be retried *)
| PFirst (c off : N) (rows : list chunk)           (* it gets its connection; the query starts *)
| PRow (c : N)                                     (* the next row *)
| PSecond (c : N)                                  (* it gets the second connection *)
| PJoin (c : N) (fault : bool)                     (* ... uses it and gives it back *)
| PReply (c : N)                                   (* the request is over *)
| PError (c : N)                                   (* an error of the database *)
| PTimeout (c : N)                                 (* it has waited too long *)
| PAsk (t : N) | PGet (t : N) | PAnswer (t : N) | PGiveUp (t : N) | PLeave (t : N)   (* the others; PLeave: the client hangs up *)
| PTime (dt : N)
| PServer (l : label).                             (* everything else *)
Inductive rout : Set := Sent (o : out) | QueryAnswered (t : N) | QueryFailed (t : N).

(** Is the request of connection [c] still running, and does it need its second connection? *)
Definition fetch_of (s : state) (c : N) : option fetch := x ← s_conns s !! c; c_fetch x.
Definition stage_of (s : state) (c : N) : option stage :=
  match fetch_of s c with
  | Some f => Some (match f_join f with Some _ => WaitsSecond (s_now s) | None => HasFirst end)
  | None => None
  end.
Definition set_stage (c : N) (st : option stage) (m : gmap N stage) : gmap N stage :=
  match st with Some st => <[c := st]> m | None => delete c m end.
(** A step of the server that belongs to the request of [c]. *)
Definition request_step (cfg : config) (l : label) (c : N) (s : readers) : option (readers * list rout) :=
  match next cfg l (rd_server s) with
  | Some (s', o) => Some (Readers s' (set_stage c (stage_of s' c) (rd_stage s)) (rd_queries s), Sent <$> o)
  | None => None
  end.
(** The error of a request: conn.rs:219-228. One that had no connection yet has reserved nothing. *)
Definition fails (cfg : config) (c : N) (s : readers) : option (readers * list rout) :=
  match rd_stage s !! c with
  | Some (WaitsFirst (Some q) _) =>
    Some (Readers (rd_server s) (delete c (rd_stage s)) (rd_queries s), [Sent (Given c (q_nonce q) [])])
  | Some (WaitsFirst None _) =>
    match s_conns (rd_server s) !! c with
    | Some (Peer true set rx None sp w (q :: rest)) =>
      Some (Readers (set_conn c (Peer true set rx None sp w rest) (rd_server s)) (delete c (rd_stage s)) (rd_queries s),
            [Sent (Given c (q_nonce q) [])])
    | _ => None
    end
  | Some HasFirst | Some (WaitsSecond _) => request_step cfg (LFetchError c) c s
  | _ => None
  end.
Definition waits_since (st : stage) : option N := match st with WaitsFirst _ t | WaitsSecond t => Some t | _ => None end.
(** Time does not go on while somebody has waited too long and has not been told. *)
Definition can_wait (t : N) (w : option N) : Prop := match w with Some since => t <= since + acquire_timeout | None => True end.
Global Instance can_wait_dec t w : Decision (can_wait t w).
Proof. destruct w; simpl; apply _. Defined.
(** The steps of the server that are not covered by the others. While a request is handled the
    connection's loop does nothing else. *)
Definition plain (l : label) (s : readers) : bool :=
  match l with
  | LReserve _ _ _ _ | LRetry _ _ _ | LRow _ | LJoin _ _ | LFetchError _ | LReply _ | LTime _ => false
  | LDisconnect c | LReport c _ _ | LNotice c => match rd_stage s !! c with None => true | Some _ => false end
  | _ => true
  end.

(** [cap]: the size of the pool. *)
Definition rnext (cfg : config) (cap : N) (l : rlabel) (s : readers) : option (readers * list rout) :=
  let '(Readers srv st qs) := s in
  let free := N.of_nat (in_use s) <? cap in
  match l with
  (* state.rs:71-73: a limit of zero is refused before the database is asked *)
  | PRequest c q =>
    match s_conns srv !! c, st !! c with
    | Some x, None =>
      if c_open x then
        if q_max q =? 0 then Some (s, [Sent (Refused c (q_nonce q))])
        else Some (Readers srv (<[c := WaitsFirst (Some q) (s_now srv)]> st) qs, [])
      else None
    | _, _ => None
    end
  | PWoken c =>
    match s_conns srv !! c, st !! c with
    | Some x, None =>
      if c_open x then
        match c_retry x with
        | q :: rest =>
          if q_max q =? 0 then
            Some (Readers (set_conn c (Peer true (c_set x) (c_rx x) None (c_spawned x) (c_waiting x) rest) srv) st qs, [Sent (Refused c (q_nonce q))])
          else Some (Readers srv (<[c := WaitsFirst None (s_now srv)]> st) qs, [])
        | [] => None
        end
      else None
    | _, _ => None
    end
  | PFirst c off rows =>
    match st !! c with
    | Some (WaitsFirst oq _) =>
      if free then request_step cfg (match oq with Some q => LReserve c q off rows | None => LRetry c off rows end) c s else None
    | _ => None
    end
  | PRow c => match st !! c with Some HasFirst => request_step cfg (LRow c) c s | _ => None end
  | PSecond c =>
    match st !! c with
    | Some (WaitsSecond _) => if free then Some (Readers srv (<[c := HasBoth]> st) qs, []) else None
    | _ => None
    end
  | PJoin c fault => match st !! c with Some HasBoth => request_step cfg (LJoin c fault) c s | _ => None end
  | PReply c => match st !! c with Some HasFirst => request_step cfg (LReply c) c s | _ => None end
  | PError c => fails cfg c s
  | PTimeout c =>
    match st !! c ≫= waits_since with
    | Some since => if since + acquire_timeout <=? s_now srv then fails cfg c s else None
    | None => None
    end
  | PAsk t => match qs !! t with None => Some (Readers srv st (<[t := Some (s_now srv)]> qs), []) | Some _ => None end
  | PGet t =>
    match qs !! t with
    | Some (Some _) => if free then Some (Readers srv st (<[t := None]> qs), []) else None
    | _ => None
    end
  | PAnswer t => match qs !! t with Some None => Some (Readers srv st (delete t qs), [QueryAnswered t]) | _ => None end
  | PGiveUp t =>
    match qs !! t with
    | Some (Some since) =>
      if since + acquire_timeout <=? s_now srv then Some (Readers srv st (delete t qs), [QueryFailed t]) else None
    | _ => None
    end
  | PLeave t => match qs !! t with Some _ => Some (Readers srv st (delete t qs), []) | None => None end
  | PTime dt =>
    if bool_decide (map_Forall (fun _ x => can_wait (s_now srv + dt) (waits_since x)) st /\
                    map_Forall (fun _ w => can_wait (s_now srv + dt) w) qs) then
      match next cfg (LTime dt) srv with Some (srv', o) => Some (Readers srv' st qs, Sent <$> o) | None => None end
    else None
  | PServer l' =>
    if plain l' s then
      match next cfg l' srv with
      | Some (srv', o) => Some (match l' with LCrash _ => Readers srv' ∅ ∅ | _ => Readers srv' st qs end, Sent <$> o)
      | None => None
      end
    else None
  end.
(** Which rows a query yields: Server.v. *)
Definition rallowed (cfg : config) (l : rlabel) (s : readers) : Prop :=
  match l with
  | PFirst c off rows =>
    match rd_stage s !! c with
    | Some (WaitsFirst (Some q) _) => allowed cfg (LReserve c q off rows) (rd_server s)
    | _ => allowed cfg (LRetry c off rows) (rd_server s)
    end
  | PServer l' => allowed cfg l' (rd_server s)
  | _ => True
  end.
Definition rstep_to (cfg : config) (cap : N) (s : readers) (l : rlabel) (s' : readers) (o : list rout) : Prop :=
  rallowed cfg l s /\ rnext cfg cap l s = Some (s', o).
Inductive rrun (cfg : config) (cap : N) (ok : rlabel -> Prop) (s : readers) : list (rlabel * list rout) -> readers -> Prop :=
| rrun_nil : rrun cfg cap ok s [] s
| rrun_snoc tr s1 l s2 o : rrun cfg cap ok s tr s1 -> ok l -> rstep_to cfg cap s1 l s2 o -> rrun cfg cap ok s (tr ++ [(l, o)]) s2.

(** *** Vocabulary *)
(** The requests go on: connections are given out, statements are run, answers are given. No time
    passes, nothing fails, nobody else comes. *)
Definition goes_on (l : rlabel) : Prop :=
  match l with
  | PFirst _ _ _ | PRow _ | PSecond _ | PJoin _ false | PReply _ | PGet _ | PAnswer _ => True
  | _ => False
  end.
(** The request of connection [c] that waits for its first connection to the database. *)
Definition asks (s : readers) (c : N) (q : req) : Prop :=
  exists t, rd_stage s !! c = Some (WaitsFirst (Some q) t) \/
            rd_stage s !! c = Some (WaitsFirst None t) /\ exists x rest, s_conns (rd_server s) !! c = Some x /\ c_retry x = q :: rest.
(** Everybody has been answered. *)
Definition settled (s : readers) : Prop := rd_stage s = ∅ /\ rd_queries s = ∅.
(** Nothing goes wrong in the database and the server is not restarted. *)
Definition calm (l : rlabel) : Prop :=
  match l with PError _ | PJoin _ true | PServer (LCrash _) => False | _ => True end.
Definition rsent (tr : list (rlabel * list rout)) : list rout := concat tr.*2.
(** The run of the server in it. *)
Definition sent (l : list rout) : list out := omap (fun o => match o with Sent o => Some o | _ => None end) l.
(** Who has a connection. *)
Definition has_one (st : stage) : bool := match st with WaitsFirst _ _ => false | _ => true end.
Definition has_second (st : stage) : bool := match st with HasBoth => true | _ => false end.
Definition runs (w : option N) : bool := match w with None => true | Some _ => false end.
