(** One connection between a consumer and the server with the heartbeats of both sides and the messages
    between them, in time (milliseconds). Server: consumer/server/conn.rs:62-65, 104-140, 170-187. Client:
    consumer/client.rs:327-357. What the messages are about is Server.v and ConsumerClient.v.

    Simplifications: a message is handled at once when the loop gets to it; that a loop is busy
    with one (or waits for a database connection, Readers.v) is a delay of what comes next. Messages
    do not get lost as long as both sides are there, and the connection ends for no other reason. *)
From Verif Require Export Types.
Local Open Scope N_scope.

(** [p]: the heartbeat interval, [m]: max_missable_heartbeats (the server tells the client both, conn.rs:152-166).
    [late]: how long a loop may take until it gets to what is ready; [transit]: how long a message may travel. *)
Record timing : Set := Timing { tm_period : N; tm_missable : N; tm_late : N; tm_transit : N }.
(** The interval and the counter of a side. tokio's interval first ticks at once and then a period after each time at
    which a tick was due (Burst), however late the loop is; [reset] makes it tick a period from now. *)
Record side : Set := Side { sd_due : N; sd_missed : N }.
(** What the client sends: the reply to a ping (tungstenite sends it by itself), a report on a chunk (complete_chunk,
    fail_chunk: never answered, conn.rs:250-258), or a request that is answered at once (conn.rs:213-231). A reserve
    request that has to wait for work is a [Report] here: it is answered some time later, or never. *)
Inductive to_server : Set := Pong | Report | Request.
(** What the server sends: a ping or anything else. *)
Inductive to_client : Set := Ping | Other.
Inductive ending : Set := ServerGaveUp | ClientGaveUp.
(** Messages on the way carry the time by which they are handled. [h_reported]: when the client last sent a [Report]
    (for the statements only). *)
Record link : Set := Link {
  h_now : N; h_server : side; h_client : side;
  h_up : list (to_server * N); h_down : list (to_client * N);
  h_end : option ending; h_reported : option N }.
(** Both intervals tick at once: conn.rs:63, client.rs:335. *)
Definition link_new (now : N) : link := Link now (Side now 0) (Side now 0) [] [] None None.

Inductive pulse : Set :=
| ServerTick | ClientTick
| ServerReceives | ClientReceives
| ClientSends (x : to_server)     (* a report or a request *)
| ServerSends                     (* an answer to an earlier request, or a notice of expiry *)
| Passes (dt : N).
Definition reset (t : timing) (now : N) : side := Side (now + tm_period t) 0.
Definition ticked (t : timing) (x : side) : side := Side (sd_due x + tm_period t) (sd_missed x + 1).
Definition handled_by (t : timing) (now : N) : N := now + tm_transit t + tm_late t.
(** What is ready is handled in time. *)
Definition in_time (t : timing) (now : N) (s : link) : bool :=
  (now <=? sd_due (h_server s) + tm_late t) && (now <=? sd_due (h_client s) + tm_late t) &&
  forallb (fun x => now <=? snd x) (h_up s) && forallb (fun x => now <=? snd x) (h_down s).

Definition beat_next (t : timing) (l : pulse) (s : link) : option link :=
  let '(Link now sv cl up down e r) := s in
  match e with
  | Some _ => None
  | None =>
    match l with
    (* beat_heart, conn.rs:170-181 *)
    | ServerTick =>
      if sd_due sv <=? now then
        if tm_missable t <? sd_missed sv then Some (Link now sv cl up down (Some ServerGaveUp) r)
        else Some (Link now (ticked t sv) cl up (down ++ [(Ping, handled_by t now)]) None r)
      else None
    (* client.rs:341-354 *)
    | ClientTick =>
      if sd_due cl <=? now then
        if tm_missable t <? sd_missed cl then Some (Link now sv cl up down (Some ClientGaveUp) r)
        else Some (Link now sv (ticked t cl) up down None r)
      else None
    (* handle_incoming_msg, conn.rs:184-187 *)
    | ServerReceives =>
      match up with
      | [] => None
      | (x, _) :: up' =>
        Some (Link now (reset t now) cl up' (match x with Request => down ++ [(Other, handled_by t now)] | _ => down end) None r)
      end
    (* client.rs:355-357 *)
    | ClientReceives =>
      match down with
      | [] => None
      | (x, _) :: down' =>
        Some (Link now sv (reset t now) (match x with Ping => up ++ [(Pong, handled_by t now)] | Other => up end) down' None r)
      end
    (* client.rs:441-469 *)
    | ClientSends x =>
      match x with
      | Pong => None
      | _ => Some (Link now sv cl (up ++ [(x, handled_by t now)]) down None (match x with Report => Some now | _ => r end))
      end
    | ServerSends => Some (Link now sv cl up (down ++ [(Other, handled_by t now)]) None r)
    | Passes dt => if in_time t (now + dt) s then Some (Link (now + dt) sv cl up down None r) else None
    end
  end.
(** [ok] restricts what the client does. *)
Inductive beat_run (t : timing) (ok : link -> pulse -> Prop) (s : link) : list pulse -> link -> Prop :=
| beat_nil : beat_run t ok s [] s
| beat_snoc tr s1 l s2 : beat_run t ok s tr s1 -> ok s1 l -> beat_next t l s1 = Some s2 -> beat_run t ok s (tr ++ [l]) s2.

(** One side is gone without a word (a crash of its machine, a cut cable): the other one goes on by
    itself with what is still on the way to it. *)
Definition without_client (t : timing) (l : pulse) (s : link) : option link :=
  match l with
  | ServerTick | ServerReceives | ServerSends => beat_next t l s
  | ClientTick | ClientReceives | ClientSends _ => None
  | Passes dt =>
    let now := h_now s + dt in
    if bool_decide (h_end s = None) && (now <=? sd_due (h_server s) + tm_late t) && forallb (fun x => now <=? snd x) (h_up s)
    then Some (Link now (h_server s) (h_client s) (h_up s) (h_down s) None (h_reported s)) else None
  end.
Definition without_server (t : timing) (l : pulse) (s : link) : option link :=
  match l with
  | ClientTick | ClientReceives | ClientSends _ => beat_next t l s
  | ServerTick | ServerReceives | ServerSends => None
  | Passes dt =>
    let now := h_now s + dt in
    if bool_decide (h_end s = None) && (now <=? sd_due (h_client s) + tm_late t) && forallb (fun x => now <=? snd x) (h_down s)
    then Some (Link now (h_server s) (h_client s) (h_up s) (h_down s) None (h_reported s)) else None
  end.
Inductive alone_run (next : pulse -> link -> option link) (s : link) : list pulse -> link -> Prop :=
| alone_nil : alone_run next s [] s
| alone_snoc tr s1 l s2 : alone_run next s tr s1 -> next l s1 = Some s2 -> alone_run next s (tr ++ [l]) s2.

(** *** Vocabulary *)
Definition whatever (s : link) (l : pulse) : Prop := True.
(** The client reports nothing. *)
Definition no_reports (s : link) (l : pulse) : Prop := l <> ClientSends Report.
(** Reports are at least [gap] apart. *)
Definition spaced (gap : N) (s : link) (l : pulse) : Prop :=
  match l, h_reported s with ClientSends Report, Some t => t + gap <= h_now s | _, _ => True end.
(** The client sends a report at least every [gap] milliseconds. *)
Definition busy (gap : N) (s : link) (l : pulse) : Prop :=
  match l with Passes dt => match h_reported s with Some t => h_now s + dt <= t + gap | None => False end | _ => True end.
(** ... and nothing else, and the server has nothing to tell it. *)
Definition only_reports (gap : N) (s : link) (l : pulse) : Prop := busy gap s l /\ l <> ClientSends Request /\ l <> ServerSends.
(** A report every [gap] milliseconds. *)
Definition steady (gap : N) (s : link) (l : pulse) : Prop := only_reports gap s l /\ spaced gap s l.
