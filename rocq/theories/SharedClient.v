(** The consumer client that users hold: OuterClient of consumer/client.rs, which connects when it
    is first used and again after errors. It may be called from several threads at once (Python
    releases the interpreter's lock during each call). *)
From Verif Require Export Types.
Local Open Scope N_scope.

(** Where a call of reserve_chunks, complete_chunk or fail_chunk is (client.rs:77-151): in
    initialize; between ensure_initialized and the load of the slot; awaiting the inner client's
    answer, while it holds the connection it loaded. *)
Inductive phase : Set := Connecting | Ready | Using (conn : N).
Global Instance phase_eq_dec : EqDecision phase.
Proof. solve_decision. Defined.
(** [sh_slot]: the ArcSwapOption of client.rs:54. Connections and calls are numbered in the order in
    which they are made. [sh_sick]: connections whose background task has set [healthy] to false
    (client.rs:323-325). *)
Record shared : Set := Shared {
  sh_slot : option N; sh_conns : N; sh_sick : gset N; sh_count : N; sh_calls : gmap N phase }.
(** OuterClient::new, client.rs:59-61. *)
Definition shared_new : shared := Shared None 0 ∅ 0 ∅.
(** What happens next. [Connected]: Client::new has succeeded; failed attempts to connect are
    repeated until one does (client.rs:160-172, 186-192) and change nothing. *)
Inductive move : Set :=
| Enter                           (* a new call starts and asks is_healthy *)
| Connected (call : N)            (* initialize returns, and the connection goes into the slot *)
| Loads (call : N)                (* the call takes the connection out of the slot *)
| Returns (call : N) (ok : bool)  (* the inner client's function returns *)
| Sickens (conn : N).             (* a connection is lost *)
Inductive seen : Set :=
| Started (call : N)
| Uses (call conn : N)            (* the call sends its message on this connection *)
| Finished (call conn : N) (ok : bool)
| CallPanics (call : N)           (* expect("Should always be initialized ...") *)
| Sickened (conn : N).
(** client.rs:177-180. *)
Definition healthy (s : shared) : bool :=
  match sh_slot s with Some c => bool_decide (c ∉ sh_sick s) | None => false end.
(** The functions of client.rs:77-158, cut where another thread can come between. [Enter]: 84, 109,
    138 and 154. [Connected]: 155-156. [Loads]: 85-89 and its copies. [Returns]: 90-95 and its
    copies, where an error empties the slot, whatever is in it by now. A move that does not apply
    does nothing. *)
Definition move_step (s : shared) (m : move) : shared * list seen :=
  match m with
  | Enter =>
    let k := sh_count s in
    (Shared (sh_slot s) (sh_conns s) (sh_sick s) (k + 1) (<[k := if healthy s then Ready else Connecting]> (sh_calls s)), [Started k])
  | Connected k =>
    match sh_calls s !! k with
    | Some Connecting =>
      (Shared (Some (sh_conns s)) (sh_conns s + 1) (sh_sick s) (sh_count s) (<[k := Ready]> (sh_calls s)), [])
    | _ => (s, [])
    end
  | Loads k =>
    match sh_calls s !! k with
    | Some Ready =>
      match sh_slot s with
      | Some c => (Shared (sh_slot s) (sh_conns s) (sh_sick s) (sh_count s) (<[k := Using c]> (sh_calls s)), [Uses k c])
      | None => (Shared (sh_slot s) (sh_conns s) (sh_sick s) (sh_count s) (delete k (sh_calls s)), [CallPanics k])
      end
    | _ => (s, [])
    end
  | Returns k ok =>
    match sh_calls s !! k with
    | Some (Using c) =>
      (Shared (if ok : bool then sh_slot s else None) (sh_conns s) (sh_sick s) (sh_count s) (delete k (sh_calls s)), [Finished k c ok])
    | _ => (s, [])
    end
  | Sickens c =>
    if c <? sh_conns s then (Shared (sh_slot s) (sh_conns s) ({[c]} ∪ sh_sick s) (sh_count s) (sh_calls s), [Sickened c]) else (s, [])
  end.
Definition moves (l : list move) : shared * list seen :=
  foldl (fun x m => let y := move_step x.1 m in (y.1, x.2 ++ y.2)) (shared_new, []) l.
(** The client after [l], and what was seen. *)
Definition after (l : list move) : shared := (moves l).1.
Definition sights (l : list move) : list seen := (moves l).2.

(** A connection is kept as long as the slot or a call refers to it (an Arc); then it is dropped,
    its background task is cancelled and it is closed (client.rs:248-254, 315). *)
Definition kept_open (s : shared) (c : N) : Prop := sh_slot s = Some c \/ exists k, sh_calls s !! k = Some (Using c).
(** No call is going on. *)
Definition quiet (s : shared) : Prop := sh_calls s = ∅.

(** *** Addresses *)
(** str::split_once("://"): what is before the first one. *)
Fixpoint scheme_of (s : string) : option string :=
  match s with
  | EmptyString => None
  | String a s' => if String.prefix "://" s then Some EmptyString else String a <$> scheme_of s'
  end.
(** producer::Client::new, producer/client.rs:53-66: the base of the URLs, or [None] for a panic. *)
Definition producer_base (host : string) : option string :=
  match scheme_of host with
  | Some scheme => if bool_decide (scheme = "http" \/ scheme = "https")%string then Some (host +:+ "/producer")%string else None
  | None => Some ("http://" +:+ host +:+ "/producer")%string
  end.
(** consumer::Client::new, consumer/client.rs:263-270. *)
Definition consumer_url (url : string) : string :=
  if String.prefix "ws://" url || String.prefix "wss://" url then (url +:+ "/consumer")%string
  else ("ws://" +:+ url +:+ "/consumer")%string.
