(** The producer's HTTP client: producer/client.rs, on top of the handlers of ProducerServer.v. *)
From Coq Require Import Ascii.
From Verif Require Export ProducerServer.
Local Open Scope N_scope.

(** How an exchange can fail below HTTP: what reqwest::Error says about itself. *)
Inductive net_err : Set := NConnect | NTimeout | NDecode | NOther.
(** What the client sees of one request: an error before a response; a response whose body may
    turn out to be unreadable; or an answer of something in front of the server (a proxy, or axum
    itself, e.g. 502, 503 or 413), whose body is not what the client expects. *)
Inductive exchange : Set := XErr (e : net_err) | XResp (r : response) (body_lost : option net_err) | XStatus (c : N).

(** The errors of the client: InternalProducerClientError (client.rs:356-364) and the definite
    answers. *)
Inductive client_err : Set :=
| CHttp (e : net_err) | CStatus (code : N)   (* HTTPClientError: of the network, of error_for_status *)
| CJson                                      (* ResponseDecodingError *)
| CUnexpected (code : N)                     (* UnexpectedStatus *)
| CNotFound (id : sub_id) | CNotCancellable (st : status) | CTooMany (max : N).

(** is_ephemeral, client.rs:368-395, and the closures given to [when] (193-196, 320-323). *)
Definition is_ephemeral (e : client_err) : bool :=
  match e with
  | CUnexpected _ | CJson => false
  | CHttp NConnect | CHttp NTimeout | CHttp NDecode => true
  | CHttp NOther => false
  | CStatus c => (500 <=? c) && (c <? 600)
  | CNotFound _ | CNotCancellable _ | CTooMany _ => false
  end.

Definition read_body {A} (lost : option net_err) (k : client_err + A) : client_err + A :=
  match lost with Some e => inl (CHttp e) | None => k end.
(** error_for_status, then the body: 81-90, 117-128, 219-228, 252-263. The answer to a count is
    decoded as u32 (78, 88). *)
Definition checked (q : request) (r : response) (lost : option net_err) : client_err + body :=
  match r with
  | Http200 b =>
    read_body lost (match q, b with PCount, BCount n => if n <? 2 ^ 32 then inr b else inl CJson | _, _ => inr b end)
  | _ => inl (CStatus (default 0 (code r)))
  end.
(** 161-191: a 200 is not read any further. *)
Definition cancel_outcome (r : response) (lost : option net_err) : client_err + body :=
  match r with
  | Http200 _ => inr BNone
  | Http404 id => read_body lost (inl (CNotFound id))
  | Http409 st => read_body lost (inl (CNotCancellable st))
  | _ => inl (CUnexpected (default 0 (code r)))
  end.
(** 287-318. *)
Definition by_meta_outcome (r : response) (lost : option net_err) : client_err + body :=
  match r with
  | Http200 b => read_body lost (inr b)
  | Http400 max => read_body lost (inl (CTooMany max))
  | _ => inl (CUnexpected (default 0 (code r)))
  end.
Definition outcome (q : request) (x : exchange) : client_err + body :=
  match x with
  | XErr e => inl (CHttp e)
  | XStatus c =>
    match q with
    | PCancel _ => if (c =? 200) then inr BNone else if (c =? 404) || (c =? 409) then inl (CHttp NDecode) else inl (CUnexpected c)
    | PByMeta _ => if (c =? 200) || (c =? 400) then inl (CHttp NDecode) else inl (CUnexpected c)
    | _ => if (400 <=? c) && (c <? 600) then inl (CStatus c) else inl CJson
    end
  | XResp r lost =>
    match q with
    | PCancel _ => cancel_outcome r lost
    | PByMeta _ => by_meta_outcome r lost
    | _ => checked q r lost
    end
  end.

(** One attempt: it does not reach the server, where something in front of it may answer (not
    modelled: redirects, and bodies of such answers that look like those of the server), or it is served, after whatever other clients did in the meantime; the server may meet faults or die, and the response or its body may get lost. *)
Record serving : Set := Serving {
  sv_others : history; sv_max : N; sv_id : sub_id; sv_otel : string; sv_n1 : time; sv_n2 : time;
  sv_faults : faults; sv_crash : option nat; sv_lost : option net_err; sv_body_lost : option net_err }.
Inductive attempt : Set := NotServed (e : net_err) | Intercepted (c : N) | Served (s : serving).
Definition attempt_run (q : request) (d : db) (a : attempt) : db * exchange :=
  match a with
  | NotServed e => (d, XErr e)
  | Intercepted c => (d, XStatus c)
  | Served s =>
    let d1 := run_from d (sv_others s) in
    let p := handle (sv_max s) (sv_id s) (sv_otel s) (sv_n1 s) (sv_n2 s) q in
    let done := exec p d1 (sv_faults s) in
    match sv_crash s with
    | Some k => (default (snd done) (crash_dbs p d1 (sv_faults s) !! k), XErr (default NOther (sv_lost s)))
    | None => (snd done, match sv_lost s with Some e => XErr e | None => XResp (fst done) (sv_body_lost s) end)
    end
  end.

(** retry_policy, client.rs:21-27: 100 retries; backon's Retryable loop. The result, the database
    after it and the number of attempts; [None] while the loop still runs. *)
Definition max_retries_http : nat := 100.
Fixpoint call_from (q : request) (retries : nat) (d : db) (l : list attempt) {struct l} : option ((client_err + body) * db * nat) :=
  match l with
  | [] => None
  | a :: rest =>
    let '(d', x) := attempt_run q d a in
    match outcome q x with
    | inr b => Some (inr b, d', 1%nat)
    | inl e =>
      if is_ephemeral e then
        match retries with
        | O => Some (inl e, d', 1%nat)
        | S n => (fun '(r, d, k) => (r, d, S k)) <$> call_from q n d' rest
        end
      else Some (inl e, d', 1%nat)
    end
  end.
Definition call (q : request) (d : db) (l : list attempt) := call_from q max_retries_http d l.

(** *** Specification *)
(** What the client sees of each attempt. *)
Fixpoint exchanges (q : request) (d : db) (l : list attempt) : list exchange :=
  match l with [] => [] | a :: rest => snd (attempt_run q d a) :: exchanges q (fst (attempt_run q d a)) rest end.
(** The failures that may go away: no connection, a timeout, an answer cut short or unreadable, or,
    for the requests that check the status first, a 5xx. *)
Definition transient_net (e : net_err) : Prop := e = NConnect \/ e = NTimeout \/ e = NDecode.
Definition transient (q : request) (x : exchange) : Prop :=
  match x with
  | XErr e => transient_net e
  | XStatus c =>
    match q with
    | PCancel _ => c = 404 \/ c = 409
    | PByMeta _ => c = 200 \/ c = 400
    | _ => 500 <= c <= 599
    end
  | XResp r lost =>
    match q with
    | PCancel _ => (code r = Some 404 \/ code r = Some 409) /\ exists e, lost = Some e /\ transient_net e
    | PByMeta _ => (code r = Some 200 \/ code r = Some 400) /\ exists e, lost = Some e /\ transient_net e
    | _ => code r = Some 500 \/ code r = Some 200 /\ exists e, lost = Some e /\ transient_net e
    end
  end.
(** The reply of an attempt that was served arrives, and nothing else says 200. *)
Definition replied (a : attempt) : Prop :=
  match a with NotServed _ => True | Intercepted c => c <> 200 | Served s => sv_crash s = None /\ sv_lost s = None /\ sv_body_lost s = None end.
(** The ids that the server drew for the attempts of an insert. *)
Definition attempt_ids (l : list attempt) : list sub_id :=
  omap (fun a => match a with Served s => Some (sv_id s) | _ => None end) l.
(** What happened to the database during the attempts of an insert (of a cancellation). *)
Definition attempt_events (o : serving -> op) (l : list attempt) : history :=
  a ← l; match a with NotServed _ | Intercepted _ => [] | Served s => sv_others s ++ [Event (o s) (sv_faults s) (sv_crash s)] end.
Definition insert_op (c : chunk_contents) (m : option string) (st : strat_map) (z : option Z) (s : serving) : op :=
  OInsert (sv_id s) (contents_of c).1 (contents_of c).2 m st (default 1%Z z) (sv_otel s) (sv_n1 s).
Definition cancel_op (id : sub_id) (s : serving) : op := OCancel id (sv_n1 s) (sv_n2 s).
(** What others did during the attempts. *)
Definition others (l : list attempt) : history := a ← l; match a with NotServed _ | Intercepted _ => [] | Served s => sv_others s end.
