(** What the server makes of the frames that a consumer sends: consumer/server/conn.rs. Not modelled: the
    WebSocket protocol itself (axum): frames that break it and the end of the stream are [FBroken]. *)
From Verif Require Import Bytes.
From Verif Require Export Server Wire.
Local Open Scope N_scope.

(** What recv() gives: conn.rs:115-126 and 186-201. [FBinary None]: bytes that are no CBOR value. *)
Inductive frame : Set := FPing | FPong | FText | FBinary (w : option wire) | FClose | FBroken.
Inductive reaction : Set := Nothing | Handle (e : client_envelope) | EndConnection.
(** conn.rs:115-126 and handle_incoming_msg, 181-204; every error ends the loop (the "?" of 125). *)
Definition react (f : frame) : reaction :=
  match f with
  | FPing | FPong => Nothing
  | FBinary (Some w) => match dec_to_server cbor_depth w with Some e => Handle e | None => EndConnection end
  | FBinary None | FText | FClose | FBroken => EndConnection
  end.
(** handle_incoming_client_message, 206-272: the steps of Server.v that a frame on connection [c] can start; a
    search for chunks goes on by steps of its own. *)
Definition starts (c : N) (f : frame) (l : label) : Prop :=
  match react f with
  | Nothing => False
  | EndConnection => l = LDisconnect c
  | Handle (ToServer n (WantToReserve max s)) => exists off rows, l = LReserve c (Req n max s) off rows
  | Handle (ToServer n (CompleteMsg k out)) => l = LReport c k (Complete out)
  | Handle (ToServer n (FailMsg k f)) => l = LReport c k (Fail f)
  end.
(** The steps by which the server serves connection [c]. *)
Definition serves (c : N) (l : label) : Prop :=
  match l with
  | LRetry c' _ _ | LRow c' | LSkip c' _ | LJoin c' _ | LFetchError c' | LReply c' | LRegister c' | LNotice c' => c' = c
  | _ => False
  end.
