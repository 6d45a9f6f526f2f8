(** C91: does a connection whose ends are both well stay open, and does one whose other end is gone close? *)
From Verif Require Import HeartbeatProofs.
Local Open Scope N_scope.

(** The server does not give up a client that is there, whatever the client sends: [late] bounds how long a loop takes
    until it gets to what is ready, [transit] how long a message travels. *)
Theorem C91_server t now tr s :
  beat_run t whatever (link_new now) tr s ->
  2 * tm_transit t + 3 * tm_late t < (tm_missable t + 1) * tm_period t ->
  h_end s <> Some ServerGaveUp.
Proof. intros Hr Hc. eapply server_run; [|exact Hr]. lia. Qed.

(** Nor the client the server, if all it sends are requests that are answered. *)
Theorem C91_quiet_partial t now tr s :
  beat_run t no_reports (link_new now) tr s ->
  2 * tm_transit t + 3 * tm_late t < (tm_missable t + 1) * tm_period t ->
  h_end s = None.
Proof.
  intros Hr Hc. pose proof (server_run t _ _ _ _ ltac:(lia) Hr) as H1.
  pose proof (client_run t False 0 (tm_transit t + 2 * tm_late t + (tm_transit t + tm_late t)) no_reports now tr s) as H2.
  destruct (h_end s) as [[]|]; [done| |done]. exfalso. apply H2; try done; try lia.
Qed.
(** ... or if its reports are further apart than the heartbeats. *)
Theorem C91_rare_reports_partial t gap now tr s :
  beat_run t (spaced gap) (link_new now) tr s ->
  tm_period t + tm_transit t + 2 * tm_late t < gap ->
  3 * tm_transit t + 5 * tm_late t < tm_missable t * tm_period t ->
  h_end s = None.
Proof.
  intros Hr Hg Hc. pose proof (server_run t _ _ _ _ ltac:(lia) Hr) as H1.
  pose proof (client_run t True gap (3 * tm_transit t + 5 * tm_late t + tm_period t) (spaced gap) now tr s) as H2.
  destruct (h_end s) as [[]|]; [done| |done]. exfalso. apply H2; try done; try lia.
Qed.

(** In general it does: a client that reports at least every [gap] milliseconds (less than a period)
    gives up the server by a fixed time, as each report keeps it from sending a ping (no run goes on for longer)... *)
Theorem C91_busy_client t gap now tr s :
  beat_run t (only_reports gap) (link_new now) tr s ->
  gap + tm_transit t + tm_late t < tm_period t ->
  h_end s <> Some ServerGaveUp /\
  h_now s <= now + (tm_missable t + 2) * tm_period t + 2 * tm_transit t + 3 * tm_late t.
Proof. intros Hr Hg. apply (silent_ends t gap now tr s ltac:(lia)) in Hr as [Hr1 Hr]. split; [done|]. lia. Qed.
(** ... for any period, any number of heartbeats that may be missed and any pace, even if all is handled at once. *)
Theorem C91_busy_client_refuted p m gap : 0 < gap < p ->
  exists tr s, beat_run (Timing p m 0 0) (steady gap) (link_new 0) tr s /\
    h_end s = Some ClientGaveUp /\ h_now s = (m + 2) * p.
Proof. intros [H1 H2]. by apply steady_ends. Qed.
(** As it does if the server is busy with one message for too long. *)
Theorem C91_stall_refuted p m : 0 < p ->
  exists tr s, beat_run (Timing p m ((m + 1) * p) 0) no_reports (link_new 0) tr s /\
    h_end s = Some ClientGaveUp /\ h_now s = (m + 1) * p.
Proof. apply stall_ends. Qed.

(** If the other side is gone, each side closes the connection by a fixed time (no run goes on for longer without an end),
    and nothing keeps it from doing so. *)
Theorem C91_client_gone t now tr s tr' s' :
  beat_run t whatever (link_new now) tr s -> h_end s = None -> alone_run (without_client t) s tr' s' ->
  h_now s' <= h_now s + tm_transit t + 2 * tm_late t + (tm_missable t + 2) * tm_period t /\
  (h_end s' = None -> exists tr'' s'', alone_run (without_client t) s' tr'' s'' /\ h_end s'' = Some ServerGaveUp).
Proof.
  intros Hr He Ha. destruct (noticing_server_run t _ _ _ _ _ _ Hr He Ha) as (_ & H2 & H3 & H4 & _). split.
  - assert ((sd_missed (h_server s') + 1) * tm_period t <= (tm_missable t + 2) * tm_period t) by (apply N.mul_le_mono_r; lia). lia.
  - intros He'. by apply server_notices.
Qed.
Theorem C91_server_gone t now tr s tr' s' :
  beat_run t whatever (link_new now) tr s -> h_end s = None -> alone_run (without_server t) s tr' s' ->
  h_now s' <= h_now s + tm_transit t + 2 * tm_late t + (tm_missable t + 2) * tm_period t /\
  (h_end s' = None -> exists tr'' s'', alone_run (without_server t) s' tr'' s'' /\ h_end s'' = Some ClientGaveUp).
Proof.
  intros Hr He Ha. destruct (noticing_client_run t _ _ _ _ _ _ Hr He Ha) as (_ & H2 & H3 & H4 & _). split.
  - assert ((sd_missed (h_client s') + 1) * tm_period t <= (tm_missable t + 2) * tm_period t) by (apply N.mul_le_mono_r; lia). lia.
  - intros He'. by apply client_notices.
Qed.
(** With the defaults, and a pong on its way when the client goes: 50 seconds later. *)
Example C91_gone_example :
  let t := Timing 10000 3 0 100 in
  exists s, beat_run t whatever (link_new 0) [ServerTick; ClientTick; Passes 100; ClientReceives] s /\ h_end s = None /\
  exists s', alone_run (without_client t) s [Passes 100; ServerReceives; Passes 10000; ServerTick; Passes 10000; ServerTick; Passes 10000; ServerTick; Passes 10000; ServerTick; Passes 10000; ServerTick] s' /\
    h_end s' = Some ServerGaveUp /\ h_now s' = 50200.
Proof.
  cbn zeta. eexists. split; [repeat (eapply beat_cons; [done|vm_compute; reflexivity|]); constructor|]. split; [done|].
  eexists. split; [repeat (eapply alone_cons; [vm_compute; reflexivity|]); constructor|]. done.
Qed.

(** With the defaults (10 seconds, 3 heartbeats; config.rs:76-94) a consumer that reserved many chunks and completes one every 9
    seconds closes the connection after 50 seconds. *)
Example C91_example : exists tr s, beat_run (Timing 10000 3 0 0) (steady 9000) (link_new 0) tr s /\
  h_end s = Some ClientGaveUp /\ h_now s = 50000.
Proof. apply (C91_busy_client_refuted 10000 3 9000). lia. Qed.
(** With the defaults and up to a second of travel and of lateness the hypotheses of the others are met, e.g. by this
    run with two reports 13.4 seconds apart, a request, a notice and late pings. *)
Definition half_minute : list pulse :=
  [ServerTick; ClientTick; Passes 500; ClientReceives; Passes 700; ServerReceives; Passes 9000; ClientSends Request;
   Passes 800; ServerReceives; Passes 100; ClientReceives; Passes 9999; ClientSends Report; Passes 900; ServerReceives; ClientTick;
   Passes 9000; ServerSends; Passes 1000; ServerTick; ClientReceives; ClientReceives; ServerReceives; Passes 2500; ClientSends Report].
Example C91_example_hypotheses :
  let t := Timing 10000 3 1000 1000 in
  2 * tm_transit t + 3 * tm_late t < (tm_missable t + 1) * tm_period t /\
  3 * tm_transit t + 5 * tm_late t < tm_missable t * tm_period t /\
  tm_period t + tm_transit t + 2 * tm_late t < 13001 /\
  exists s, beat_run t (spaced 13001) (link_new 0) half_minute s /\ h_now s = 34499 /\ h_end s = None.
Proof.
  cbn zeta. split; [done|]. split; [done|]. split; [done|]. eexists. unfold half_minute. split.
  - repeat (eapply beat_cons; [cbn; first [done|lia]|vm_compute; reflexivity|]). constructor.
  - done.
Qed.

Print Assumptions C91_server.
Print Assumptions C91_quiet_partial.
Print Assumptions C91_rare_reports_partial.
Print Assumptions C91_busy_client.
Print Assumptions C91_busy_client_refuted.
Print Assumptions C91_stall_refuted.
Print Assumptions C91_client_gone.
Print Assumptions C91_server_gone.
