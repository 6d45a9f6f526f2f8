(** C68, C69: the consumer client that threads share, and the addresses that clients are given.
    Vocabulary: SharedClient.v; [one_at_a_time] and [url] of SharedClientProofs.v. *)
From Coq Require Import Ascii.
From Verif Require Import SharedClientProofs.
Local Open Scope N_scope.

(** ** C68 *)
(** When each call starts after the one before has returned, no call panics. A call uses the
    connection of the call before it, if that one returned without error and its connection has not
    been lost; after an error or a loss it uses a connection that no call used before. *)
Theorem C68_one_caller_partial : forall l, one_at_a_time l ->
  (forall k, CallPanics k ∉ sights l) /\
  forall es1 k c ok es2 k' c' es3,
    sights l = es1 ++ Finished k c ok :: es2 ++ Uses k' c' :: es3 -> (forall j x, Uses j x ∉ es2) ->
    (ok = true -> Sickened c ∉ es1 ++ es2 -> c' = c) /\
    (ok = false \/ Sickened c ∈ es1 -> forall j, Uses j c' ∉ es1).
Proof. intros l H. split; [intros k; by apply no_panic|]. intros. by eapply one_after_another. Qed.
Print Assumptions C68_one_caller_partial.
(** Whatever calls overlap: while there are no errors and the connection is not lost, the
    connection that is in place when no call is going on stays, all calls that follow use it, and none panics. *)
Theorem C68_stays_partial : forall l1 c l2 es,
  quiet (after l1) -> kept_open (after l1) c -> sights (l1 ++ l2) = sights l1 ++ es ->
  (forall k c', Finished k c' false ∉ es) -> Sickened c ∉ sights (l1 ++ l2) ->
  kept_open (after (l1 ++ l2)) c /\ (forall k c', Uses k c' ∈ es -> c' = c) /\ (forall k, CallPanics k ∉ es).
Proof.
  intros l1 c l2 es Q K E F S. assert (Hs : sh_slot (after l1) = Some c).
  { destruct K as [?|[k K]]; [done|]. by rewrite Q in K. }
  destruct (stays l1 c l2 Q Hs) as (S2 & _ & U).
  - intros k c' H. rewrite E in H. apply elem_of_app in H as [?|H]; [done|]. by apply F in H.
  - done.
  - destruct (U es E) as [U1 U2]. split; [by left|done].
Qed.
Print Assumptions C68_stays_partial.
(** Whatever calls overlap: a call panics only if another call returned an error while it was going on. *)
Theorem C68_panics_only_partial : forall l k, CallPanics k ∈ sights l ->
  exists es1 es2 es3 k' c, sights l = es1 ++ Started k :: es2 ++ CallPanics k :: es3 /\ Finished k' c false ∈ es2 /\ k' <> k.
Proof. exact panics_after. Qed.
Print Assumptions C68_panics_only_partial.
(** But it does panic then: another thread's error may come between the check of the connection and its use. *)
Theorem C68_panics_refuted : exists l k, CallPanics k ∈ sights l.
Proof. exists [Enter; Connected 0; Loads 0; Enter; Returns 0 false; Loads 1], 1. vm_compute. by repeat constructor. Qed.
Print Assumptions C68_panics_refuted.
(** An error that comes late, on a connection lost before, closes the new connection on which
    another call has reserved chunks in the meantime. *)
Theorem C68_late_error_refuted : exists l k c, Finished k c true ∈ sights l /\ Sickened c ∉ sights l /\
  (forall k' c', Finished k' c' false ∈ sights l -> c' <> c) /\ quiet (after l) /\ ~ kept_open (after l) c.
Proof.
  exists [Enter; Connected 0; Loads 0; Sickens 0; Enter; Connected 1; Loads 1; Returns 1 true; Returns 0 false], 1, 1.
  replace (sights _) with [Started 0; Uses 0 0; Sickened 0; Started 1; Uses 1 1; Finished 1 1 true; Finished 0 0 false] by (by vm_compute).
  split_and!.
  - by repeat constructor.
  - intros H. repeat (apply elem_of_cons in H as [H|H]; [discriminate|]). by apply elem_of_nil in H.
  - intros k' c' H ->. repeat (apply elem_of_cons in H as [H|H]; [discriminate|]). by apply elem_of_nil in H.
  - unfold quiet. apply (bool_decide_unpack _). by vm_compute.
  - intros [H|[k H]]; [by vm_compute in H|]. replace (sh_calls _) with (∅ : gmap N phase) in H by (symmetry; apply (bool_decide_unpack _); by vm_compute). done.
Qed.
Print Assumptions C68_late_error_refuted.
(** With no error and no loss at all: two calls that find no connection both make one, and the
    second takes the place of the first, although the first call has reserved chunks on its own. *)
Theorem C68_two_connect_refuted : exists l k c, Finished k c true ∈ sights l /\ (forall c', Sickened c' ∉ sights l) /\
  (forall k' c', Finished k' c' false ∉ sights l) /\ (forall k', CallPanics k' ∉ sights l) /\ ~ kept_open (after l) c.
Proof.
  exists [Enter; Enter; Connected 0; Loads 0; Connected 1; Loads 1; Returns 0 true; Returns 1 true], 0, 0.
  replace (sights _) with [Started 0; Started 1; Uses 0 0; Uses 1 1; Finished 0 0 true; Finished 1 1 true] by (by vm_compute).
  split_and!.
  - by repeat constructor.
  - intros c'. rewrite !elem_of_cons, elem_of_nil. naive_solver.
  - intros k' c'. rewrite !elem_of_cons, elem_of_nil. naive_solver.
  - intros k'. rewrite !elem_of_cons, elem_of_nil. naive_solver.
  - intros [H|[k H]]; [by vm_compute in H|]. replace (sh_calls _) with (∅ : gmap N phase) in H by (symmetry; apply (bool_decide_unpack _); by vm_compute). done.
Qed.
Print Assumptions C68_two_connect_refuted.
Example C68_example :
  let l := [Enter; Connected 0; Loads 0; Returns 0 true; Enter; Loads 1; Returns 1 true; Sickens 0; Enter; Connected 2; Loads 2; Returns 2 false; Enter; Connected 3; Loads 3] in
  one_at_a_time l /\
  sights l = [Started 0; Uses 0 0; Finished 0 0 true; Started 1; Uses 1 0; Finished 1 0 true; Sickened 0; Started 2; Uses 2 1; Finished 2 1 false; Started 3; Uses 3 2] /\
  kept_open (after l) 2 /\ quiet (after [Enter; Connected 0; Loads 0; Returns 0 true]) /\ kept_open (after [Enter; Connected 0; Loads 0; Returns 0 true]) 0.
Proof. split_and!; [repeat (apply conj; [intros E; first [discriminate E|unfold quiet; apply (bool_decide_unpack _); by vm_compute]|]); exact I|by vm_compute|by left|unfold quiet; apply (bool_decide_unpack _); by vm_compute|by left]. Qed.

(** ** C69 *)
(** An address without a scheme: both clients reach the same server, and under the same path. *)
Theorem C69_plain_partial : forall server path,
  (forall x y, server +:+ path <> x +:+ "://" +:+ y)%string -> ~ has_char "/" server -> (path = EmptyString \/ exists r, path = String "/" r) ->
  (exists u, producer_base (server +:+ path) = Some u /\ url "http" server (path +:+ "/producer") u) /\
  url "ws" server (path +:+ "/consumer") (consumer_url (server +:+ path)).
Proof. exact plain_addresses. Qed.
Print Assumptions C69_plain_partial.
(** With a scheme, no address is right for both: the producer's client takes the schemes http and
    https and no other; with those the consumer's client looks for a server called "http:" or
    "https:". A URL is read in one way only. *)
Theorem C69_scheme_refuted : forall scheme rest, ~ has_char ":" scheme ->
  (producer_base (scheme +:+ "://" +:+ rest) <> None <-> scheme = "http"%string \/ scheme = "https"%string) /\
  (scheme = "http"%string \/ scheme = "https"%string ->
   (exists p, url "ws" (scheme +:+ ":") p (consumer_url (scheme +:+ "://" +:+ rest))) /\
   forall c s p, url c s p (consumer_url (scheme +:+ "://" +:+ rest)) -> s = (scheme +:+ ":")%string).
Proof.
  intros scheme rest N. destruct (scheme_addresses scheme rest N) as [H1 H2]. split; [done|]. intros H. destruct (H2 H) as [p U].
  split; [by exists p|]. intros c s p' U'. by destruct (url_unique _ _ _ _ _ _ _ U U') as (_ & <- & _).
Qed.
Print Assumptions C69_scheme_refuted.
(** The consumer's client takes the schemes ws and wss, as they are. *)
Theorem C69_websocket : forall scheme server path, scheme = "ws"%string \/ scheme = "wss"%string -> ~ has_char "/" server -> (path = EmptyString \/ exists r, path = String "/" r) ->
  url scheme server (path +:+ "/consumer") (consumer_url (scheme +:+ "://" +:+ server +:+ path)).
Proof.
  assert (Hp : forall a b, String.prefix a (a +:+ b) = true).
  { intros a b. induction a as [|x a IH]; [by destruct b|]. change (String x a +:+ b)%string with (String x (a +:+ b))%string. cbn [String.prefix]. destruct (ascii_dec x x); [exact IH|congruence]. }
  assert (Hi : forall scheme server path, scheme = "ws"%string \/ scheme = "wss"%string ->
    consumer_url (scheme +:+ "://" +:+ server +:+ path) = ((scheme +:+ "://" +:+ server +:+ path) +:+ "/consumer")%string).
  { intros scheme server path H. unfold consumer_url. destruct H as [->| ->].
    - change ("ws" +:+ "://" +:+ server +:+ path)%string with ("ws://" +:+ (server +:+ path))%string. by rewrite Hp.
    - change ("wss" +:+ "://" +:+ server +:+ path)%string with ("wss://" +:+ (server +:+ path))%string. by rewrite Hp, orb_true_r. }
  intros scheme server path H S P. rewrite (Hi _ _ _ H). split; [by rewrite !append_assoc|]. split; [|split; [done|apply path_app; [done|by eexists]]].
  destruct H as [->| ->]; simpl; intros Hc; repeat destruct Hc as [Hc|Hc]; done.
Qed.
Print Assumptions C69_websocket.
Example C69_example :
  producer_base "localhost:3999" = Some "http://localhost:3999/producer"%string /\
  consumer_url "localhost:3999" = "ws://localhost:3999/consumer"%string /\
  producer_base "https://services.example.com/opsqueue" = Some "https://services.example.com/opsqueue/producer"%string /\
  consumer_url "https://services.example.com/opsqueue" = "ws://https://services.example.com/opsqueue/consumer"%string /\
  producer_base "ws://localhost:3999" = None /\
  url "ws" "localhost:3999" "/consumer" (consumer_url "localhost:3999").
Proof. split_and!; try (by vm_compute). split; [done|]. simpl. split_and!; [naive_solver|naive_solver|right; by eexists]. Qed.
