(** C100: the times of events survive the database.

    Specification. A time of the server's clock is a number of nanoseconds since 1970. SQLite keeps whole milliseconds,
    counted from the start of Julian day 0; day 2440587.5 is the start of 1970. [recorded t ms]: [ms] may be
    what SQLite makes of the text of [t]; it is off by at most one millisecond. *)
From Verif Require Import Julian JulianProofs Rfc3339 Rfc3339Proofs.
From Coq Require Import Lia.
Local Open Scope Z_scope.

Definition start_of_1970 : Z := 210866760000000.
Definition recorded (t ms : Z) : Prop := Z.abs (10 ^ 6 * (ms - start_of_1970) - t) <= 10 ^ 6.
(** From 13 January 1970 to the end of the year 9999. *)
Definition in_era (t : Z) : Prop := 10 ^ 15 + 2 * 10 ^ 6 <= t < 253402300800 * 10 ^ 9 - 2 * 10 ^ 6.
(** Julian days start at noon. *)
Definition at_noon (ms : Z) : Prop := (ms mod 86400000) = 0.

Lemma recorded_range t ms : in_era t -> recorded t ms ->
  start_of_1970 + 10 ^ 9 <= ms < start_of_1970 + 253402300800000.
Proof. unfold in_era, recorded, start_of_1970. lia. Qed.

(** Whoever asks for the time of an event gets an answer. *)
Theorem C100_answered t ms : in_era t -> recorded t ms -> exists t', load (store ms) = Some t'.
Proof.
  intros He Hr. pose proof (recorded_range t ms He Hr) as Hb.
  destruct (Z.eq_dec (ms mod day_ms) 0) as [E|E].
  - apply Z.div_exact in E; [|unfold day_ms; lia]. rewrite E, Z.mul_comm.
    rewrite julian_whole; [eexists; reflexivity|].
    pose proof (Z.mod_pos_bound ms day_ms). unfold start_of_1970, day_ms in *. lia.
  - destruct (load_bound ms Hb E) as (t' & El & _). exists t'. exact El.
Qed.

(** The time that is reported is that of the event, up to 1.111 milliseconds: except for the first millisecond after
    noon (UTC). The full claim has no exception: it is refuted below. *)
Theorem C100_reported_partial t ms : in_era t -> recorded t ms -> ~ at_noon ms ->
  exists t', load (store ms) = Some t' /\ Z.abs (t' - t) <= 1111000.
Proof.
  intros He Hr Hn. pose proof (recorded_range t ms He Hr) as Hb.
  destruct (load_bound ms Hb Hn) as (t' & El & Hd). exists t'. split; [exact El|].
  unfold recorded in Hr. change epoch_ms with start_of_1970 in Hd. lia.
Qed.

(** 2024-06-01T10:20:30.123456789Z is recorded as .123 and reported as .122986316. *)
Example C100_reported_example :
  let t := 1717237230123456789 in
  let ms := start_of_1970 + 1717237230123 in
  in_era t /\ recorded t ms /\ ~ at_noon ms /\ load (store ms) = Some 1717237230122986316.
Proof.
  cbv zeta. split; [unfold in_era; lia|]. split; [unfold recorded, start_of_1970; lia|].
  split; [|vm_compute; reflexivity]. unfold at_noon. vm_compute. discriminate.
Qed.

(** All the way: what a producer's Python program gets, in microseconds, after the time was stored, read, written into the
    answer of the server and read from it. *)
Theorem C100_seen_partial t ms : in_era t -> recorded t ms -> ~ at_noon ms ->
  exists t' t'', load (store ms) = Some t' /\ read_time (time_text t') = Some t'' /\
    Z.abs (1000 * to_python t'' - t) <= 1112000.
Proof.
  intros He Hr Hn. destruct (C100_reported_partial t ms He Hr Hn) as (t' & El & Hd).
  exists t', t'. split; [exact El|]. split.
  - apply read_time_text. unfold time_ok, in_era in *. lia.
  - unfold to_python. pose proof (div_bounds t' 1000 ltac:(lia)). lia.
Qed.

(** An event in the first millisecond after noon is reported as one of the first months of 1970: its Julian day is a whole
    number, the column makes an integer of it, and an integer is read as a number of seconds. That
    is so on every day from 1995 to the year 9999. *)
Theorem C100_noon_refuted t ms : in_era t -> recorded t ms -> at_noon ms -> 10 ^ 18 <= t ->
  exists t', load (store ms) = Some t' /\ 0 <= t' < 100 * 86400 * 10 ^ 9 /\ t - t' > 30 * 365 * 86400 * 10 ^ 9.
Proof.
  intros He Hr E Ht. pose proof (recorded_range t ms He Hr) as Hb.
  unfold at_noon in E. change 86400000 with day_ms in E.
  apply Z.div_exact in E; [|unfold day_ms; lia]. rewrite E, Z.mul_comm.
  assert (0 < ms / day_ms < 5373485) by (unfold start_of_1970, day_ms in *; lia).
  rewrite julian_whole by lia. cbn [load]. eexists. split; [reflexivity|]. lia.
Qed.

(** 2024-06-01T12:00:00.0003Z is reported as 1970-01-29T11:27:43Z. *)
Example C100_noon_example :
  let t := 1717243200000300000 in
  let ms := start_of_1970 + 1717243200000 in
  in_era t /\ recorded t ms /\ at_noon ms /\ 10 ^ 18 <= t /\
  load (store ms) = Some ((((28 * 24 + 11) * 60 + 27) * 60 + 43) * 10 ^ 9).
Proof.
  cbv zeta. split; [unfold in_era; lia|]. split; [unfold recorded, start_of_1970; lia|].
  split; [vm_compute; reflexivity|]. split; [lia|]. vm_compute. reflexivity.
Qed.

(** Of two events that are three milliseconds apart or more, the later one is reported as the later one. *)
Theorem C100_reported_in_order_partial t1 ms1 t2 ms2 :
  in_era t1 -> recorded t1 ms1 -> ~ at_noon ms1 ->
  in_era t2 -> recorded t2 ms2 -> ~ at_noon ms2 ->
  t1 + 3 * 10 ^ 6 <= t2 ->
  exists t1' t2', load (store ms1) = Some t1' /\ load (store ms2) = Some t2' /\ t1' < t2'.
Proof.
  intros E1 R1 N1 E2 R2 N2 H.
  destruct (load_bound ms1 (recorded_range _ _ E1 R1) N1) as (t1' & L1 & D1).
  destruct (load_bound ms2 (recorded_range _ _ E2 R2) N2) as (t2' & L2 & D2).
  exists t1', t2'. split; [exact L1|]. split; [exact L2|].
  unfold recorded in *. lia.
Qed.

(** The comparison of the cleanup is that of the milliseconds, also at noon: for every two times up to the year 138000.
    So the model of the database may keep whole numbers. *)
Theorem C100_order a b : 0 <= a < 2 ^ 52 -> 0 <= b < 2 ^ 52 -> older (store a) b = (a <? b).
Proof. apply older_spec. Qed.

(** For the retention: an event more than two milliseconds before the cutoff is old, one that is more than one millisecond
    after it is not. *)
Theorem C100_cutoff t ms c cms : in_era t -> recorded t ms -> in_era c -> recorded c cms ->
  (t + 2 * 10 ^ 6 < c -> older (store ms) cms = true) /\
  (c + 10 ^ 6 < t -> older (store ms) cms = false).
Proof.
  intros E1 R1 E2 R2.
  pose proof (recorded_range _ _ E1 R1). pose proof (recorded_range _ _ E2 R2).
  rewrite older_spec by (unfold start_of_1970 in *; lia).
  unfold recorded in *. rewrite Z.ltb_lt, Z.ltb_ge. split; lia.
Qed.

Example C100_cutoff_example :
  let t := 1717243200000300000 in
  let ms := start_of_1970 + 1717243200000 in
  older (store ms) (ms + 1) = true /\ older (store ms) ms = false /\ older (store ms) (ms - 1) = false.
Proof. vm_compute. auto. Qed.

Print Assumptions C100_reported_partial.
Print Assumptions C100_noon_refuted.
Print Assumptions C100_order.
