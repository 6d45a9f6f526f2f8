(** C70-C74: the loop of Python consumers, and the start and the health of the server.
    Vocabulary: RunLoop.v, Boot.v; [one_chunk], [ends_loop], [reserved], [report_of] of
    RunLoopProofs.v; [timeline], [last_ended], [fails], [fails_silently] of BootProofs.v. *)
From Verif Require Import RunLoopProofs BootProofs.
Local Open Scope N_scope.

(** ** C70 *)
(** Each call of the user's function is followed by one report for its chunk, a completion with
    what the function returned or a failure with the text of what it raised; and each report
    follows such a call. *)
Theorem C70_reported : forall rounds,
  (forall i c r, run_per_chunk rounds !! i = Some (Calls c r) ->
    run_per_chunk rounds !! S i = Some (Reports c match r with Output o => Complete o | Raises _ text => Fail text end)) /\
  (forall j c p, run_per_chunk rounds !! j = Some (Reports c p) -> exists i r, j = S i /\ run_per_chunk rounds !! i = Some (Calls c r)).
Proof.
  intros rs. split.
  - intros i c r H. exact (paired_next _ _ _ _ (loop_paired rs 0) H).
  - intros j c p H. exact (paired_before _ _ _ _ (loop_paired rs 0) H).
Qed.
Print Assumptions C70_reported.
(** The function is called for every chunk that is reserved, in order and once each, until a round
    ends the loop; after it nothing happens. *)
Theorem C70_called : forall rounds, Forall one_chunk rounds ->
  ((forall r, r ∈ rounds -> ~ ends_loop r) ->
   omap call_of (run_per_chunk rounds) = concat (reserved <$> rounds) /\ LoopEnds ∉ run_per_chunk rounds) /\
  (forall rs1 r rs2, rounds = rs1 ++ r :: rs2 -> (forall x, x ∈ rs1 -> ~ ends_loop x) -> ends_loop r ->
   exists es, run_per_chunk rounds = es ++ [LoopEnds] /\ LoopEnds ∉ es /\ omap call_of es = concat (reserved <$> rs1 ++ [r])).
Proof.
  intros rs H. split.
  - intros N. by apply loop_calls.
  - intros rs1 r rs2 -> N E. apply loop_stops; [|done|done]. rewrite cons_middle, app_assoc in H. by apply Forall_app in H as [H _].
Qed.
Print Assumptions C70_called.
Example C70_example :
  let rounds := [Reserved [((7, 0), Output "a", Sent)]; ReserveFails; Reserved [((7, 1), Raises Ordinary "ValueError: x", Sent)];
                 Reserved [((7, 2), Output "b", RustError)]; Reserved [((7, 3), Raises BaseOnly "KeyboardInterrupt", Sent)]; Reserved [((7, 4), Output "c", Sent)]] in
  Forall one_chunk rounds /\
  run_per_chunk rounds =
    [Calls (7, 0) (Output "a"); Reports (7, 0) (Complete "a");
     Calls (7, 1) (Raises Ordinary "ValueError: x"); Reports (7, 1) (Fail "ValueError: x");
     Calls (7, 2) (Output "b"); Reports (7, 2) (Complete "b");
     Calls (7, 3) (Raises BaseOnly "KeyboardInterrupt"); Reports (7, 3) (Fail "KeyboardInterrupt"); LoopEnds].
Proof. split; [by repeat constructor|by vm_compute]. Qed.

(** ** C71 *)
(** An interrupt that comes while the client waits for chunks or for an answer ends the loop, and
    so does one that is raised in the function, if the failure of the chunk can be reported;
    nothing else ends it but a SystemError. *)
Theorem C71_ends_partial : forall rounds, Forall one_chunk rounds ->
  (LoopEnds ∈ run_per_chunk rounds <->
   ReserveInterrupted ∈ rounds \/
   exists c r s, Reserved [(c, r, s)] ∈ rounds /\
     (s = Interrupted \/ s = Sent /\ exists text, r = Raises BaseOnly text \/ r = Raises SystemError text)).
Proof.
  intros rs H.
  assert (G : forall r, one_chunk r -> (ends_loop r <-> r = ReserveInterrupted \/ exists c x s, r = Reserved [(c, x, s)] /\
     (s = Interrupted \/ s = Sent /\ exists text, x = Raises BaseOnly text \/ x = Raises SystemError text))).
  { intros [| |[|[[c x] s] [|? ?]]]; simpl; try done; intros _.
    - naive_solver.
    - naive_solver.
    - rewrite Exists_cons, Exists_nil. split.
      + intros [E|[]]. right. exists c, x, s. split; [done|]. destruct x as [?|[| |] text], s; simpl in E; naive_solver.
      + intros [?|(c' & x' & s' & [= <- <- <-] & [->|[-> [text [->| ->]]]])]; [done|left..]; [destruct x as [?|[| |] ?]; done|done|done]. }
  destruct (C70_called rs H) as [C1 C2].
  destruct (first_end rs) as [N|(rs1 & r & rs2 & E & N & Hr)].
  - split; [intros L; exfalso; by apply (C1 N)|]. intros [L|(c & r & s & L & Hs)]; exfalso.
    + apply (N _ L). exact I.
    + apply (N _ L), G; [done|]. right. by exists c, r, s.
  - split; intros _.
    + assert (Hin : r ∈ rs) by (rewrite E; apply elem_of_app; right; by left).
      apply G in Hr; [|by eapply Forall_forall in H]. destruct Hr as [->|(c & x & s & -> & Hs)]; [by left|right]. by exists c, x, s.
    + destruct (C2 _ _ _ E N Hr) as (es & -> & _). apply elem_of_app. right. by left.
Qed.
Print Assumptions C71_ends_partial.
(** But an interrupt that is raised in the function does not end the loop if the connection is lost
    at that moment: the loop goes on with the next chunk. *)
Theorem C71_interrupt_refuted : exists rounds c, Forall one_chunk rounds /\
  Calls c (Raises BaseOnly "KeyboardInterrupt") ∈ run_per_chunk rounds /\
  LoopEnds ∉ run_per_chunk rounds /\ exists i c' r, run_per_chunk rounds !! i = Some (Calls c' r) /\ (1 < i)%nat.
Proof.
  exists [Reserved [((7, 0), Raises BaseOnly "KeyboardInterrupt", RustError)]; Reserved [((7, 0), Output "a", Sent)]], (7, 0).
  split_and!.
  - by repeat constructor.
  - by left.
  - vm_compute. intros H. repeat (apply elem_of_cons in H as [H|H]; [discriminate|]). by apply elem_of_nil in H.
  - exists 2%nat, (7, 0), (Output "a"). split; [by vm_compute|lia].
Qed.
Print Assumptions C71_interrupt_refuted.
Example C71_example : Forall one_chunk [Reserved [((7, 3), Raises BaseOnly "KeyboardInterrupt", Sent)]] /\
  LoopEnds ∈ run_per_chunk [Reserved [((7, 3), Raises BaseOnly "KeyboardInterrupt", Sent)]].
Proof. split; [by repeat constructor|vm_compute; by repeat constructor]. Qed.

(** ** C72 *)
(** "Processed N chunks" is never logged, however many chunks are processed. *)
Theorem C72_progress_refuted :
  (forall rounds n, Forall one_chunk rounds -> LogsProgress n ∉ run_per_chunk rounds) /\
  (forall count, exists rounds, Forall one_chunk rounds /\ length (omap call_of (run_per_chunk rounds)) = count /\ LoopEnds ∉ run_per_chunk rounds).
Proof.
  split; [intros rounds n; apply no_progress|]. intros count. exists (replicate count (Reserved [((7, 0), Output "a", Sent)])).
  assert (H : Forall one_chunk (replicate count (Reserved [((7, 0), Output "a", Sent)]))) by (by apply Forall_replicate). split; [done|].
  destruct (C70_called _ H) as [[-> ?] _].
  - intros r [-> _]%elem_of_replicate. simpl. rewrite Exists_cons, Exists_nil. naive_solver.
  - split; [|done]. clear. induction count; [done|]. simpl. by f_equal.
Qed.
Print Assumptions C72_progress_refuted.

(** ** C73 *)
(** The first attempt that learns its port tells it, in two bytes, the higher first, and closes
    the pipe, whatever comes later; if the write fails the pipe is closed as well. *)
Theorem C73_port_partial : forall before port w s later, Forall fails_silently before -> (length before <= 10)%nat -> port < 65536 ->
  let p := (serve (before ++ Binds (Some port) w s :: later)).1 in
  p_open p = false /\
  (w = Written -> exists hi lo, p_bytes p = [hi; lo] /\ hi < 256 /\ lo < 256 /\ 256 * hi + lo = port) /\
  (forall n, w = WriteFails n -> (length (p_bytes p) <= n)%nat).
Proof.
  intros before port w s later H L P. unfold serve. destruct (boot_port 10 before port w s later [] H L) as [E1 E2]. simpl in *. rewrite E1, E2.
  split; [done|]. split.
  - intros ->. exists (port / 256), (port mod 256). split_and!; [done|apply N.div_lt_upper_bound; lia|by apply N.mod_lt|].
    exact (eq_sym (N.div_mod port 256 ltac:(done))).
  - intros n ->. rewrite take_length. lia.
Qed.
Print Assumptions C73_port_partial.
(** The server gives up when the first attempt and the ten retries have failed, and only then; the pipe is closed then. *)
Theorem C73_gives_up : forall l,
  ((serve l).2 = GaveUp <-> (10 < length l)%nat /\ Forall fails (take 11 l)) /\ ((serve l).2 = GaveUp -> p_open (serve l).1 = false).
Proof. intros l. apply boot_gave_up. Qed.
Print Assumptions C73_gives_up.
(** If no attempt learns its port, nothing is written. *)
Theorem C73_nothing_partial : forall l, Forall (fun a => match a with Binds (Some _) _ _ => False | _ => True end) l -> p_bytes (serve l).1 = [].
Proof. intros l H. exact (proj1 (boot_silent 10 (Pipe true []) l H)). Qed.
Print Assumptions C73_nothing_partial.
(** But then the pipe stays open for as long as the server serves: who reads it waits for ever. *)
Theorem C73_open_refuted : exists l, (serve l).2 = Serving /\ p_open (serve l).1 = true.
Proof. by exists [BindFails; Binds None Written StillServing]. Qed.
Print Assumptions C73_open_refuted.
(** And a server that binds again after an error may be on another port than the one it told. *)
Theorem C73_stale_refuted : exists l port port' w, port' <> port /\
  last l = Some (Binds (Some port') w StillServing) /\ (serve l).2 = Serving /\ p_bytes (serve l).1 = to_be_bytes port.
Proof. exists [Binds (Some 40001) Written ServeFails; Binds (Some 40002) Written StillServing], 40001, 40002, Written. by vm_compute. Qed.
Print Assumptions C73_stale_refuted.
Example C73_example :
  serve [BindFails; BindFails; Binds (Some 40001) Written StillServing] = (Pipe false [156; 65], Serving) /\
  serve (replicate 11 BindFails) = (Pipe false [], GaveUp) /\ serve (replicate 10 BindFails) = (Pipe true [], Trying).
Proof. by vm_compute. Qed.

(** ** C74 *)
(** Until the shutdown /ping answers 200 exactly if the last check that has ended was good, and
    before the first has ended it answers 503. *)
Theorem C74_ping : forall checks cancel t, (forall c, cancel = Some c -> t < c) ->
  (ping checks cancel t = OkPong <-> exists x, last_ended (timeline 0 checks) t x /\ x.2 = true).
Proof.
  intros checks cancel t H. unfold ping.
  assert (flag_at 0 false checks cancel t = flag_at 0 false checks None t) as ->.
  { destruct cancel as [c|]; [|done]. apply flag_before. by apply H. }
  pose proof (flag_spec 0 false checks t) as S. destruct (flag_at 0 false checks None t).
  - split; [intros _|done]. by destruct (proj1 S eq_refl) as [[? _]|?].
  - split; [done|]. intros E. by assert (false = true) by (apply S; by right).
Qed.
Print Assumptions C74_ping.
(** If no check takes longer than D, the check that counts ended less than 10 s + D ago, and so
    started less than 10 s + 2 D ago. *)
Theorem C74_recent : forall D takes ok checks t, takes <= D -> Forall (fun x => x.1 <= D) checks -> takes <= t ->
  (exists y, y ∈ timeline 0 ((takes, ok) :: checks) /\ t < y.1.2) ->
  exists x, last_ended (timeline 0 ((takes, ok) :: checks)) t x /\ t < x.1.2 + 10000 + D /\ t < x.1.1 + 10000 + 2 * D.
Proof.
  intros D d ok checks t Hd H L E. destruct (last_recent D 0 d ok checks t Hd H ltac:(lia) E) as (x & Hx & H1 & H2).
  exists x. unfold ends_at, pause_ms in *. split_and!; [done|done|lia].
Qed.
Print Assumptions C74_recent.
(** Once the server has been told to shut down, and the check that was going on then has ended, /ping answers 503. *)
Theorem C74_shutdown : forall checks c t tl1 start ended ok tl2, timeline 0 checks = tl1 ++ (start, ended, ok) :: tl2 ->
  (forall y, y ∈ tl1 -> y.1.2 + 10000 <= c) -> c < ended + 10000 -> c <= t -> ended <= t ->
  ping checks (Some c) t = Unavailable.
Proof. intros checks c t tl1 s e ok tl2 E H L Ht Le. unfold ping. by rewrite (flag_shut 0 false checks c t tl1 s e ok tl2 E H L Ht Le). Qed.
Print Assumptions C74_shutdown.
Example C74_example :
  let checks := [(5, true); (30000, false); (5, true); (5, true)] in
  timeline 0 checks = [(0, 5, true); (10005, 40005, false); (50005, 50010, true); (60010, 60015, true)] /\
  (ping checks None <$> [0; 5; 40004; 40005; 50010]) = [Unavailable; OkPong; OkPong; Unavailable; OkPong] /\
  ping checks (Some 50500) 50499 = OkPong /\ ping checks (Some 50500) 50500 = Unavailable.
Proof. by vm_compute. Qed.
