(** C83, C84: the life of the server's process and the command line. Vocabulary: App.v. *)
From stdpp Require Import pretty.
From Verif Require Import SpacingProofs PropServer App.
Local Open Scope N_scope.

(** ** C83 *)
(** The options do not make a task of the process panic. *)
Definition sound (o : options) (now : time) : Prop := reserver_panics o = false /\ cleanup_panics o now = false.
Lemma main_sound o now t fails sigint : sound o now -> t <= 10000 -> (forall s, sigint = Some s -> t <= s) ->
  async_main o now (OpenAt t) fails sigint =
  match gives_up_at t retry_policy fails, sigint with
  | Some e, Some s => Exits 0 (N.min e s + 500) | Some e, None => Exits 0 (e + 500) | None, Some s => Exits 0 (s + 500) | None, None => StillRuns
  end.
Proof.
  intros [H1 H2] Ht Hs. unfold async_main, open_timeout. destruct (N.ltb_spec 10000 t); [lia|]. rewrite H1, H2. cbn [orb].
  unfold unless_killed. destruct sigint as [s|]; [|done]. destruct (N.ltb_spec s t); [|done]. specialize (Hs s eq_refl). lia.
Qed.
(** When the server has started, Ctrl-C ends the process within half a second. *)
Theorem C83_ctrl_c : forall o now t fails s, sound o now -> t <= 10000 -> t <= s ->
  exists e, async_main o now (OpenAt t) fails (Some s) = Exits 0 e /\ e <= s + 500.
Proof.
  intros o now t fails s Ho Ht Hs. rewrite (main_sound o now t fails (Some s) Ho Ht) by (by intros ? [= <-]).
  destruct (gives_up_at t retry_policy fails) as [e|]; eexists; (split; [done|]); lia.
Qed.
Print Assumptions C83_ctrl_c.
Lemma gives_up_none start ps fails : (length fails <= length ps)%nat -> gives_up_at start ps fails = None.
Proof. revert start ps. induction fails as [|[a b] fails IH]; intros start [|p ps] L; cbn in *; try done; [lia|]. apply IH. lia. Qed.
Lemma gives_up_some start ps fails : (length ps < length fails)%nat -> exists e, gives_up_at start ps fails = Some e /\ start <= e.
Proof.
  revert start ps. induction fails as [|[a b] fails IH]; intros start ps L; [cbn in L; lia|]. cbn. destruct ps as [|p ps]; [eexists; split; [done|lia]|].
  destruct (IH (start + a + p + b) ps) as (e & E & ?); [cbn in L; lia|]. exists e. split; [exact E|lia].
Qed.
(** Without it the process goes on as long as one of the first eleven attempts to listen succeeds. *)
Theorem C83_goes_on : forall o now t fails, sound o now -> t <= 10000 -> (length fails <= 10)%nat ->
  async_main o now (OpenAt t) fails None = StillRuns.
Proof. intros o now t fails Ho Ht L. rewrite (main_sound o now t fails None Ho Ht) by done. rewrite gives_up_none; [done|exact L]. Qed.
Print Assumptions C83_goes_on.
Lemma gives_up_bound D J start ps fails e : Forall (fun x => x.1 <= D /\ x.2 <= J) fails -> gives_up_at start ps fails = Some e ->
  e <= start + N.of_nat (S (length ps)) * D + N.of_nat (length ps) * J + foldr N.add 0 ps.
Proof.
  revert start ps. induction fails as [|[a b] fails IH]; intros start ps F G; [done|]. apply Forall_cons in F as [[F1 F2] F]. cbn in F1, F2, G.
  destruct ps as [|p ps]; [injection G as <-; cbn [foldr length]; lia|]. specialize (IH _ _ F G). cbn [foldr length]. rewrite !Nat2N.inj_succ in *. lia.
Qed.
(** If none does, the process ends: if an attempt takes at most D and the random part of a pause is
    at most J, it ends within 11 D + 10 J + 1930 ms from when the database was open. *)
Theorem C83_cannot_listen : forall o now t fails D J, sound o now -> t <= 10000 -> (10 < length fails)%nat -> Forall (fun x => x.1 <= D /\ x.2 <= J) fails ->
  exists status e, async_main o now (OpenAt t) fails None = Exits status e /\ e <= t + 11 * D + 10 * J + 1930.
Proof.
  intros o now t fails D J Ho Ht L F. rewrite (main_sound o now t fails None Ho Ht) by done.
  destruct (gives_up_some t retry_policy fails L) as (e & E & _). rewrite E. exists 0, (e + 500). split; [done|].
  pose proof (gives_up_bound D J _ _ _ _ F E) as B. change (length retry_policy) with 10%nat in B. change (foldr N.add 0 retry_policy) with 1430 in B. lia.
Qed.
Print Assumptions C83_cannot_listen.
(** A database that is not open after ten seconds, or that cannot be opened, ends the process by then, with status 101. *)
Theorem C83_no_database : forall o now db fails, (forall t, db = OpenAt t -> 10000 < t) ->
  exists e, async_main o now db fails None = Exits 101 e /\ e <= 10000.
Proof.
  intros o now [t|t|] fails H; cbn; unfold open_timeout.
  - specialize (H t eq_refl). destruct (N.ltb_spec 10000 t); [|lia]. by exists 10000.
  - exists (N.min t 10000). split; [done|lia].
  - by exists 10000.
Qed.
Print Assumptions C83_no_database.
(** Once the database is open, and with sound options, the status is zero, whatever ends the process.
    Full statement: the status is zero exactly if the process was asked to end. It fails: below. *)
Theorem C83_status_partial : forall o now t fails sigint status e, sound o now -> t <= 10000 -> async_main o now (OpenAt t) fails sigint = Exits status e ->
  status = 0 /\ (sigint <> None \/ (10 < length fails)%nat).
Proof.
  intros o now t fails sigint status e Ho Ht E. assert ((exists s, sigint = Some s /\ s < t) \/ (forall s, sigint = Some s -> t <= s)) as [(s & -> & Hs)|Hn].
  { destruct sigint as [s|]; [|by right]. destruct (N.lt_ge_cases s t); [left; by exists s|right; by intros ? [= <-]]. }
  { exfalso. unfold async_main, open_timeout in E. destruct (N.ltb_spec 10000 t); [lia|]. destruct Ho as [H1 H2]. rewrite H1, H2 in E. unfold unless_killed in E.
    by destruct (N.ltb_spec s t); [|lia]. }
  rewrite main_sound in E; [|done|done|exact Hn].
  destruct (decide (length fails <= 10)%nat) as [L|L].
  - rewrite gives_up_none in E by exact L. destruct sigint; [|done]. injection E as <- <-. split; [done|by left].
  - split; [|right; lia]. destruct (gives_up_at t retry_policy fails), sigint; first [done|by injection E as <- <-].
Qed.
Print Assumptions C83_status_partial.
(** A server that never managed to listen, because its port is taken, ends with status zero: who
    started it takes that for success. *)
Theorem C83_status_refuted : exists o now t fails e, sound o now /\ t <= 10000 /\
  (serve (replicate (length fails) BindFails)).2 = GaveUp /\ async_main o now (OpenAt t) fails None = Exits 0 e.
Proof. exists default_options, 1700000000000%Z, 50, (replicate 11 (1, 5)), 2041. by vm_compute. Qed.
Print Assumptions C83_status_refuted.
Example C83_example :
  sound default_options 1700000000000%Z /\ retry_policy = [10; 10; 20; 30; 50; 80; 130; 210; 340; 550] /\
  async_main default_options 1700000000000%Z (OpenAt 50) [(1, 5); (1, 7)] (Some 90000) = Exits 0 90500 /\
  async_main default_options 1700000000000%Z (OpenAt 50) [(1, 5); (1, 7)] None = StillRuns /\
  async_main default_options 1700000000000%Z (OpenAt 50) [] (Some 49) = KilledBySigint 49.
Proof. by vm_compute. Qed.

(** ** C84 *)
Lemma digit_char d : d < 10 -> digit (pretty_N_char d) = Some d.
Proof. intros H. by assert (d = 0 \/ d = 1 \/ d = 2 \/ d = 3 \/ d = 4 \/ d = 5 \/ d = 6 \/ d = 7 \/ d = 8 \/ d = 9) as [->|[->|[->|[->|[->|[->|[->|[->|[->| ->]]]]]]]]] by lia. Qed.
Lemma digits_value x s : digits_from 0 (pretty_N_go x s) = digits_from x s.
Proof.
  revert s. induction (N.lt_wf_0 x) as [x _ IH]; intros s. destruct (decide (x = 0)) as [->|Hx]; [by rewrite !pretty_N_go_0|].
  rewrite (pretty_N_go_step x) by lia. rewrite (IH (x / 10) ltac:(apply N.div_lt; lia)). cbn -[N.mul N.div N.modulo]. rewrite digit_char by (apply N.mod_lt; lia).
  f_equal. symmetry. apply N.div_mod. lia.
Qed.
Lemma digits_pretty (n : N) : digits (pretty n) = Some n.
Proof.
  unfold pretty, pretty_N. case_decide as H; [by subst|]. pose proof (digits_value n "") as V. change (digits_from n "") with (Some n) in V. unfold digits.
  destruct (pretty_N_go n "") eqn:E; [|exact V]. cbn in V. injection V as <-. done.
Qed.
Lemma pretty_head (n : N) : exists d s, pretty n = String (pretty_N_char d) s /\ d < 10.
Proof.
  unfold pretty, pretty_N. case_decide as H; [by exists 0, ""|]. generalize "". revert H.
  induction (N.lt_wf_0 n) as [n _ IH]; intros Hx s. rewrite pretty_N_go_step by lia. destruct (decide (n / 10 = 0)) as [E|E].
  - rewrite E, pretty_N_go_0. exists (n mod 10), s. split; [done|apply N.mod_lt; lia].
  - apply IH; [apply N.div_lt; lia|done].
Qed.
Lemma parse_pretty (z : Z) : parse_i32 (pretty z) = if (- 2 ^ 31 <=? z)%Z && (z <? 2 ^ 31)%Z then Some z else None.
Proof.
  assert (Hn : forall n : N, parse_i32 (pretty n) = if (- 2 ^ 31 <=? Z.of_N n)%Z && (Z.of_N n <? 2 ^ 31)%Z then Some (Z.of_N n) else None).
  { intros n. destruct (pretty_head n) as (d & s & E & Hd). pose proof (digits_pretty n) as V. rewrite E in *. 
    assert (d = 0 \/ d = 1 \/ d = 2 \/ d = 3 \/ d = 4 \/ d = 5 \/ d = 6 \/ d = 7 \/ d = 8 \/ d = 9) as [->|[->|[->|[->|[->|[->|[->|[->|[->| ->]]]]]]]]] by lia;
    match goal with |- parse_i32 ?x = _ => change (parse_i32 x) with (n ← digits x; if (- 2 ^ 31 <=? Z.of_N n)%Z && (Z.of_N n <? 2 ^ 31)%Z then Some (Z.of_N n) else None) end;
    rewrite V; done. }
  destruct z as [|p|p]; [done|exact (Hn (Npos p))|].
  change (parse_i32 (pretty (Zneg p))) with (n ← digits (pretty (Npos p)); if (- 2 ^ 31 <=? - Z.of_N n)%Z && (- Z.of_N n <? 2 ^ 31)%Z then Some (- Z.of_N n)%Z else None).
  by rewrite digits_pretty.
Qed.
(** The file descriptor is read as a decimal number: -1 stands for no pipe, other negative numbers are refused. *)
Theorem C84_pipe : forall z : Z, parse_report_bound_port_fd (pretty z) =
  if decide (z = -1)%Z then Some NoPipe else if decide (0 <= z < 2 ^ 31)%Z then Some (PipeTo (Z.to_N z)) else None.
Proof.
  intros z. unfold parse_report_bound_port_fd. rewrite parse_pretty. repeat case_decide; subst; cbn -[Z.pow].
  - done.
  - destruct (Z.leb_spec (- 2 ^ 31) z); [|lia]. destruct (Z.ltb_spec z (2 ^ 31)); [|lia]. cbn -[Z.pow]. destruct (Z.eqb_spec z (-1)); [done|]. by destruct (Z.ltb_spec z 0); [lia|].
  - destruct (Z.leb_spec (- 2 ^ 31) z); [|done]. destruct (Z.ltb_spec z (2 ^ 31)); [|done]. cbn -[Z.pow]. destruct (Z.eqb_spec z (-1)); [done|]. by destruct (Z.ltb_spec z 0); [|lia].
Qed.
Print Assumptions C84_pipe.
(** Options with a positive heartbeat interval, an expiration time of at most 1000 years and an age
    of at most 260000 years make no task panic. Full statement: all options that the command line
    accepts. It fails: below. *)
Theorem C84_options_partial : forall o now t fails sigint, (0 <= now)%Z ->
  0 < heartbeat_interval o -> reservation_expiration o <= 1000 * year -> max_submission_age o <= 260000 * year -> t <= 10000 ->
  connection_panics o = false /\ forall e, async_main o now (OpenAt t) fails sigint <> Exits 101 e.
Proof.
  intros o now t fails sigint Hn Hh Hr Ha Ht. split; [unfold connection_panics; apply N.eqb_neq; lia|]. intros e E.
  assert (sound o now) as Ho.
  { split; [unfold reserver_panics; apply N.ltb_ge; lia|]. unfold cleanup_panics, chrono_min. apply Z.ltb_ge. change (260000 * year) with 8199360000000000 in Ha. lia. }
  by destruct (C83_status_partial _ _ _ _ _ _ _ Ho Ht E).
Qed.
Print Assumptions C84_options_partial.
(** With longer times the process ends as soon as it starts; with a zero heartbeat interval every
    connection of a consumer breaks down at once. *)
Theorem C84_options_refuted :
  (forall o now t fails sigint, 1000 * year < reservation_expiration o -> t <= 10000 -> (forall s, sigint = Some s -> t <= s) ->
     async_main o now (OpenAt t) fails sigint = Exits 101 t) /\
  (forall o now t fails sigint, 300000 * year <= max_submission_age o -> (now <= 253402300800000)%Z -> t <= 10000 -> (forall s, sigint = Some s -> t <= s) ->
     async_main o now (OpenAt t) fails sigint = Exits 101 t) /\
  (forall o, heartbeat_interval o = 0 -> connection_panics o = true).
Proof.
  assert (P : forall o now t fails sigint, reserver_panics o || cleanup_panics o now = true -> t <= 10000 -> (forall s, sigint = Some s -> t <= s) ->
    async_main o now (OpenAt t) fails sigint = Exits 101 t).
  { intros o now t fails sigint H Ht Hs. unfold async_main, open_timeout. destruct (N.ltb_spec 10000 t); [lia|]. rewrite H. unfold unless_killed.
    destruct sigint as [s|]; [|done]. destruct (N.ltb_spec s t); [|done]. specialize (Hs s eq_refl). lia. }
  split; [|split].
  - intros o now t fails sigint H. apply P. apply orb_true_iff. left. by apply N.ltb_lt.
  - intros o now t fails sigint H Hn. apply P. apply orb_true_iff. right. unfold cleanup_panics, chrono_min. apply Z.ltb_lt. change (300000 * year) with 9460800000000000 in H. lia.
  - intros o H. unfold connection_panics. by rewrite H.
Qed.
Print Assumptions C84_options_refuted.
(** With an expiration time of zero, which is accepted, the server gives a chunk to everybody who asks: nothing is ever reserved. *)
Theorem C84_zero_expiration_refuted : exists o h now tr s k, reservation_expiration o = 0 /\ sound o 1700000000000%Z /\ connection_panics o = false /\ fresh_ids h /\
  run_to (Config (reservation_expiration o) (max_chunk_retries o)) reports_held (server_start h now) tr s /\ s_now s = now /\ k ∈ holding tr 1 /\ k ∈ holding tr 2.
Proof.
  exists (Options 0 10000 3 10 3600000), ex_srv, 0.
  destruct (by_play (Config 0 10) (fun tr s l => reports_held_b tr l) reports_held ex_srv 0 (does [LConnect 1; LConnect 2] ++ get_one 1 ++ get_one 2)
    (fun tr s => bool_decide (s_now s = 0 /\ (1, 0) ∈ holding tr 1 /\ (1, 0) ∈ holding tr 2))) as (tr & s & Hr & Hp).
  - intros tr s l. apply reports_held_by.
  - by vm_compute.
  - apply bool_decide_eq_true_1 in Hp as (? & ? & ?). exists tr, s, (1, 0). split_and!; try done. exact ex_srv_fresh.
Qed.
Print Assumptions C84_zero_expiration_refuted.
Example C84_example : parse_report_bound_port_fd <$> ["-1"; "7"; "+7"; "-2"; ""; "2147483648"; "x"] = [Some NoPipe; Some (PipeTo 7); Some (PipeTo 7); None; None; None; None].
Proof. by vm_compute. Qed.
