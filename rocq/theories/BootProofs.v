(** Proofs about the start of the server and its health. *)
From Verif Require Export Boot.
Local Open Scope N_scope.

(** An attempt that fails without giving a port. *)
Definition fails_silently (a : attempt) : Prop := match a with BindFails | Binds None _ ServeFails => True | _ => False end.
Definition fails (a : attempt) : Prop := match a with BindFails | Binds _ _ ServeFails => True | _ => False end.
Lemma boot_closed n p l : p_open p = false -> p_bytes (boot n p l).1 = p_bytes p /\ p_open (boot n p l).1 = false.
Proof.
  revert n p. induction l as [|a l IH]; intros n p H; [by simpl|]. simpl.
  assert (F : forall q, p_open q = false -> p_bytes q = p_bytes p ->
    p_bytes (match n with O => (Pipe false (p_bytes q), GaveUp) | S n => boot n q l end).1 = p_bytes p /\
    p_open (match n with O => (Pipe false (p_bytes q), GaveUp) | S n => boot n q l end).1 = false).
  { intros q Hq E. destruct n; [by simpl|]. rewrite <- E. by apply IH. }
  destruct a as [|[port|] w s]; [by apply F| |destruct s; try done; by apply F].
  assert (report_port p port w = p) as -> by (unfold report_port; by rewrite H). destruct s; try done; by apply F.
Qed.
Lemma boot_port n l1 port w s l2 b : Forall fails_silently l1 -> (length l1 <= n)%nat ->
  p_open (boot n (Pipe true b) (l1 ++ Binds (Some port) w s :: l2)).1 = false /\
  p_bytes (boot n (Pipe true b) (l1 ++ Binds (Some port) w s :: l2)).1 =
    b ++ match w with Written => to_be_bytes port | WriteFails k => take k (to_be_bytes port) end.
Proof.
  intros H. revert n. induction H as [|a l1 Ha H IH]; intros n L; simpl in L.
  - simpl. destruct s; simpl; try done. destruct n; [done|].
    match goal with |- context [boot n ?q l2] => destruct (boot_closed n q l2 eq_refl) as [-> ->] end. done.
  - destruct n as [|n]; [lia|]. simpl. destruct a as [|[?|] ? [| |]]; try done; apply IH; lia.
Qed.
Lemma boot_silent n p l : Forall (fun a => match a with Binds (Some _) _ _ => False | _ => True end) l ->
  p_bytes (boot n p l).1 = p_bytes p /\ ((boot n p l).2 <> GaveUp -> p_open (boot n p l).1 = p_open p).
Proof.
  intros H. revert n p. induction H as [|a l Ha H IH]; intros n p; [done|]. simpl.
  assert (F : p_bytes (match n with O => (Pipe false (p_bytes p), GaveUp) | S n => boot n p l end).1 = p_bytes p /\
    ((match n with O => (Pipe false (p_bytes p), GaveUp) | S n => boot n p l end).2 <> GaveUp ->
     p_open (match n with O => (Pipe false (p_bytes p), GaveUp) | S n => boot n p l end).1 = p_open p)).
  { destruct n; [done|apply IH]. }
  destruct a as [|[?|] ? [| |]]; done.
Qed.
Lemma boot_gave_up n p l : ((boot n p l).2 = GaveUp <-> (n < length l)%nat /\ Forall fails (take (S n) l)) /\
  ((boot n p l).2 = GaveUp -> p_open (boot n p l).1 = false).
Proof.
  revert n p. induction l as [|a l IH]; intros n p; [split; [split; [done|intros [? _]; simpl in *; lia]|done]|]. simpl.
  assert (F : forall q,
    ((match n with O => (Pipe false (p_bytes q), GaveUp) | S n => boot n q l end).2 = GaveUp <-> (n < S (length l))%nat /\ Forall fails (take n l)) /\
    ((match n with O => (Pipe false (p_bytes q), GaveUp) | S n => boot n q l end).2 = GaveUp ->
     p_open (match n with O => (Pipe false (p_bytes q), GaveUp) | S n => boot n q l end).1 = false)).
  { intros q. destruct n as [|n]; [split; [split; [intros _; split; [lia|apply Forall_nil; exact I]|done]|done]|]. destruct (IH n q) as [I1 I2]. split; [|done].
    rewrite I1. split; intros [? ?]; (split; [lia|done]). }
  rewrite Forall_cons. destruct a as [|addr w s]; [destruct (F p) as [-> ?]; split; [|done]; unfold fails at 2; tauto|].
  destruct s.
  - match goal with |- context [boot _ ?q l] => destruct (F q) as [-> ?] end. split; [|done]. unfold fails at 2. tauto.
  - split; [|done]. split; [done|]. by intros (_ & [] & _).
  - split; [|done]. split; [done|]. by intros (_ & [] & _).
Qed.

(** *** Health *)
(** The checks with their times: start, end, result. *)
Fixpoint timeline (start : N) (checks : list (N * bool)) : list (N * N * bool) :=
  match checks with
  | [] => []
  | (takes, ok) :: checks => (start, start + takes, ok) :: timeline (start + takes + pause_ms) checks
  end.
Definition ends_at (x : N * N * bool) : N := x.1.2.
(** The last check that has ended by [t]. *)
Definition last_ended (tl : list (N * N * bool)) (t : N) (x : N * N * bool) : Prop :=
  exists tl1 tl2, tl = tl1 ++ x :: tl2 /\ ends_at x <= t /\ forall y, y ∈ tl2 -> t < ends_at y.
Lemma timeline_after start checks y : y ∈ timeline start checks -> start <= ends_at y.
Proof.
  revert start. induction checks as [|[d ok] checks IH]; intros start; simpl; [by intros ?%elem_of_nil|].
  intros [->|H]%elem_of_cons; [unfold ends_at; simpl; lia|]. apply IH in H. lia.
Qed.
Lemma flag_spec start flag checks t :
  flag_at start flag checks None t = true <->
  (flag = true /\ (forall y, y ∈ timeline start checks -> t < ends_at y)) \/ exists x, last_ended (timeline start checks) t x /\ x.2 = true.
Proof.
  revert start flag. induction checks as [|[d ok] checks IH]; intros start flag; simpl.
  { split; [intros ->; left; split; [done|set_solver]|]. intros [[? _]|(x & (tl1 & tl2 & E & _) & _)]; [done|]. by destruct tl1. }
  destruct (N.ltb_spec t (start + d)) as [L|L].
  - split.
    + intros ->. left. split; [done|]. intros y [->|H]%elem_of_cons; [done|]. apply timeline_after in H. lia.
    + intros [[? _]|(x & (tl1 & tl2 & E & Hx & _) & _)]; [done|]. exfalso.
      assert (H : x ∈ (start, start + d, ok) :: timeline (start + d + pause_ms) checks) by (rewrite E; apply elem_of_app; right; by left).
      apply elem_of_cons in H as [->|H]; [unfold ends_at in Hx; simpl in Hx; lia|]. apply timeline_after in H. lia.
  - rewrite IH. split.
    + intros [[-> H]|(x & (tl1 & tl2 & E & Hx & Hy) & Hok)].
      * right. exists (start, start + d, true). split; [|done]. exists [], (timeline (start + d + pause_ms) checks). split_and!; [done|done|done].
      * right. exists x. split; [|done]. exists ((start, start + d, ok) :: tl1), tl2. rewrite E. done.
    + intros [[_ H]|(x & (tl1 & tl2 & E & Hx & Hy) & Hok)].
      * exfalso. specialize (H (start, start + d, ok) ltac:(by left)). unfold ends_at in H. simpl in H. lia.
      * destruct tl1 as [|x' tl1]; simpl in E; injection E as <- E.
        -- left. rewrite E. done.
        -- right. exists x. split; [|done]. by exists tl1, tl2.
Qed.
(** With a bound on how long checks take, the last one that ended is not old. *)
Lemma last_recent D start d ok checks t : d <= D -> Forall (fun x => x.1 <= D) checks -> start + d <= t ->
  (exists y, y ∈ timeline start ((d, ok) :: checks) /\ t < ends_at y) ->
  exists x, last_ended (timeline start ((d, ok) :: checks)) t x /\ t < ends_at x + pause_ms + D /\ ends_at x <= x.1.1 + D.
Proof.
  intros Hd H. revert start d ok Hd. induction H as [|[d2 ok2] checks Hd2 H IH]; intros start d ok Hd L (y & Hy & Ly).
  - simpl in Hy. apply elem_of_list_singleton in Hy as ->. unfold ends_at in Ly. simpl in Ly. lia.
  - simpl in Hd2. destruct (decide (start + d + pause_ms + d2 <= t)) as [G|G].
    + destruct (IH (start + d + pause_ms) d2 ok2 Hd2 G) as (x & (tl1 & tl2 & E & E2) & Hx).
      { cbn [timeline] in Hy. apply elem_of_cons in Hy as [->|Hy]; [unfold ends_at in Ly; simpl in Ly; lia|]. exists y. done. }
      exists x. split; [|done]. exists ((start, start + d, ok) :: tl1), tl2.
      change (timeline start ((d, ok) :: (d2, ok2) :: checks)) with ((start, start + d, ok) :: timeline (start + d + pause_ms) ((d2, ok2) :: checks)).
      by rewrite E.
    + exists (start, start + d, ok). split; [|unfold ends_at; simpl; lia].
      exists [], (timeline (start + d + pause_ms) ((d2, ok2) :: checks)). split_and!; [done|done|].
      intros z Hz. cbn [timeline] in Hz. apply elem_of_cons in Hz as [->|Hz]; [unfold ends_at; simpl; lia|]. apply timeline_after in Hz. unfold pause_ms in *. lia.
Qed.
(** After the shutdown. *)
Lemma flag_shut start flag checks c t tl1 s e ok tl2 : timeline start checks = tl1 ++ (s, e, ok) :: tl2 ->
  (forall y, y ∈ tl1 -> ends_at y + pause_ms <= c) -> c < e + pause_ms -> c <= t -> e <= t ->
  flag_at start flag checks (Some c) t = false.
Proof.
  revert start flag tl1. induction checks as [|[d k] checks IH]; intros start flag tl1 E H L Ht Le; [by destruct tl1|]. simpl in *.
  destruct tl1 as [|y tl1]; simpl in E.
  - injection E as <- <- <- E2. destruct (N.ltb_spec t (start + d)); [lia|]. destruct (N.ltb_spec c (start + d + pause_ms)); [|lia].
    destruct (N.ltb_spec t (N.max c (start + d))); [lia|done].
  - injection E as <- E2. assert (Hy := H _ ltac:(by left)). unfold ends_at in Hy. simpl in Hy.
    destruct (N.ltb_spec t (start + d)); [lia|]. destruct (N.ltb_spec c (start + d + pause_ms)); [lia|].
    apply (IH _ _ tl1); try done. intros y Hy'. apply H. by right.
Qed.
Lemma flag_before start flag checks c t : t < c -> flag_at start flag checks (Some c) t = flag_at start flag checks None t.
Proof.
  revert start flag. induction checks as [|[d ok] checks IH]; intros start flag L; simpl; [done|].
  destruct (N.ltb_spec t (start + d)); [done|]. destruct (N.ltb_spec c (start + d + pause_ms)); [|by apply IH].
  destruct (N.ltb_spec t (N.max c (start + d))); [|lia]. symmetry. destruct checks as [|[d2 ok2] checks]; [done|]. simpl.
  destruct (N.ltb_spec t (start + d + pause_ms + d2)); [done|lia].
Qed.
