(** Lemmas for PropHeartbeat.v. *)
From Verif Require Export Heartbeat.
Local Open Scope N_scope.

Section proofs.
Context (t : timing).
Notation p := (tm_period t).
Notation m := (tm_missable t).
Notation D := (tm_late t).
Notation W := (tm_transit t + tm_late t).
Record timely (s : link) : Prop := {
  ti_server : h_now s <= sd_due (h_server s) + D;
  ti_soon : sd_due (h_server s) <= h_now s + p;
  ti_up : forall x d, (x, d) ∈ h_up s -> h_now s <= d /\ d <= h_now s + W;
  ti_down : forall x d, (x, d) ∈ h_down s -> h_now s <= d;
  ti_client : h_now s <= sd_due (h_client s) + D }.
Lemma timely_new now : timely (link_new now).
Proof. split; cbn; try lia; intros x d H; by apply elem_of_nil in H. Qed.
Lemma in_time_spec now s : in_time t now s = true -> now <= sd_due (h_server s) + D /\ now <= sd_due (h_client s) + D /\
  (forall x d, (x, d) ∈ h_up s -> now <= d) /\ (forall x d, (x, d) ∈ h_down s -> now <= d).
Proof.
  unfold in_time. intros H. apply andb_true_iff in H as [H H4]. apply andb_true_iff in H as [H H3]. apply andb_true_iff in H as [H1 H2].
  apply N.leb_le in H1, H2. rewrite forallb_forall in H3, H4. split; [done|]. split; [done|].
  split; intros x d Hin; [specialize (H3 (x, d))|specialize (H4 (x, d))]; [apply N.leb_le, H3|apply N.leb_le, H4]; by apply elem_of_list_In.
Qed.
Lemma timely_step l s s' : timely s -> beat_next t l s = Some s' -> timely s'.
Proof.
  intros [T1 T2 T3 T4 T5] H. destruct s as [now [sd sm] [cd cm] up down e r]. cbn in *. destruct e; [done|].
  assert (Hp : forall (A : Type) (x y : A) (d d' : N) q, (x, d) ∈ q ++ [(y, d')] -> (x, d) ∈ q \/ d = d').
  { intros A x y d d' q Hin. apply elem_of_app in Hin as [?|Hin]; [by left|]. apply elem_of_list_singleton in Hin. right. congruence. }
  destruct l; cbn in H.
  - destruct (sd <=? now) eqn:E1; [|done]. apply N.leb_le in E1. destruct (m <? sm); simplify_eq; split; cbn; try done; try lia.
    intros x d Hin. apply Hp in Hin as [?| ->]; [eauto|unfold handled_by; lia].
  - destruct (cd <=? now) eqn:E1; [|done]. destruct (m <? cm); simplify_eq; (split; cbn; try done; lia).
  - destruct up as [|[x d] up]; [done|]. simplify_eq. split; cbn; try lia.
    + intros y d' Hin. apply (T3 y). by right.
    + intros y d' Hin. destruct x; eauto. apply Hp in Hin as [?| ->]; [eauto|unfold handled_by; lia].
  - destruct down as [|[x d] down]; [done|]. simplify_eq. split; cbn; try lia.
    + intros y d' Hin. destruct x; eauto. apply Hp in Hin as [?| ->]; [eauto|unfold handled_by; lia].
    + intros y d' Hin. apply (T4 y). by right.
  - destruct x; [done| |]; simplify_eq; (split; cbn; try done; try lia); intros y d Hin; (apply Hp in Hin as [?| ->]; [eauto|unfold handled_by; lia]).
  - simplify_eq. split; cbn; try done. intros y d Hin. apply Hp in Hin as [?| ->]; [eauto|unfold handled_by; lia].
  - destruct (in_time _ _ _) eqn:E; [|done]. apply in_time_spec in E as (E1 & E2 & E3 & E4). simplify_eq. cbn in *. split; cbn; try done; try lia.
    intros y d Hin. split; [eauto|]. destruct (T3 _ _ Hin). lia.
Qed.
Lemma timely_run ok s tr s' : timely s -> beat_run t ok s tr s' -> timely s'.
Proof. intros Ht. induction 1; [done|]. by eapply timely_step. Qed.

(** *** The server does not give up *)
(** [base]: when the first tick since the last message was due. *)
Definition server_fine (s : link) : Prop :=
  h_end s <> Some ServerGaveUp /\
  exists base, sd_due (h_server s) = base + sd_missed (h_server s) * p /\
    (sd_missed (h_server s) = 0 \/ (exists d, (Ping, d) ∈ h_down s /\ d + W <= base + D + W + W) \/ (exists x d, (x, d) ∈ h_up s /\ d <= base + D + W + W)).
Lemma server_step l s s' : D + W + W < (m + 1) * p -> timely s -> server_fine s -> beat_next t l s = Some s' -> server_fine s'.
Proof.
  intros Hc Ht [Hend (base & Hdue & Hb)] H. destruct Ht as [T1 T2 T3 T4 T5]. destruct s as [now [sd sm] [cd cm] up down e r]. cbn in *. destruct e; [done|].
  assert (Hin : forall (A : Type) (x : A) (d : N) q y, (x, d) ∈ q -> (x, d) ∈ q ++ [y]) by (intros; apply elem_of_app; by left).
  destruct l; cbn in H.
  - destruct (sd <=? now) eqn:E1; [|done]. apply N.leb_le in E1. destruct (m <? sm) eqn:E2; simplify_eq.
    + exfalso. apply N.ltb_lt in E2. assert ((m + 1) * p <= sm * p) by nia.
      destruct Hb as [Hb|[(d & Hd & Hd')|(x & d & Hd & Hd')]]; [lia| |]; [apply T4 in Hd|apply T3 in Hd]; lia.
    + split; [done|]. exists base. cbn. split; [lia|]. right. destruct Hb as [Hb|[(d & Hd & Hd')|Hb]]; [left|left; eauto|right; done].
      exists (handled_by t now). split; [apply elem_of_app; right; by left|]. unfold handled_by. subst sm. lia.
  - destruct (cd <=? now) eqn:E1; [|done]. destruct (m <? cm); simplify_eq; (split; [done|]); by exists base.
  - destruct up as [|[x d] up]; [done|]. simplify_eq. split; [done|]. exists (now + p). cbn. split; [lia|by left].
  - destruct down as [|[x d] down]; [done|]. simplify_eq. split; [done|]. exists base. cbn. split; [done|]. destruct Hb as [Hb|[(d' & Hd & Hd')|(y & d' & Hd & Hd')]]; [by left| |right; right].
    + right. apply elem_of_cons in Hd as [[= <- <-]|Hd]; [right|left; eauto]. exists Pong, (handled_by t now). split; [apply elem_of_app; right; by left|].
      unfold handled_by. assert (now <= d') by (apply (T4 Ping); by left). lia.
    + exists y, d'. split; [|done]. destruct x; auto.
  - destruct x; [done| |]; simplify_eq; (split; [done|]); exists base; cbn; (split; [done|]); destruct Hb as [Hb|[Hb|(y & d & Hd & Hd')]]; eauto 10.
  - simplify_eq. split; [done|]. exists base. cbn. split; [done|]. destruct Hb as [Hb|[(d & Hd & Hd')|Hb]]; eauto 10.
  - destruct (in_time _ _ _) eqn:E; [|done]. simplify_eq. split; [done|]. by exists base.
Qed.
Lemma server_run ok now tr s : D + W + W < (m + 1) * p -> beat_run t ok (link_new now) tr s -> h_end s <> Some ServerGaveUp.
Proof.
  intros Hc Hr. assert (Hf : server_fine s); [|apply Hf]. remember (link_new now) as s0 eqn:E. induction Hr as [|tr s1 l s2 Hr IH Hok Hst].
  - subst. split; [done|]. exists now. cbn. split; [lia|by left].
  - eapply server_step; [done| |by apply IH|done]. eapply timely_run; [|exact Hr]. subst. apply timely_new.
Qed.

(** *** The client does not give up *)
Definition tick_by (Y : N) (s : link) : Prop :=
  sd_due (h_server s) + D <= Y /\ forall x d, (x, d) ∈ h_up s -> x <> Request -> d + p + D <= Y.
(** [second]: may the client report? *)
Definition client_fine (second : Prop) (X : N) (s : link) : Prop :=
  h_end s <> Some ClientGaveUp /\
  exists base, sd_due (h_client s) = base + sd_missed (h_client s) * p /\
    ((exists x d, (x, d) ∈ h_down s /\ d <= base + X) \/
     (tick_by (base + W + D) s) \/
     (second /\ exists r, h_reported s = Some r /\ r <= base + W + D /\ tick_by (r + W + p + D) s)).
Lemma client_step (second : Prop) gap X (ok : link -> pulse -> Prop) l s s' :
  (forall s, ok s (ClientSends Report) -> second /\ spaced gap s (ClientSends Report)) -> (second -> W + p + D < gap) ->
  W + D + W <= X -> (second -> W + D + W + p + D + W <= X) -> X < (m + 1) * p ->
  timely s -> client_fine second X s -> ok s l -> beat_next t l s = Some s' -> client_fine second X s'.
Proof.
  intros Hok Hgap HX1 HX2 HXm Ht [Hend (base & Hdue & Hb)] Hl H. destruct Ht as [T1 T2 T3 T4 T5]. destruct s as [now [sd sm] [cd cm] up down e r]. cbn in *. destruct e; [done|].
  assert (Hin : forall (A : Type) (x : A) (d : N) q y, (x, d) ∈ q -> (x, d) ∈ q ++ [y]) by (intros; apply elem_of_app; by left).
  assert (Hp : forall (A : Type) (x y : A) (d d' : N) q, (x, d) ∈ q ++ [(y, d')] -> (x, d) ∈ q \/ x = y /\ d = d').
  { intros A x y d d' q Hx. apply elem_of_app in Hx as [?|Hx]; [by left|]. apply elem_of_list_singleton in Hx. right. split; congruence. }
  assert (Hnow : (exists x d, (x, d) ∈ down /\ d <= base + X) \/ now + W <= base + X).
  { destruct Hb as [Hb|[[Hb _]|(Hs & r' & _ & Hr' & [Hb _])]]; [by left|right|right]; cbn in *; [lia|]. specialize (HX2 Hs). lia. }
  destruct l; cbn in H.
  - destruct (sd <=? now) eqn:E1; [|done]. apply N.leb_le in E1. destruct (m <? sm) eqn:E2; simplify_eq.
    { split; [done|]. by exists base. }
    split; [done|]. exists base. cbn. split; [done|]. left. destruct Hnow as [(x & d & Hd & Hd')|Hn]; [eauto|].
    exists Ping, (handled_by t now). split; [apply elem_of_app; right; by left|]. unfold handled_by. lia.
  - destruct (cd <=? now) eqn:E1; [|done]. apply N.leb_le in E1. destruct (m <? cm) eqn:E2; simplify_eq.
    + exfalso. apply N.ltb_lt in E2. assert ((m + 1) * p <= cm * p) by nia. destruct Hnow as [(x & d & Hd & Hd')|Hn]; [apply T4 in Hd|]; lia.
    + split; [done|]. exists base. cbn. split; [lia|done].
  - destruct up as [|[x d] up]; [done|]. simplify_eq. split; [done|]. exists base. cbn. split; [done|].
    assert (Hd : now <= d) by (apply (T3 x); by left).
    destruct x; try (destruct Hnow as [(y & d' & Hy & Hy')|Hn]; left; [eauto|exists Other, (handled_by t now); split; [apply elem_of_app; right; by left|unfold handled_by; lia]]).
    all: destruct Hb as [Hb|[[Hb1 Hb2]|(Hs & r' & Hr & Hr' & [Hb1 Hb2])]]; [by left|right; left|right; right; split; [done|]; exists r'; split; [done|]; split; [done|]].
    all: cbn in *; pose proof (Hb2 _ _ (elem_of_list_here _ _) ltac:(done)).
    all: split; cbn; [lia|]; intros y d' Hy Hy'; apply (Hb2 y); [by right|done].
  - destruct down as [|[x d] down]; [done|]. simplify_eq. split; [done|]. exists (now + p). cbn. split; [lia|]. right. left.
    split; cbn; [lia|]. intros y d' Hy Hy'. assert (d' <= now + W); [|lia].
    destruct x; [|by apply (T3 y)]. apply Hp in Hy as [Hy|[_ ->]]; [by apply (T3 y)|unfold handled_by; lia].
  - destruct x; [done| |]; simplify_eq; (split; [done|]); exists base; cbn; (split; [done|]).
    + destruct (Hok _ Hl) as [Hs Hsp]. specialize (Hgap Hs). cbn in Hsp. destruct Hb as [Hb|[[Hb1 Hb2]|(_ & r' & Hr & Hr' & [Hb1 Hb2])]]; [by left| |].
      * right. right. split; [done|]. exists now. cbn in *. split; [done|]. split; [lia|]. split; cbn; [lia|].
        intros y d Hy Hy'. assert (d <= now + W); [|lia]. apply Hp in Hy as [Hy|[_ ->]]; [by apply (T3 y)|unfold handled_by; lia].
      * cbn in *. subst r. lia.
    + destruct Hb as [Hb|[[Hb1 Hb2]|(Hs & r' & Hr & Hr' & [Hb1 Hb2])]]; [by left|right; left|right; right; split; [done|]; exists r'; split; [done|]; split; [done|]];
        (split; [done|]); cbn in *; intros y d Hy Hy'; (apply Hp in Hy as [Hy|[-> _]]; [by apply (Hb2 y)|done]).
  - simplify_eq. split; [done|]. exists base. cbn. split; [done|]. destruct Hb as [(y & d & Hd & Hd')|Hb]; [left; eauto|by right].
  - destruct (in_time _ _ _) eqn:E; [|done]. simplify_eq. split; [done|]. by exists base.
Qed.
Lemma client_run (second : Prop) gap X (ok : link -> pulse -> Prop) now tr s :
  (forall s, ok s (ClientSends Report) -> second /\ spaced gap s (ClientSends Report)) -> (second -> W + p + D < gap) ->
  W + D + W <= X -> (second -> W + D + W + p + D + W <= X) -> X < (m + 1) * p ->
  beat_run t ok (link_new now) tr s -> h_end s <> Some ClientGaveUp.
Proof.
  intros H1 H2 H3 H4 H5 Hr. assert (Hf : client_fine second X s); [|apply Hf]. remember (link_new now) as s0 eqn:E. induction Hr as [|tr s1 l s2 Hr IH Hok Hst].
  - subst. split; [done|]. exists now. cbn. split; [lia|]. right. left. split; cbn; [lia|]. intros x d Hx. by apply elem_of_nil in Hx.
  - eapply client_step; [exact H1|exact H2|exact H3|exact H4|exact H5| |by apply IH|exact Hok|exact Hst]. eapply timely_run; [|exact Hr]. subst. apply timely_new.
Qed.

(** *** A client that reports often *)
(** The server's next tick is later than the next message to it. *)
Definition reset_first (gap : N) (s : link) : Prop :=
  match h_reported s with
  | Some r => r + gap + W < sd_due (h_server s) \/ (exists d, (Report, d) ∈ h_up s /\ d < sd_due (h_server s))
  | None => h_now s + W < sd_due (h_server s)
  end.
Definition kept_silent (gap now0 : N) (s : link) : Prop :=
  (forall x d, (x, d) ∈ h_down s -> d <= now0 + W + W) /\
  (exists base, sd_due (h_client s) = base + sd_missed (h_client s) * p /\ base <= now0 + W + W + p /\ sd_missed (h_client s) <= m + 1) /\
  (forall r, h_reported s = Some r -> r <= h_now s /\ h_now s <= r + gap) /\
  (h_reported s = None -> h_now s = now0) /\
  ((h_server s = Side now0 0 /\ (h_reported s = None \/ exists d, (Report, d) ∈ h_up s /\ d <= now0 + W)) \/ reset_first gap s) /\
  h_end s <> Some ServerGaveUp /\
  (forall d, (Request, d) ∉ h_up s).
Lemma silent_step gap now0 l s s' : gap + W < p -> timely s -> kept_silent gap now0 s -> only_reports gap s l -> beat_next t l s = Some s' -> kept_silent gap now0 s'.
Proof.
  intros Hg [T1 T2 T3 T4 T5] (K1 & (base & K2 & K2' & K2'') & K3 & K4 & K5 & K6 & K7) (Hbusy & Hl1 & Hl2) H. destruct s as [now sv [cd cm] up down e r]. cbn in *. destruct e; [done|].
  assert (Hin : forall (A : Type) (x : A) (d : N) q y, (x, d) ∈ q -> (x, d) ∈ q ++ [y]) by (intros; apply elem_of_app; by left).
  assert (Hlast : forall (A : Type) (y : A) q, y ∈ q ++ [y]) by (intros; apply elem_of_app; right; by left).
  assert (Hp : forall (A : Type) (x y : A) (d d' : N) q, (x, d) ∈ q ++ [(y, d')] -> (x, d) ∈ q \/ x = y /\ d = d').
  { intros A x y d d' q Hx. apply elem_of_app in Hx as [?|Hx]; [by left|]. apply elem_of_list_singleton in Hx. right. split; congruence. }
  unfold kept_silent, reset_first in *. cbn in *. destruct l; cbn in H.
  - destruct (sd_due sv <=? now) eqn:E1; [|done]. apply N.leb_le in E1.
    assert (Hst : sv = Side now0 0 /\ now <= now0 + W /\ (r = None \/ exists d, (Report, d) ∈ up /\ d <= now0 + W)).
    { destruct K5 as [[-> Hr]|K5].
      - split; [done|]. split; [|done]. destruct Hr as [->|(d & Hd & Hd')]; [rewrite K4 by done; lia|apply T3 in Hd; lia].
      - exfalso. destruct r as [r|]; [|cbn in *; lia]. destruct (K3 r eq_refl). destruct K5 as [K5|(d & Hd & Hd')]; [cbn in *; lia|]. apply T3 in Hd. cbn in *. lia. }
    destruct Hst as (-> & Hn & Hr). cbn in *. destruct (m <? 0) eqn:E2; [apply N.ltb_lt in E2; lia|]. simplify_eq. cbn.
    split; [|split; [by exists base|split; [done|split; [done|split; [|split; done]]]]].
    + intros x d Hx. apply Hp in Hx as [Hx|[_ ->]]; [eauto|unfold handled_by; lia].
    + right. unfold ticked. cbn. destruct r as [r|]; [|rewrite K4 by done; lia]. right. destruct Hr as [?|(d & Hd & Hd')]; [done|]. exists d. split; [done|]. lia.
  - destruct (cd <=? now) eqn:E1; [|done]. destruct (m <? cm) eqn:E2; simplify_eq; cbn.
    + split; [done|]. split; [by exists base|]. done.
    + apply N.ltb_ge in E2. split; [done|]. split; [|done]. exists base. split; [lia|]. split; [done|lia].
  - destruct up as [|[x d] up]; [done|]. simplify_eq. cbn.
    split; [|split; [by exists base|split; [done|split; [done|split; [|split; [done|]]]]]].
    + destruct x; [done|done|]. exfalso. apply (K7 d). by left.
    + right. destruct r as [r|]; [|lia]. left. destruct (K3 r eq_refl). lia.
    + intros d' Hd. apply (K7 d'). by right.
  - destruct down as [|[x d] down]; [done|]. simplify_eq. cbn.
    split; [intros y d' Hy; apply (K1 y); by right|]. split.
    { exists (now + p). split; [lia|]. split; [|lia]. assert (now <= d) by (apply (T4 x); by left). assert (d <= now0 + W + W) by (apply (K1 x); by left). lia. }
    split; [done|]. split; [done|]. split; [|split; [done|]].
    + destruct K5 as [[K5 K5']|K5]; [left|right].
      * split; [done|]. destruct K5' as [?|(d' & Hd & Hd')]; [by left|right]. exists d'. destruct x; auto.
      * destruct r as [r|]; [|done]. destruct K5 as [K5|(d' & Hd & Hd')]; [by left|right]. exists d'. destruct x; auto.
    + intros d' Hd. destruct x; [|by apply (K7 d')]. apply Hp in Hd as [Hd|[? _]]; [by apply (K7 d')|done].
  - destruct x; [done| |done]. simplify_eq. cbn. split; [done|]. split; [by exists base|]. split; [intros ? [= <-]; lia|]. split; [done|]. split; [|split; [done|]].
    + destruct K5 as [[K5 K5']|K5]; [left|right].
      * split; [done|]. right. destruct K5' as [->|(d' & Hd & Hd')]; [|exists d'; auto]. rewrite K4 by done. exists (handled_by t now0). split; [apply Hlast|unfold handled_by; lia].
      * right. destruct r as [r|]; [|exists (handled_by t now); split; [apply Hlast|unfold handled_by; lia]].
        destruct (K3 r eq_refl). destruct K5 as [K5|(d' & Hd & Hd')]; [|exists d'; auto]. exists (handled_by t now). split; [apply Hlast|]. unfold handled_by. lia.
    + intros d' Hd. apply Hp in Hd as [Hd|[? _]]; [by apply (K7 d')|done].
  - done.
  - destruct (in_time _ _ _) eqn:E; [|done]. simplify_eq. cbn. unfold busy in Hbusy. cbn in Hbusy. destruct r as [r|]; [|done].
    split; [done|]. split; [by exists base|]. split; [intros ? [= <-]; destruct (K3 r eq_refl); lia|]. split; [done|]. split; [|split; done].
    destruct K5 as [[K5 [?|K5']]|K5]; [done|left; split; [done|by right]|by right].
Qed.
Lemma silent_run gap now0 tr s : gap + W < p -> beat_run t (only_reports gap) (link_new now0) tr s -> timely s /\ kept_silent gap now0 s.
Proof.
  intros Hg Hr. remember (link_new now0) as s0 eqn:E. induction Hr as [|tr s1 l s2 Hr IH Hok Hst].
  - subst. split; [apply timely_new|]. split_and!; cbn; try done.
    + intros x d Hx. by apply elem_of_nil in Hx.
    + exists now0. split_and!; lia.
    + left. split; [done|]. by left.
    + intros d Hd. by apply elem_of_nil in Hd.
  - destruct IH as [IH1 IH2]. split; [by eapply timely_step|]. by eapply silent_step.
Qed.
Lemma silent_ends gap now0 tr s : gap + W < p -> beat_run t (only_reports gap) (link_new now0) tr s ->
  h_end s <> Some ServerGaveUp /\ h_now s <= now0 + (m + 2) * p + W + W + D.
Proof.
  intros Hg Hr. destruct (silent_run _ _ _ _ Hg Hr) as [[_ _ _ _ Hc] (_ & (base & H1 & H2 & H3) & _ & _ & _ & H4 & _)]. split; [done|].
  assert (sd_missed (h_client s) * p <= (m + 1) * p) by (apply N.mul_le_mono_r; lia). lia.
Qed.
End proofs.

(** ... without any delays. *)
Lemma steady_to p m gap k : 0 < gap -> gap < p -> k < (m + 2) * p ->
  exists tr sm r j, beat_run (Timing p m 0 0) (steady gap) (link_new 0) tr (Link k (Side (r + p) sm) (Side ((j + 1) * p) j) [] [] None (Some r)) /\
    r <= k /\ k < r + gap /\ j * p <= k /\ k < (j + 1) * p.
Proof.
  intros Hg Hp. induction k as [|k IH] using N.peano_ind; intros Hk.
  - exists [ServerTick; ClientReceives; ServerReceives; ClientSends Report; ServerReceives], 0, 0, 0. split; [|lia].
    assert (Hst : forall s l, (match l with ServerTick | ClientReceives | ServerReceives => True | _ => False end) -> steady gap s l).
    { intros s l H. by destruct l. }
    change [ServerTick; ClientReceives; ServerReceives; ClientSends Report; ServerReceives] with ((((([] ++ [ServerTick]) ++ [ClientReceives]) ++ [ServerReceives]) ++ [ClientSends Report]) ++ [ServerReceives]).
    econstructor; [econstructor; [econstructor; [econstructor; [econstructor; [constructor|by apply Hst|]|by apply Hst|]|by apply Hst|]| |]|by apply Hst|].
    + cbn. destruct (m <? 0) eqn:E; [apply N.ltb_lt in E; lia|reflexivity].
    + reflexivity.
    + reflexivity.
    + done.
    + reflexivity.
    + cbn. unfold reset. cbn. replace ((0 + 1) * p) with (0 + p) by lia. reflexivity.
  - destruct IH as (tr & sm & r & j & Hr & H1 & H2 & H3 & H4); [lia|].
    (* time passes *)
    assert (Hr1 : beat_run (Timing p m 0 0) (steady gap) (link_new 0) (tr ++ [Passes 1]) (Link (k + 1) (Side (r + p) sm) (Side ((j + 1) * p) j) [] [] None (Some r))).
    { econstructor; [exact Hr| |].
      - repeat split; try done. cbn. lia.
      - cbn. unfold in_time. cbn. destruct (k + 1 <=? r + p + 0) eqn:E1; [|apply N.leb_gt in E1; lia].
        destruct (k + 1 <=? (j + 1) * p + 0) eqn:E2; [|apply N.leb_gt in E2; lia]. reflexivity. }
    (* the client reports *)
    assert (Hr2 : exists tr sm r, beat_run (Timing p m 0 0) (steady gap) (link_new 0) tr (Link (k + 1) (Side (r + p) sm) (Side ((j + 1) * p) j) [] [] None (Some r)) /\ r <= k + 1 /\ k + 1 < r + gap).
    { destruct (decide (k + 1 = r + gap)) as [Heq|Hne]; [|exists (tr ++ [Passes 1]), sm, r; split; [done|lia]].
      exists (((tr ++ [Passes 1]) ++ [ClientSends Report]) ++ [ServerReceives]), 0, (k + 1). split; [|lia].
      econstructor; [econstructor; [exact Hr1| |cbn; reflexivity]|done|cbn; reflexivity]. split; [done|]. cbn. lia. }
    clear Hr Hr1 H1 H2 sm r tr. destruct Hr2 as (tr & sm & r & Hr & H1 & H2). rewrite <- N.add_1_r in *.
    (* its clock ticks *)
    destruct (decide (k + 1 = (j + 1) * p)) as [Heq|Hne]; [|exists tr, sm, r, j; split; [done|]; lia].
    assert (j < m + 1) by nia.
    exists (tr ++ [ClientTick]), sm, r, (j + 1). split; [|nia]. econstructor; [exact Hr|done|]. cbn.
    destruct ((j + 1) * p <=? k + 1) eqn:E1; [|apply N.leb_gt in E1; lia]. destruct (m <? j) eqn:E2; [apply N.ltb_lt in E2; lia|].
    unfold ticked. cbn. replace ((j + 1 + 1) * p) with ((j + 1) * p + p) by lia. reflexivity.
Qed.
Lemma steady_ends p m gap : 0 < gap -> gap < p ->
  exists tr s, beat_run (Timing p m 0 0) (steady gap) (link_new 0) tr s /\ h_end s = Some ClientGaveUp /\ h_now s = (m + 2) * p.
Proof.
  intros Hg Hp. assert (Hpos : 1 <= (m + 2) * p) by nia. destruct (steady_to p m gap ((m + 2) * p - 1) Hg Hp ltac:(lia)) as (tr & sm & r & j & Hr & H1 & H2 & H3 & H4).
  assert (j = m + 1) as -> by nia. remember ((m + 2) * p - 1) as k eqn:Ek. assert (Hk : k + 1 = (m + 2) * p) by lia. clear Ek.
  assert (Hr1 : beat_run (Timing p m 0 0) (steady gap) (link_new 0) (tr ++ [Passes 1]) (Link (k + 1) (Side (r + p) sm) (Side ((m + 1 + 1) * p) (m + 1)) [] [] None (Some r))).
  { econstructor; [exact Hr| |].
    - repeat split; try done. cbn. lia.
    - cbn. unfold in_time. cbn. destruct (k + 1 <=? r + p + 0) eqn:E1; [|apply N.leb_gt in E1; lia].
      destruct (k + 1 <=? (m + 1 + 1) * p + 0) eqn:E2; [|apply N.leb_gt in E2; lia]. reflexivity. }
  eexists ((tr ++ [Passes 1]) ++ [ClientTick]), _. split; [|split].
  - econstructor; [exact Hr1|done|]. cbn. destruct ((m + 1 + 1) * p <=? k + 1) eqn:E1; [|apply N.leb_gt in E1; lia].
    destruct (m <? m + 1) eqn:E2; [|apply N.ltb_ge in E2; lia]. reflexivity.
  - done.
  - done.
Qed.

(** The server's loop is busy. *)
Lemma stall_to p m j : 0 < p -> j <= m + 1 ->
  exists tr, beat_run (Timing p m ((m + 1) * p) 0) no_reports (link_new 0) tr (Link (j * p) (Side 0 0) (Side (j * p) j) [] [] None None).
Proof.
  intros Hp. induction j as [|j IH] using N.peano_ind; intros Hj; [exists []; constructor|].
  destruct IH as (tr & IH); [lia|]. rewrite <- N.add_1_r. exists ((tr ++ [ClientTick]) ++ [Passes p]).
  assert (Hm : (j + 1) * p <= (m + 1) * p) by (apply N.mul_le_mono_r; lia).
  econstructor; [econstructor; [exact IH|done|]|done|].
  - cbn. rewrite N.leb_refl. destruct (m <? j) eqn:E; [apply N.ltb_lt in E; lia|reflexivity].
  - cbn. unfold in_time. cbn. destruct (j * p + p <=? 0 + (m + 1) * p) eqn:E1; [|apply N.leb_gt in E1; lia].
    destruct (j * p + p <=? j * p + p + (m + 1) * p) eqn:E2; [|apply N.leb_gt in E2; lia]. cbn.
    unfold ticked. cbn. rewrite (N.mul_add_distr_r j 1 p), N.mul_1_l. reflexivity.
Qed.
Lemma stall_ends p m : 0 < p ->
  exists tr s, beat_run (Timing p m ((m + 1) * p) 0) no_reports (link_new 0) tr s /\ h_end s = Some ClientGaveUp /\ h_now s = (m + 1) * p.
Proof.
  intros Hp. destruct (stall_to p m (m + 1) Hp ltac:(lia)) as (tr & Hr). eexists (tr ++ [ClientTick]), _. split; [|split].
  - econstructor; [exact Hr|done|]. cbn. rewrite N.leb_refl. destruct (m <? m + 1) eqn:E; [|apply N.ltb_ge in E; lia]. reflexivity.
  - done.
  - done.
Qed.

Lemma beat_cons t (ok : link -> pulse -> Prop) s l s1 tr s2 : ok s l -> beat_next t l s = Some s1 -> beat_run t ok s1 tr s2 -> beat_run t ok s (l :: tr) s2.
Proof.
  intros H1 H2. induction 1 as [|tr s3 l' s4 H3 IH H4 H5].
  - apply (beat_snoc t ok s [] s l s1); [constructor|done|done].
  - apply (beat_snoc t ok s (l :: tr) s3 l' s4); done.
Qed.

(** *** One side is gone *)
Section gone.
Context (t : timing).
Notation p := (tm_period t).
Notation m := (tm_missable t).
Notation D := (tm_late t).
Notation W := (tm_transit t + tm_late t).
(** What holds of every state of a connection. *)
Record bounded (s : link) : Prop := {
  bo_server : sd_due (h_server s) <= h_now s + p;
  bo_client : sd_due (h_client s) <= h_now s + p;
  bo_server_missed : sd_missed (h_server s) <= m + 1;
  bo_client_missed : sd_missed (h_client s) <= m + 1;
  bo_up : forall x d, (x, d) ∈ h_up s -> d <= h_now s + W;
  bo_down : forall x d, (x, d) ∈ h_down s -> d <= h_now s + W }.
Lemma bounded_new now : bounded (link_new now).
Proof. split; cbn; try lia; intros x d H; by apply elem_of_nil in H. Qed.
Lemma bounded_step l s s' : bounded s -> beat_next t l s = Some s' -> bounded s'.
Proof.
  intros [B1 B2 B3 B4 B5 B6] H. destruct s as [now [sd sm] [cd cm] up down e r]. cbn in *. destruct e; [done|].
  assert (Hp : forall (A : Type) (x y : A) (d : N) q, (x, d) ∈ q ++ [(y, handled_by t now)] -> (x, d) ∈ q \/ d <= now + W).
  { intros A x y d q Hin. apply elem_of_app in Hin as [?|Hin]; [by left|]. apply elem_of_list_singleton in Hin. right. injection Hin as _ ->. unfold handled_by. lia. }
  destruct l; cbn in H.
  - destruct (sd <=? now) eqn:E1; [|done]. apply N.leb_le in E1. destruct (m <? sm) eqn:E2; simplify_eq; split; cbn; try done; try lia.
    + apply N.ltb_ge in E2. lia.
    + intros x d Hin. apply Hp in Hin as [?|?]; eauto.
  - destruct (cd <=? now) eqn:E1; [|done]. apply N.leb_le in E1. destruct (m <? cm) eqn:E2; simplify_eq; split; cbn; try done; try lia.
    apply N.ltb_ge in E2. lia.
  - destruct up as [|[x d] up]; [done|]. simplify_eq. split; cbn; try lia.
    + intros y d' Hin. apply (B5 y). by right.
    + intros y d' Hin. destruct x; eauto. apply Hp in Hin as [?|?]; eauto.
  - destruct down as [|[x d] down]; [done|]. simplify_eq. split; cbn; try lia.
    + intros y d' Hin. destruct x; eauto. apply Hp in Hin as [?|?]; eauto.
    + intros y d' Hin. apply (B6 y). by right.
  - destruct x; [done| |]; simplify_eq; (split; cbn; try done; try lia); intros y d Hin; (apply Hp in Hin as [?|?]; eauto).
  - simplify_eq. split; cbn; try done. intros y d Hin. apply Hp in Hin as [?|?]; eauto.
  - destruct (in_time _ _ _) eqn:E; [|done]. simplify_eq. split; cbn; try done; try lia; intros x d Hin; [specialize (B5 _ _ Hin)|specialize (B6 _ _ Hin)]; lia.
Qed.
Lemma bounded_run ok now tr s : beat_run t ok (link_new now) tr s -> bounded s.
Proof. remember (link_new now) as s0 eqn:E. induction 1; subst; [apply bounded_new|]. by eapply bounded_step; [eauto|]. Qed.

(** *** The client is gone *)
Definition noticing_server (now0 : N) (s : link) : Prop :=
  h_end s <> Some ClientGaveUp /\ h_now s <= sd_due (h_server s) + D /\
  sd_due (h_server s) <= now0 + W + (sd_missed (h_server s) + 1) * p /\ sd_missed (h_server s) <= m + 1 /\
  (forall x d, (x, d) ∈ h_up s -> h_now s <= d /\ d <= now0 + W).
Lemma noticing_server_step now0 l s s' : noticing_server now0 s -> without_client t l s = Some s' -> noticing_server now0 s'.
Proof.
  intros (H1 & H2 & H3 & H4 & H5) H. destruct s as [now [sd sm] [cd cm] up down e r]. cbn in *. destruct l; cbn in H; try done.
  - destruct e; [done|]. destruct (sd <=? now) eqn:E1; [|done]. apply N.leb_le in E1. destruct (m <? sm) eqn:E2; simplify_eq; unfold noticing_server; cbn; [done|].
    apply N.ltb_ge in E2. split_and!; try done; lia.
  - destruct e; [done|]. destruct up as [|[x d] up]; [done|]. simplify_eq. unfold noticing_server; cbn. destruct (H5 x d ltac:(by left)).
    split_and!; try done; try lia. intros y d' Hin. apply (H5 y). by right.
  - destruct e; [done|]. simplify_eq. done.
  - destruct (_ && _) eqn:E; [|done]. apply andb_true_iff in E as [E E3]. apply andb_true_iff in E as [_ E2]. apply N.leb_le in E2. rewrite forallb_forall in E3.
    simplify_eq. unfold noticing_server; cbn. split_and!; try done. intros x d Hin. split; [|by destruct (H5 _ _ Hin)].
    apply elem_of_list_In in Hin. specialize (E3 _ Hin). by apply N.leb_le in E3.
Qed.
Lemma noticing_server_run ok now tr s tr' s' : beat_run t ok (link_new now) tr s -> h_end s = None -> alone_run (without_client t) s tr' s' ->
  noticing_server (h_now s) s'.
Proof.
  intros Hr He. pose proof (bounded_run _ _ _ _ Hr) as [B1 B2 B3 B4 B5 B6]. pose proof (timely_run t _ _ _ _ (timely_new t now) Hr) as [T1 T2 T3 T4 T5].
  induction 1 as [|tr' s1 l s2 H IH Hs]; [|by eapply noticing_server_step].
  unfold noticing_server. rewrite He. split_and!; try done.
  - assert (p <= (sd_missed (h_server s) + 1) * p) by nia. lia.
Qed.
(** It can go on, until it notices. *)
Lemma alone_app (next : pulse -> link -> option link) s1 tr1 s2 tr2 s3 : alone_run next s1 tr1 s2 -> alone_run next s2 tr2 s3 -> alone_run next s1 (tr1 ++ tr2) s3.
Proof. intros H1 H2. induction H2 as [|tr2 s4 l s5 H2 IH Hs]; [by rewrite app_nil_r|]. rewrite app_assoc. by econstructor. Qed.
Lemma alone_cons (next : pulse -> link -> option link) s l s1 tr s2 : next l s = Some s1 -> alone_run next s1 tr s2 -> alone_run next s (l :: tr) s2.
Proof. intros H1 H2. apply (alone_app next s ([] ++ [l]) s1); [|done]. econstructor; [constructor|done]. Qed.
Lemma server_receives_all up : forall now sv cl down r, sd_missed sv <= m + 1 -> exists tr sv' down',
  alone_run (without_client t) (Link now sv cl up down None r) tr (Link now sv' cl [] down' None r) /\ sd_missed sv' <= m + 1.
Proof.
  induction up as [|[x d] up IH]; intros now sv cl down r Hm; [exists [], sv, down; split; [constructor|done]|].
  destruct (IH now (reset t now) cl (match x with Request => down ++ [(Other, handled_by t now)] | _ => down end) r) as (tr & sv' & dn & H & Hm'); [cbn; lia|].
  exists (ServerReceives :: tr), sv', dn. split; [|done]. by eapply alone_cons.
Qed.
Lemma server_gives_up k : forall now sv cl down r, sd_missed sv + N.of_nat k = m + 1 ->
  exists tr s, alone_run (without_client t) (Link now sv cl [] down None r) tr s /\ h_end s = Some ServerGaveUp.
Proof.
  assert (forall now sv cl down r, exists tr now', alone_run (without_client t) (Link now sv cl [] down None r) tr (Link now' sv cl [] down None r) /\ sd_due sv <= now') as Hpass.
  { intros now sv cl down r. destruct (N.leb_spec (sd_due sv) now) as [H|H]; [exists [], now; split; [constructor|done]|].
    exists ([] ++ [Passes (sd_due sv - now)]), (sd_due sv). split; [|done]. econstructor; [constructor|]. cbn. replace (now + (sd_due sv - now)) with (sd_due sv) by lia.
    replace (sd_due sv <=? sd_due sv + D) with true by (symmetry; apply N.leb_le; lia). done. }
  induction k as [|k IH]; intros now sv cl down r Hk; destruct (Hpass now sv cl down r) as (tr & now' & H & Hd).
  - eexists (tr ++ [ServerTick]), _. split; [econstructor; [exact H|]|].
    + cbn. replace (sd_due sv <=? now') with true by (symmetry; by apply N.leb_le). replace (m <? sd_missed sv) with true by (symmetry; apply N.ltb_lt; lia). reflexivity.
    + done.
  - destruct (IH now' (ticked t sv) cl (down ++ [(Ping, handled_by t now')]) r) as (tr' & s & H' & Hs); [unfold ticked; cbn; lia|].
    exists ((tr ++ [ServerTick]) ++ tr'), s. split; [|done]. eapply alone_app; [|exact H']. econstructor; [exact H|].
    cbn. replace (sd_due sv <=? now') with true by (symmetry; by apply N.leb_le). replace (m <? sd_missed sv) with false by (symmetry; apply N.ltb_ge; lia). reflexivity.
Qed.
Lemma server_notices s : sd_missed (h_server s) <= m + 1 -> h_end s = None -> exists tr s', alone_run (without_client t) s tr s' /\ h_end s' = Some ServerGaveUp.
Proof.
  intros Hm He. destruct s as [now sv cl up down e r]. cbn in *. subst e. destruct (server_receives_all up now sv cl down r Hm) as (tr & sv' & dn & H & Hm').
  destruct (server_gives_up (N.to_nat (m + 1 - sd_missed sv')) now sv' cl dn r) as (tr' & s' & H' & Hs); [lia|].
  exists (tr ++ tr'), s'. split; [|done]. by eapply alone_app.
Qed.

(** *** The server is gone *)
Definition noticing_client (now0 : N) (s : link) : Prop :=
  h_end s <> Some ServerGaveUp /\ h_now s <= sd_due (h_client s) + D /\
  sd_due (h_client s) <= now0 + W + (sd_missed (h_client s) + 1) * p /\ sd_missed (h_client s) <= m + 1 /\
  (forall x d, (x, d) ∈ h_down s -> h_now s <= d /\ d <= now0 + W).
Lemma noticing_client_step now0 l s s' : noticing_client now0 s -> without_server t l s = Some s' -> noticing_client now0 s'.
Proof.
  intros (H1 & H2 & H3 & H4 & H5) H. destruct s as [now [sd sm] [cd cm] up down e r]. cbn in *. destruct l; cbn in H; try done.
  - destruct e; [done|]. destruct (cd <=? now) eqn:E1; [|done]. apply N.leb_le in E1. destruct (m <? cm) eqn:E2; simplify_eq; unfold noticing_client; cbn; [done|].
    apply N.ltb_ge in E2. split_and!; try done; lia.
  - destruct e; [done|]. destruct down as [|[x d] down]; [done|]. simplify_eq. unfold noticing_client; cbn. destruct (H5 x d ltac:(by left)).
    split_and!; try done; try lia. intros y d' Hin. apply (H5 y). by right.
  - destruct e; [done|]. destruct x; by simplify_eq.
  - destruct (_ && _) eqn:E; [|done]. apply andb_true_iff in E as [E E3]. apply andb_true_iff in E as [_ E2]. apply N.leb_le in E2. rewrite forallb_forall in E3.
    simplify_eq. unfold noticing_client; cbn. split_and!; try done. intros x d Hin. split; [|by destruct (H5 _ _ Hin)].
    apply elem_of_list_In in Hin. specialize (E3 _ Hin). by apply N.leb_le in E3.
Qed.
Lemma noticing_client_run ok now tr s tr' s' : beat_run t ok (link_new now) tr s -> h_end s = None -> alone_run (without_server t) s tr' s' ->
  noticing_client (h_now s) s'.
Proof.
  intros Hr He. pose proof (bounded_run _ _ _ _ Hr) as [B1 B2 B3 B4 B5 B6]. pose proof (timely_run t _ _ _ _ (timely_new t now) Hr) as [T1 T2 T3 T4 T5].
  induction 1 as [|tr' s1 l s2 H IH Hs]; [|by eapply noticing_client_step].
  unfold noticing_client. rewrite He. split_and!; try done.
  - assert (p <= (sd_missed (h_client s) + 1) * p) by nia. lia.
  - intros x d Hin. split; [by apply (T4 x)|by apply (B6 x)].
Qed.
Lemma client_receives_all down : forall now sv cl up r, sd_missed cl <= m + 1 -> exists tr cl' up',
  alone_run (without_server t) (Link now sv cl up down None r) tr (Link now sv cl' up' [] None r) /\ sd_missed cl' <= m + 1.
Proof.
  induction down as [|[x d] down IH]; intros now sv cl up r Hm; [exists [], cl, up; split; [constructor|done]|].
  destruct (IH now sv (reset t now) (match x with Ping => up ++ [(Pong, handled_by t now)] | Other => up end) r) as (tr & cl' & up' & H & Hm'); [cbn; lia|].
  exists (ClientReceives :: tr), cl', up'. split; [|done]. by eapply alone_cons.
Qed.
Lemma client_gives_up k : forall now sv cl up r, sd_missed cl + N.of_nat k = m + 1 ->
  exists tr s, alone_run (without_server t) (Link now sv cl up [] None r) tr s /\ h_end s = Some ClientGaveUp.
Proof.
  assert (forall now sv cl up r, exists tr now', alone_run (without_server t) (Link now sv cl up [] None r) tr (Link now' sv cl up [] None r) /\ sd_due cl <= now') as Hpass.
  { intros now sv cl up r. destruct (N.leb_spec (sd_due cl) now) as [H|H]; [exists [], now; split; [constructor|done]|].
    exists ([] ++ [Passes (sd_due cl - now)]), (sd_due cl). split; [|done]. econstructor; [constructor|]. cbn. replace (now + (sd_due cl - now)) with (sd_due cl) by lia.
    replace (sd_due cl <=? sd_due cl + D) with true by (symmetry; apply N.leb_le; lia). done. }
  induction k as [|k IH]; intros now sv cl up r Hk; destruct (Hpass now sv cl up r) as (tr & now' & H & Hd).
  - eexists (tr ++ [ClientTick]), _. split; [econstructor; [exact H|]|].
    + cbn. replace (sd_due cl <=? now') with true by (symmetry; by apply N.leb_le). replace (m <? sd_missed cl) with true by (symmetry; apply N.ltb_lt; lia). reflexivity.
    + done.
  - destruct (IH now' sv (ticked t cl) up r) as (tr' & s & H' & Hs); [unfold ticked; cbn; lia|].
    exists ((tr ++ [ClientTick]) ++ tr'), s. split; [|done]. eapply alone_app; [|exact H']. econstructor; [exact H|].
    cbn. replace (sd_due cl <=? now') with true by (symmetry; by apply N.leb_le). replace (m <? sd_missed cl) with false by (symmetry; apply N.ltb_ge; lia). reflexivity.
Qed.
Lemma client_notices s : sd_missed (h_client s) <= m + 1 -> h_end s = None -> exists tr s', alone_run (without_server t) s tr s' /\ h_end s' = Some ClientGaveUp.
Proof.
  intros Hm He. destruct s as [now sv cl up down e r]. cbn in *. subst e. destruct (client_receives_all down now sv cl up r Hm) as (tr & cl' & up' & H & Hm').
  destruct (client_gives_up (N.to_nat (m + 1 - sd_missed cl')) now sv cl' up' r) as (tr' & s' & H' & Hs); [lia|].
  exists (tr ++ tr'), s'. split; [|done]. by eapply alone_app.
Qed.
End gone.
