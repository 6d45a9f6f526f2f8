(** C110: in which order reports take effect, and what an orderly shutdown does to them. *)
From Verif Require Import Mailbox.
Local Open Scope N_scope.

(** ** Vocabulary *)
(** The reports the server has read, in the order of time. *)
Definition received (tr : list xlabel) : list mail := omap (fun l => match l with XReceive m => Some m | _ => None end) tr.
(** Those of one consumer. *)
Definition from (c : N) (l : list mail) : list mail := filter (fun m => m_conn m = c) l.
(** Something happened inside the server: a report got into the mailbox, or the completer took one or finished one. *)
Definition inside (l : xlabel) : Prop := match l with XRoom _ | XTake | XDone => True | _ => False end.

(** ** Proofs *)
Definition opt {A} (o : option A) : list A := match o with Some a => [a] | None => [] end.
Record xinv (tr : list xlabel) (done : list mail) (s : desk) : Prop := Xinv {
  v_order : x_stopped s = false -> forall c, from c (received tr) = from c done ++ from c (opt (x_busy s)) ++ from c (x_box s) ++ opt (x_wait s !! c);
  v_prefix : forall c, from c done `prefix_of` from c (received tr);
  v_box : N.of_nat (length (x_box s)) <= capacity;
  v_wait : forall c m, x_wait s !! c = Some m -> m_conn m = c /\ c ∈ x_open s;
  v_stopped : x_stopped s = true -> x_box s = [] /\ x_wait s = ∅ /\ x_busy s = None;
  v_count : x_stopped s = false -> length (received tr) = (length done + length (opt (x_busy s)) + length (x_box s) + size (x_wait s))%nat;
  v_told : x_stopped s = true \/ x_told s = true -> XTell ∈ tr }.
Lemma from_app c l k : from c (l ++ k) = from c l ++ from c k.
Proof. apply filter_app. Qed.
Lemma received_snoc tr l : received (tr ++ [l]) = received tr ++ received [l].
Proof. apply omap_app. Qed.
Lemma from_one c m : from c [m] = if bool_decide (m_conn m = c) then [m] else [].
Proof. unfold from. rewrite filter_cons. by case_bool_decide; case_decide. Qed.

Ltac same := match goal with |- xinv (?tr ++ [?l]) _ _ => let E := fresh in assert (E : received (tr ++ [l]) = received tr) by (rewrite received_snoc; apply app_nil_r); rewrite ?app_nil_r; split; cbn [x_box x_wait x_busy x_told x_stopped x_open] in *; rewrite ?E in *; try done end.
Lemma xinv_step tr done s l s' ms : xinv tr done s -> xnext l s = Some (s', ms) -> xinv (tr ++ [l]) (done ++ ms) s'.
Proof.
  intros [O P B W S C T] H. destruct s as [box wait busy told stopped open]. cbn [x_box x_wait x_busy x_told x_stopped x_open] in *.
  assert (Hp : forall c, from c done `prefix_of` from c (received (tr ++ [l]))).
  { intros c. rewrite received_snoc, from_app. by apply prefix_app_r. }
  assert (Ht : stopped = true \/ told = true -> XTell ∈ tr ++ [l]) by (intros Hx; apply elem_of_app; left; by apply T).
  destruct l as [c|m|c| | |c| | |co]; cbn [xnext] in H.
  - case_bool_decide; [done|]. injection H as <- <-. rewrite app_nil_r. same. intros k m Hk. destruct (W k m Hk). split; [done|set_solver].
  - case_bool_decide as Hm; [|done]. destruct Hm as [Ho Hn]. injection H as <- <-. rewrite app_nil_r.
    split; cbn [x_box x_wait x_busy x_told x_stopped x_open]; try done.
    + intros ->. intros c. rewrite received_snoc, from_app, O by done. rewrite <- !app_assoc. do 3 f_equal.
      cbn [received omap list_omap]. rewrite from_one. case_bool_decide as Hc.
      * subst c. rewrite lookup_insert, Hn. done.
      * rewrite lookup_insert_ne by done. by rewrite app_nil_r.
    + destruct stopped; [done|]. intros c x. rewrite lookup_insert_Some. intros [[<- <-]|[_ Hx]]; [done|by apply W].
    + intros Hs. subst stopped. by apply S.
    + intros ->. rewrite received_snoc, app_length, C by done. cbn [received omap list_omap length]. rewrite map_size_insert_None by done. lia.
  - destruct (wait !! c) as [m|] eqn:Ew; [|done]. case_bool_decide as Hl; [|done]. injection H as <- <-. rewrite app_nil_r.
    destruct (W c m Ew) as [Hc Ho]. same.
    + intros Hs k. rewrite O by done. rewrite from_app, <- !app_assoc. do 3 f_equal. rewrite from_one. case_bool_decide as Hk.
      * assert (k = c) as -> by congruence. by rewrite lookup_delete, Ew.
      * rewrite lookup_delete_ne by congruence. done.
    + rewrite app_length. cbn [length]. lia.
    + intros k x Hk. apply lookup_delete_Some in Hk as [_ Hk]. by apply W.
    + intros Hs. destruct (S Hs) as (_ & -> & _). by rewrite lookup_empty in Ew.
    + intros Hs. rewrite C by done. rewrite app_length. cbn [length]. assert (size wait = (1 + size (delete c wait))%nat) by (rewrite <- (insert_delete wait c m Ew) at 1; rewrite map_size_insert_None; [done|apply lookup_delete]). lia.
  - destruct busy as [b|], box as [|m box]; try done. injection H as <- <-. rewrite app_nil_r.
    same.
    + intros Hs k. rewrite O by done. cbn [opt]. rewrite (app_assoc (from k [m])), <- from_app. done.
    + cbn [length] in B. lia.
    + intros Hs. by destruct (S Hs).
    + intros Hs. rewrite C by done. cbn [length opt]. lia.
  - destruct busy as [b|]; [|done]. injection H as <- <-.
    assert (Hs : stopped = false) by (destruct stopped; [destruct (S eq_refl) as (_ & _ & ?); done|done]). same.
    + intros _ k. rewrite O by done. cbn [opt]. rewrite from_app, <- app_assoc. done.
    + intros k. rewrite O by done. cbn [opt]. rewrite from_app. apply prefix_app. by exists (from k box ++ opt (wait !! k)).
    + intros Hx. by destruct (S Hx) as (_ & _ & ?).
    + intros _. rewrite C by done. rewrite app_length. cbn [length opt]. lia.
  - case_bool_decide as Hc; [|done]. destruct Hc as [Ho Hn]. injection H as <- <-. rewrite app_nil_r.
    same. intros k m Hk. destruct (W k m Hk). split; [done|].
    assert (k <> c) by congruence. set_solver.
  - injection H as <- <-. rewrite app_nil_r. same. intros _. set_solver.
  - destruct told, stopped; try done. cbn [andb negb] in H. case_bool_decide as Hb; [|done]. injection H as <- <-. rewrite app_nil_r.
    split; cbn [x_box x_wait x_busy x_told x_stopped x_open]; try done. intros _. apply Ht. by right.
  - destruct told; [|done]. injection H as <- <-.
    split; cbn [x_box x_wait x_busy x_told x_stopped x_open]; try done; [|intros _; apply Ht; by right].
    intros k. destruct co; [|by rewrite app_nil_r]. destruct busy as [b|]; [|by rewrite app_nil_r].
    assert (Hs : stopped = false) by (destruct stopped; [destruct (S eq_refl) as (_ & _ & ?); done|done]).
    rewrite received_snoc, !from_app. cbn [received omap list_omap]. rewrite O by done. cbn [opt]. rewrite <- !app_assoc. apply prefix_app. eexists. reflexivity.
Qed.
Lemma xrun_inv tr done s : xrun tr done s -> xinv tr done s.
Proof.
  induction 1 as [|tr done s l s' ms _ IH H]; [|by eapply xinv_step].
  split; cbn; try done. by intros [?|?].
Qed.
Lemma inside_step tr done s l s' ms : xinv tr done s -> inside l -> xnext l s = Some (s', ms) ->
  (3 * size (x_wait s') + 2 * length (x_box s') + length (opt (x_busy s')) + 1 = 3 * size (x_wait s) + 2 * length (x_box s) + length (opt (x_busy s)))%nat.
Proof.
  intros _ Hi H. destruct s as [box wait busy told stopped open]. destruct l as [c|m|c| | |c| | |co]; try done; cbn [xnext] in H.
  - destruct (wait !! c) as [m|] eqn:Ew; [|done]. case_bool_decide; [|done]. injection H as <- <-. cbn [x_wait x_box x_busy].
    assert (size wait = (1 + size (delete c wait))%nat) by (rewrite <- (insert_delete wait c m Ew) at 1; rewrite map_size_insert_None; [done|apply lookup_delete]).
    rewrite app_length. cbn [length]. lia.
  - destruct busy, box; try done. injection H as <- <-. cbn. lia.
  - destruct busy; [|done]. injection H as <- <-. cbn. lia.
Qed.
Lemma inside_keeps l s s' ms : inside l -> xnext l s = Some (s', ms) -> x_stopped s' = x_stopped s /\ received [l] = [].
Proof.
  intros Hi H. destruct s as [box wait busy told stopped open]. destruct l as [c|m|c| | |c| | |co]; try done; cbn [xnext] in H.
  - destruct (wait !! c); [|done]. case_bool_decide; [|done]. by injection H as <- <-.
  - destruct busy, box; try done. by injection H as <- <-.
  - destruct busy; [|done]. by injection H as <- <-.
Qed.
Lemma xrun_last tr l done s : xrun (tr ++ [l]) done s -> exists done' s' ms, xrun tr done' s' /\ xnext l s' = Some (s, ms) /\ done = done' ++ ms.
Proof.
  intros H. inversion H as [E|tr' d s0 l' s' ms H1 H2 E]; [by destruct tr|]. apply app_inj_tail in E as [-> ->]. by exists d, s0, ms.
Qed.
Lemma xrun_det tr : forall d s d' s', xrun tr d s -> xrun tr d' s' -> d = d' /\ s = s'.
Proof.
  induction tr as [|l tr IH] using rev_ind; intros d s d' s' H H'.
  - inversion H; [|by destruct tr]. inversion H'; [|by destruct tr]. done.
  - apply xrun_last in H as (d1 & s1 & m1 & H & E & ->). apply xrun_last in H' as (d2 & s2 & m2 & H' & E' & ->).
    destruct (IH _ _ _ _ H H') as [-> ->]. rewrite E in E'. by injection E' as <- <-.
Qed.

(** ** C110 *)
(** A consumer's reports are dealt with in the order in which they came, each once and none left out:
    at any moment, also during and after a shutdown, those dealt with are the first ones. *)
Theorem C110_in_order : forall tr done s c, xrun tr done s -> from c done `prefix_of` from c (received tr).
Proof. intros tr done s c H. apply (v_prefix _ _ _ (xrun_inv _ _ _ H)). Qed.
Print Assumptions C110_in_order.
(** As long as the server is not told to shut down, it gets through with all of them if it is left
    alone: whatever is done next inside, it stops after at most three steps for each report that is
    left, and when nothing is left to do inside, every report has been dealt with. *)
Theorem C110_all : forall tr tr' done done' s s',
  xrun tr done s -> xrun (tr ++ tr') done' s' -> XTell ∉ tr -> Forall inside tr' ->
  (length tr' <= 3 * (length (received tr) - length done))%nat /\
  ((forall l, inside l -> xnext l s' = None) -> forall c, from c done' = from c (received tr)).
Proof.
  intros tr tr' done done' s s' H H' Ht Hi. pose proof (xrun_inv _ _ _ H) as I.
  assert (Hs : x_stopped s = false) by (destruct (x_stopped s) eqn:E; [destruct Ht; apply (v_told _ _ _ I); by left|done]).
  assert (K : forall tr' done' s', xrun (tr ++ tr') done' s' -> Forall inside tr' ->
    (3 * size (x_wait s') + 2 * length (x_box s') + length (opt (x_busy s')) + length tr' = 3 * size (x_wait s) + 2 * length (x_box s) + length (opt (x_busy s)))%nat /\
    x_stopped s' = false /\ received (tr ++ tr') = received tr).
  { clear tr' done' s' H' Hi. intros tr'. induction tr' as [|l tr' IH] using rev_ind; intros done' s' H' Hi.
    - rewrite app_nil_r in *. destruct (xrun_det _ _ _ _ _ H H') as [<- <-]. split_and!; [cbn; lia|done..].
    - rewrite app_assoc in H'. apply xrun_last in H' as (d & s1 & ms & H1 & E & ->). apply Forall_app in Hi as [Hi Hl]. apply Forall_inv in Hl.
      destruct (IH _ _ H1 Hi) as (K1 & K2 & K3). pose proof (inside_step _ _ _ _ _ _ (xrun_inv _ _ _ H1) Hl E). destruct (inside_keeps _ _ _ _ Hl E) as [F1 F2].
      split_and!; [rewrite app_length; cbn [length]; lia|congruence|]. rewrite app_assoc, received_snoc, K3, F2. apply app_nil_r. }
  destruct (K _ _ _ H' Hi) as (K1 & K2 & K3). split.
  - pose proof (v_count _ _ _ I Hs). lia.
  - intros Hend c. pose proof (xrun_inv _ _ _ H') as I'. rewrite <- K3, (v_order _ _ _ I' K2 c).
    destruct s' as [box wait busy told stopped open]. cbn [x_box x_wait x_busy x_stopped] in *.
    destruct busy as [b|]; [by discriminate (Hend XDone Logic.I)|]. destruct box as [|m box]; [|by discriminate (Hend XTake Logic.I)].
    destruct (wait !! c) as [m|] eqn:Ew; [|cbn; by rewrite app_nil_r].
    pose proof (Hend (XRoom c) Logic.I) as Hr. cbn [xnext] in Hr. rewrite Ew in Hr. by case_bool_decide.
Qed.
Print Assumptions C110_all.
(** Full statement: all reports that the server has received by the time it is told to shut down take
    effect. Proved: all but 1024 + 1 + one for each connection do, whatever happens next, and by
    C110_in_order those that do not are the last ones of each consumer. *)
Theorem C110_shutdown_partial : forall tr tr' done done' s s',
  xrun tr done s -> XTell ∉ tr -> xrun (tr ++ XTell :: tr') done' s' ->
  N.of_nat (length (received tr)) <= N.of_nat (length done') + 1024 + 1 + N.of_nat (size (x_open s)).
Proof.
  intros tr tr' done done' s s' H Ht H'. pose proof (xrun_inv _ _ _ H) as I.
  assert (Hs : x_stopped s = false) by (destruct (x_stopped s) eqn:E; [destruct Ht; apply (v_told _ _ _ I); by left|done]).
  assert (length done <= length done')%nat.
  { clear Ht. revert done' s' H'. generalize (XTell :: tr') as l. intros l. induction l as [|x l IH] using rev_ind; intros done' s' H'.
    - rewrite app_nil_r in H'. by destruct (xrun_det _ _ _ _ _ H H') as [<- _].
    - rewrite app_assoc in H'. apply xrun_last in H' as (d & s1 & ms & H1 & _ & ->). rewrite app_length. pose proof (IH _ _ H1). lia. }
  pose proof (v_count _ _ _ I Hs). pose proof (v_box _ _ _ I) as Hb. unfold capacity in Hb.
  assert (size (x_wait s) <= size (x_open s))%nat.
  { rewrite <- size_dom. apply subseteq_size. intros c Hc. apply elem_of_dom in Hc as [m Hm]. by destruct (v_wait _ _ _ I c m Hm). }
  assert (length (opt (x_busy s)) <= 1)%nat by (destruct (x_busy s); cbn; lia). lia.
Qed.
Print Assumptions C110_shutdown_partial.

(** The rest is false: for every [n] up to 1024, the server may have received [n] reports when it is
    told to shut down, and not deal with any of them, whatever happens next. *)
Lemma stopped_for_good tr tr' done done' s s' : xrun tr done s -> x_stopped s = true -> xrun (tr ++ tr') done' s' -> done' = done.
Proof.
  intros H Hs. revert done' s'. enough (K : forall done' s', xrun (tr ++ tr') done' s' -> done' = done /\ x_stopped s' = true) by (intros d s' H'; by apply (K d s')).
  induction tr' as [|l tr' IH] using rev_ind; intros done' s' H'.
  - rewrite app_nil_r in H'. by destruct (xrun_det _ _ _ _ _ H H') as [<- <-].
  - rewrite app_assoc in H'. apply xrun_last in H' as (d & s1 & ms & H1 & E & ->). destruct (IH _ _ H1) as [-> S1].
    destruct (v_stopped _ _ _ (xrun_inv _ _ _ H1) S1) as (B & W & U). destruct s1 as [box wait busy told stopped open]. cbn [x_box x_wait x_busy x_stopped] in *. subst.
    destruct l as [c|m|c| | |c| | |co]; cbn [xnext] in E.
    + case_bool_decide; [done|]. injection E as <- <-. by rewrite app_nil_r.
    + case_bool_decide; [|done]. injection E as <- <-. by rewrite app_nil_r.
    + by rewrite lookup_empty in E.
    + done.
    + done.
    + case_bool_decide; [|done]. injection E as <- <-. by rewrite app_nil_r.
    + injection E as <- <-. by rewrite app_nil_r.
    + by destruct told.
    + destruct told; [|done]. injection E as <- <-. destruct co; by rewrite app_nil_r.
Qed.
Theorem C110_shutdown_refuted : forall n, N.of_nat n <= 1024 -> exists tr tr',
  XTell ∉ tr /\ length (received tr) = n /\ (exists s, xrun (tr ++ XTell :: tr') [] s) /\
  forall tr'' done s, xrun ((tr ++ XTell :: tr') ++ tr'') done s -> done = [].
Proof.
  intros n Hn. assert (K : forall k, (k <= n)%nat -> exists tr, XTell ∉ tr /\ length (received tr) = k /\ exists box, length box = k /\ xrun tr [] (Desk box ∅ None false false {[1]})).
  { induction k as [|k IH]; intros Hk.
    - exists [XOpen 1]. split_and!; [set_solver|done|]. exists []. split; [done|]. change [XOpen 1] with ([] ++ [XOpen 1]).
      apply (xrun_snoc [] [] desk_new (XOpen 1) _ []); [constructor|]. cbn [xnext desk_new]. rewrite bool_decide_false by set_solver. do 3 f_equal. set_solver.
    - destruct IH as (tr & N1 & R & box & B & H); [lia|]. set (m := Mail 1 (1, N.of_nat k) (Complete None)).
      exists ((tr ++ [XReceive m]) ++ [XRoom 1]). split_and!.
      + set_solver.
      + rewrite !received_snoc, !app_length. cbn [received omap list_omap length]. lia.
      + exists (box ++ [m]). rewrite app_length. cbn [length]. split; [lia|].
        apply (xrun_snoc _ [] (Desk box {[1 := m]} None false false {[1]}) _ _ []).
        * apply (xrun_snoc _ [] _ _ _ [] H). cbn [xnext]. rewrite bool_decide_true; [done|]. cbn. split; [set_solver|done].
        * cbn [xnext]. rewrite lookup_singleton. rewrite bool_decide_true by (unfold capacity; lia). by rewrite delete_singleton. }
  destruct (K n) as (tr & N1 & R & box & B & H); [lia|]. exists tr, [XStop].
  assert (E : xrun (tr ++ [XTell; XStop]) [] (Desk [] ∅ None true true {[1]})).
  { change [XTell; XStop] with ([XTell] ++ [XStop]). rewrite app_assoc. apply (xrun_snoc _ [] (Desk box ∅ None true false {[1]}) _ _ []); [|done].
    by apply (xrun_snoc _ [] _ _ _ [] H). }
  split_and!; [done|done|by eexists|]. intros tr'' done s Hd. by eapply stopped_for_good.
Qed.
Print Assumptions C110_shutdown_refuted.
(** The hypotheses are met: two consumers report, the second one twice; its first report has been
    dealt with. Left alone, the server deals with the rest; told to shut down, it may drop the last one. *)
Fixpoint xplay (l : list xlabel) (done : list mail) (s : desk) : option (list mail * desk) :=
  match l with [] => Some (done, s) | x :: l => match xnext x s with Some (s', ms) => xplay l (done ++ ms) s' | None => None end end.
Lemma xplay_run l : forall tr done s done' s', xrun tr done s -> xplay l done s = Some (done', s') -> xrun (tr ++ l) done' s'.
Proof.
  induction l as [|x l IH]; intros tr done s done' s' H E; cbn [xplay] in E; [injection E as <- <-; by rewrite app_nil_r|].
  destruct (xnext x s) as [[s1 ms]|] eqn:Ex; [|done]. replace (tr ++ x :: l) with ((tr ++ [x]) ++ l) by (by rewrite <- app_assoc).
  eapply IH; [|exact E]. by eapply xrun_snoc.
Qed.
Example C110_example : let a := Mail 1 (7, 0) (Complete None) in let b := Mail 2 (7, 1) (Fail "x") in let c := Mail 2 (7, 2) (Complete None) in
  let tr := [XOpen 1; XOpen 2; XReceive a; XReceive b; XRoom 2; XTake; XRoom 1; XDone; XReceive c] in
  XTell ∉ tr /\ from 2 (received tr) = [b; c] /\ (exists s, xrun tr [b] s /\ size (x_open s) = 2%nat) /\
  (exists s, xrun (tr ++ [XTake; XRoom 2; XDone; XTake; XDone]) [b; a; c] s /\ forall l, inside l -> xnext l s = None) /\
  (exists s, xrun (tr ++ [XTell; XTake; XExit true]) [b; a] s).
Proof.
  intros a b c tr. assert (P : forall l d s, xplay (tr ++ l) [] desk_new = Some (d, s) -> xrun (tr ++ l) d s) by (intros l d s; apply (xplay_run _ []); constructor).
  split_and!.
  - unfold tr. rewrite !not_elem_of_cons. split_and!; try done. apply not_elem_of_nil.
  - by vm_compute.
  - eexists. split; [rewrite <- (app_nil_r tr); apply P; vm_compute; reflexivity|vm_compute; reflexivity].
  - eexists. split; [apply P; vm_compute; reflexivity|]. intros [c'|m|c'| | |c'| | |co]; done.
  - eexists. apply P. vm_compute. reflexivity.
Qed.
