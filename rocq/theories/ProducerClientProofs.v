(** Proofs about the producer's HTTP client. *)
From Coq Require Import Ascii.
From Verif Require Export ProducerClient.
From Verif Require Import AnswerProofs.
Local Open Scope N_scope.

Lemma transient_net_spec e : is_ephemeral (CHttp e) = true <-> transient_net e.
Proof. unfold transient_net. destruct e; simpl; (split; [intros; tauto || discriminate|intros [|[|]]; congruence]). Qed.
Lemma transient_spec q x : transient q x <-> exists e, outcome q x = inl e /\ is_ephemeral e = true.
Proof.
  destruct x as [e|r lost|c]; swap 2 3.
  - simpl. rewrite <- transient_net_spec. split; [eauto|]. by intros (? & [= <-] & ?).
  - assert (Hc : 500 <= c <= 599 <-> exists e, (if (400 <=? c) && (c <? 600) then inl (CStatus c) else inl CJson : client_err + body) = inl e /\ is_ephemeral e = true).
    { destruct (N.leb_spec 400 c), (N.ltb_spec c 600); cbn [andb]; (split; [|intros (e & [= <-] & He); simpl in He; try done]); [|..|intros; lia|intros; lia|intros; lia].
      - intros. eexists. split; [done|]. simpl. rewrite andb_true_iff, N.leb_le, N.ltb_lt. lia.
      - rewrite andb_true_iff, N.leb_le, N.ltb_lt in He. lia. }
    destruct q; cbn [transient outcome]; try exact Hc.
    + destruct (N.eqb_spec c 200) as [->|]; [split; [lia|by intros (? & ? & _)]|].
      destruct (N.eqb_spec c 404), (N.eqb_spec c 409); cbn [orb]; subst; (split; [intros|intros (e & [= <-] & He)]); first [done|lia|by eauto].
    + destruct (N.eqb_spec c 200), (N.eqb_spec c 400); cbn [orb]; subst; (split; [intros|intros (e & [= <-] & He)]); first [done|lia|by eauto].
  - split.
    + intros H. unfold transient, transient_net in H.
      destruct q; destruct r; destruct lost as [[]|]; cbn in H |- *;
        repeat match goal with H : _ \/ _ |- _ => destruct H | H : _ /\ _ |- _ => destruct H | H : exists _, _ |- _ => destruct H end;
        subst; try congruence; eexists; (split; [reflexivity|reflexivity]).
    + intros (e & H & He). unfold transient.
      destruct q; destruct r; destruct lost as [e'|]; cbn in H |- *; try (destruct b); try (destruct (_ <? _)); try discriminate H; injection H as <-; try discriminate He;
        try (apply transient_net_spec in He); eauto 10.
Qed.

Lemma call_spec q : forall n d l r d' k, call_from q n d l = Some (r, d', k) ->
  (0 < k <= S n)%nat /\ (k <= length l)%nat /\
  (forall i, (S i < k)%nat -> exists x, exchanges q d l !! i = Some x /\ transient q x) /\
  exists x, exchanges q d l !! (k - 1)%nat = Some x /\ r = outcome q x /\ (transient q x -> k = S n).
Proof.
  intros n d l. revert n d. induction l as [|a l IH]; intros n d r d' k H; [done|]. cbn [call_from] in H. cbn [exchanges].
  destruct (attempt_run q d a) as [d1 x] eqn:Ea. cbn [fst snd]. pose proof (transient_spec q x) as Ht.
  assert (Hstop : k = 1%nat -> r = outcome q x -> (transient q x -> k = S n) ->
    (0 < k <= S n)%nat /\ (k <= length (a :: l))%nat /\
    (forall i, (S i < k)%nat -> exists x0, (x :: exchanges q d1 l) !! i = Some x0 /\ transient q x0) /\
    exists x0, (x :: exchanges q d1 l) !! (k - 1)%nat = Some x0 /\ r = outcome q x0 /\ (transient q x0 -> k = S n)).
  { intros -> -> H3. split; [lia|]. split; [simpl; lia|]. split; [intros i Hi; lia|]. exists x. split; [done|]. split; [done|]. exact H3. }
  destruct (outcome q x) as [e|b] eqn:Eo.
  - destruct (is_ephemeral e) eqn:Ee.
    + destruct n as [|n]; [injection H as <- <- <-; by apply Hstop|].
      destruct (call_from q n d1 l) as [[[r0 d0] k0]|] eqn:Ec; [|done]. injection H as <- <- <-.
      destruct (IH n d1 r0 d0 k0 Ec) as (H1 & H2 & H3 & x0 & H4 & H5 & H6). split; [lia|]. split; [simpl; lia|]. split.
      * intros [|i] Hi; [exists x; split; [done|]; apply Ht; eauto|]. cbn. apply H3. lia.
      * exists x0. replace (S k0 - 1)%nat with (S (k0 - 1)) by lia. split; [done|]. split; [done|]. intros Hx. f_equal. by apply H6.
    + injection H as <- <- <-. apply Hstop; [done|done|]. intros (e' & [= <-] & ?)%Ht. congruence.
  - injection H as <- <- <-. apply Hstop; [done|done|]. intros (e' & ? & _)%Ht. done.
Qed.

(** *** Insert *)
Lemma insert_attempt c m st z s d : replied (Served s) ->
  let e := Event (insert_op c m st z s) (sv_faults s) (sv_crash s) in
  let q := PInsert c m st z in
  exists r, answer_of (run_from d (sv_others s)) e = Some (AInsert r) /\
    attempt_run q d (Served s) = (step (run_from d (sv_others s)) e, XResp (or_500 BId r) None).
Proof.
  intros (Hc & Hl & Hb). unfold attempt_run, answer_of, step, finished. cbn [e_crash e_op e_faults]. rewrite Hc, Hl, Hb.
  unfold insert_op, op_prog, handle. destruct (contents_of c) as [p l]. cbn [fst snd]. rewrite !exec_map. cbn [fst snd]. eauto.
Qed.
Lemma insert_outcome q r : (exists c m st z, q = PInsert c m st z) ->
  outcome q (XResp (or_500 BId r) None) = match r with Ok id => inr (BId id) | Err _ | Panicked => inl (CStatus 500) end.
Proof. intros (c & m & st & z & ->). by destruct r. Qed.
Lemma run_after h h' : run_from (after h) h' = after (h ++ h').
Proof. unfold after, run_from. by rewrite fold_left_app. Qed.
Lemma fresh_drop h e h' : fresh_ids (h ++ [e] ++ h') -> fresh_ids (h ++ h').
Proof.
  unfold fresh_ids, inserted_ids. rewrite !omap_app, !NoDup_app. intros (H1 & H2 & _ & H3 & H4). split; [done|]. split; [|done].
  intros x Hx. specialize (H2 x Hx). rewrite elem_of_app in H2. tauto.
Qed.
Lemma attempt_events_cons o a l : attempt_events o (a :: l) =
  match a with NotServed _ | Intercepted _ => [] | Served s => sv_others s ++ [Event (o s) (sv_faults s) (sv_crash s)] end ++ attempt_events o l.
Proof. done. Qed.
Lemma insert_call c m st z : (0 < length (contents_of c).2)%nat -> forall n l h id d' k,
  call_from (PInsert c m st z) n (after h) l = Some (inr (BId id), d', k) ->
  fresh_ids (h ++ attempt_events (insert_op c m st z) (take k l)) -> Forall replied (take k l) ->
  exists h0 e s, d' = after (h ++ h0 ++ [e]) /\ fresh_ids (h ++ h0 ++ [e]) /\ e_op e = insert_op c m st z s /\ sv_id s = id /\
    answer_of (after (h ++ h0)) e = Some (AInsert (Ok id)) /\ id ∈ attempt_ids (take k l) /\
    (forall id', id' ∈ inserted_ids (h0 ++ [e]) -> id' ∈ inserted_ids (attempt_events (insert_op c m st z) (take k l))) /\
    forall id', id' ∈ attempt_ids (take k l) -> id' <> id -> id' ∉ inserted_ids (h ++ h0 ++ [e]).
Proof.
  intros Hlen n l. revert n. induction l as [|a l IH]; intros n h id d' k H Hf Hr; [done|].
  destruct k as [|k]; [apply call_spec in H as ([H _] & _); lia|]. cbn [take] in *.
  apply Forall_cons in Hr as [Hra Hr]. rewrite attempt_events_cons in Hf. cbn [call_from] in H.
  destruct a as [e|c0|s].
  - cbn [attempt_run] in H. cbn [outcome] in H. destruct (is_ephemeral (CHttp e)); [|done]. destruct n as [|n]; [done|].
    destruct (call_from _ n (after h) l) as [[[r0 d0] k0]|] eqn:Ec; [|done]. injection H as -> -> ->. cbn [app] in Hf.
    exact (IH n h id d' k Ec Hf Hr).
  - cbn [attempt_run] in H. cbn [outcome] in H. destruct ((400 <=? c0) && (c0 <? 600)); [|done].
    destruct (is_ephemeral (CStatus c0)); [|done]. destruct n as [|n]; [done|].
    destruct (call_from _ n (after h) l) as [[[r0 d0] k0]|] eqn:Ec; [|done]. injection H as -> -> ->. cbn [app] in Hf.
    exact (IH n h id d' k Ec Hf Hr).
  - destruct (insert_attempt c m st z s (after h) Hra) as (r & Ha & E). rewrite E in H. rewrite insert_outcome in H by eauto.
    rewrite run_after in *. set (e := Event (insert_op c m st z s) (sv_faults s) (sv_crash s)) in *.
    assert (Hfe : fresh_ids ((h ++ sv_others s) ++ [e])).
    { rewrite !app_assoc in Hf. by eapply fresh_prefix. }
    destruct (match r with Ok _ => true | _ => false end) eqn:Eok.
    + destruct r as [id0|er|]; [|done..]. destruct (accepted_known (h ++ sv_others s) e (sv_id s) _ _ _ _ _ _ _ Hfe eq_refl ltac:(by eexists)) as [Hk _].
      rewrite Hk in Ha. injection Ha as <-. injection H as <- <- <-. exists (sv_others s), e, s.
      rewrite app_assoc. split; [by rewrite <- after_snoc|]. split; [done|]. split; [done|]. split; [done|]. split; [done|].
      cbn [take attempt_ids omap list_omap]. rewrite take_0. split; [left|]. split.
      * intros id' Hid. rewrite attempt_events_cons. unfold inserted_ids in *. rewrite !omap_app in *. apply elem_of_app. by left.
      * intros id' Hid Hne. apply elem_of_list_singleton in Hid. congruence.
    + assert (E0 : after ((h ++ sv_others s) ++ [e]) = after (h ++ sv_others s)).
      { apply (insert_refused _ e (sv_id s) _ _ _ _ _ _ _ r Hfe eq_refl); [lia|done|by destruct r]. }
      assert (E1 : match r with Ok id => inr (BId id) | Err _ | Panicked => inl (CStatus 500) end = (inl (CStatus 500) : client_err + body)) by (by destruct r).
      rewrite E1 in H.
      cbn [is_ephemeral] in H. change ((500 <=? 500) && (500 <? 600)) with true in H. destruct n as [|n]; [done|].
      rewrite <- after_snoc, E0 in H.
      destruct (call_from _ n (after (h ++ sv_others s)) l) as [[[r0 d0] k0]|] eqn:Ec; [|done]. injection H as -> -> ->.
      assert (Hf' : fresh_ids ((h ++ sv_others s) ++ attempt_events (insert_op c m st z) (take k l))).
      { apply (fresh_drop _ e). rewrite <- !app_assoc in *. exact Hf. }
      destruct (IH n (h ++ sv_others s) id d' k Ec Hf' Hr) as (h0 & e0 & s0 & H1 & H2 & H3 & H4 & H5 & H6 & H8 & H7).
      exists (sv_others s ++ h0), e0, s0. rewrite <- !app_assoc in *. split; [done|]. split; [done|]. split; [done|]. split; [done|]. split; [done|].
      cbn [attempt_ids omap list_omap]. split; [by right|]. split.
      { intros id' Hid. rewrite attempt_events_cons. unfold inserted_ids in *. rewrite !omap_app in *. rewrite !elem_of_app in *.
        destruct Hid as [Hid|Hid]; [by left; left|]. right. apply H8. by apply elem_of_app. }
      intros id' [->|Hid]%elem_of_cons Hne; [|by apply H7].
      (* the id drawn for this attempt occurs nowhere else *)
      intros Hin. unfold inserted_ids in Hin. rewrite app_assoc, omap_app, elem_of_app in Hin.
      assert (Hnot : forall h1 h2, fresh_ids (h1 ++ [e] ++ h2) -> sv_id s ∉ inserted_ids h1 /\ sv_id s ∉ inserted_ids h2).
      { clear. intros h1 h2. unfold fresh_ids, inserted_ids. rewrite !omap_app, !NoDup_app. intros (_ & H1 & _ & H2 & _).
        split; [intros Hx; apply (H1 _ Hx); rewrite elem_of_app; left; left|apply H2; left]. }
      destruct (Hnot (h ++ sv_others s) (attempt_events (insert_op c m st z) (take k l))) as [N1 N2]; [rewrite <- !app_assoc in *; exact Hf|].
      destruct Hin as [Hin|Hin]; [by apply N1|]. by apply N2, H8.
Qed.

(** *** Cancel *)
Lemma cancel_faults d fs id n1 n2 :
  (exists e, fst (exec (cancel_submission id n1 n2) d fs) = Err (EDb e)) \/
  exec (cancel_submission id n1 n2) d fs = exec (cancel_submission id n1 n2) d [].
Proof.
  unfold cancel_submission. match goal with |- context[transaction ?b] => pose proof (exec_tx_faults b d fs (good_cancel_body id n1 n2)) as [-> | ->] end; [left; eauto|by right].
Qed.
Lemma cancel_call id : forall n l h r d' k,
  call_from (PCancel id) n (after h) l = Some (r, d', k) -> Forall replied (take k l) ->
  fresh_ids (h ++ others (take k l)) -> clocks_ok (h ++ others (take k l)) ->
  let h1 := h ++ others (take k l) in
  match r with
  | inr _ => (exists st, reports (after h1) id (InProgress st)) /\ exists n1 n2, d' = after (h1 ++ [quiet (OCancel id n1 n2)])
  | inl (CNotCancellable st) => reports (after h1) id st /\ terminal st /\ d' = after h1
  | inl (CNotFound id') => id' = id /\ unknown (after h1) id /\ d' = after h1
  | inl (CUnexpected _) | inl (CHttp _) => True
  | inl _ => False
  end.
Proof.
  intros n l. revert n. induction l as [|a l IH]; intros n h r d' k H Hr Hf Hk; [done|].
  destruct k as [|k]; [apply call_spec in H as ([H _] & _); lia|]. cbn [take] in *.
  apply Forall_cons in Hr as [Hra Hr]. cbn [call_from] in H. destruct a as [e|c0|s].
  - change (others (NotServed e :: take k l)) with (others (take k l)) in *. cbn [attempt_run outcome] in H.
    destruct (is_ephemeral (CHttp e)); [|by injection H as <- <- <-]. destruct n as [|n]; [by injection H as <- <- <-|].
    destruct (call_from _ n (after h) l) as [[[r0 d0] k0]|] eqn:Ec; [|done]. injection H as -> -> ->. exact (IH n h r d' k Ec Hr Hf Hk).
  - change (others (Intercepted c0 :: take k l)) with (others (take k l)) in *. cbn [attempt_run outcome] in H.
    simpl in Hra. rewrite (proj2 (N.eqb_neq c0 200) Hra) in H.
    destruct ((c0 =? 404) || (c0 =? 409)); [|by injection H as <- <- <-].
    destruct (is_ephemeral (CHttp NDecode)); [|by injection H as <- <- <-]. destruct n as [|n]; [by injection H as <- <- <-|].
    destruct (call_from _ n (after h) l) as [[[r0 d0] k0]|] eqn:Ec; [|done]. injection H as -> -> ->. exact (IH n h r d' k Ec Hr Hf Hk).
  - destruct Hra as (Hc & Hl & Hb). cbn [attempt_run] in H. rewrite Hc, Hl, Hb, run_after in H. cbn [outcome] in H.
    set (h0 := h ++ sv_others s) in *.
    destruct (exec (handle (sv_max s) (sv_id s) (sv_otel s) (sv_n1 s) (sv_n2 s) (PCancel id)) (after h0) (sv_faults s)) as [rr dd] eqn:Ex.
    cbn [fst snd] in H.
    assert (Hend : match cancel_outcome rr None with inr b => Some (inr b, dd, 1%nat) | inl e => if is_ephemeral e then match n with O => Some (inl e, dd, 1%nat) | S n => (fun '(r, d, k) => (r, d, S k)) <$> call_from (PCancel id) n dd l end else Some (inl e, dd, 1%nat) end
      = Some (cancel_outcome rr None, dd, 1%nat)) by (by destruct rr).
    rewrite Hend in H. injection H as <- <- <-. cbn [take] in *. rewrite take_0 in *.
    change (others [Served s]) with (sv_others s ++ []) in *. rewrite app_nil_r in *. fold h0 in Hf, Hk |- *.
    assert (Ex' : exec (handle (sv_max s) (sv_id s) (sv_otel s) (sv_n1 s) (sv_n2 s) (PCancel id)) (after h0) (sv_faults s) =
      (cancel_response (fst (exec (cancel_submission id (sv_n1 s) (sv_n2 s)) (after h0) (sv_faults s))),
       snd (exec (cancel_submission id (sv_n1 s) (sv_n2 s)) (after h0) (sv_faults s)))) by (simpl handle; by rewrite exec_map).
    rewrite Ex' in Ex. destruct (cancel_faults (after h0) (sv_faults s) id (sv_n1 s) (sv_n2 s)) as [(e & Ee)|Ee].
    + rewrite Ee in Ex. injection Ex as <- <-. done.
    + rewrite Ee in Ex. assert (Eq : exec (handle (sv_max s) id (sv_otel s) (sv_n1 s) (sv_n2 s) (PCancel id)) (after h0) [] = (rr, dd)).
      { simpl handle. rewrite exec_map. exact Ex. }
      destruct (cancel_table h0 (PCancel id) id (sv_otel s) (sv_n1 s) (sv_n2 s) (sv_max s) Hf Hk eq_refl) as (T1 & T2 & T3 & T4 & T5 & T6).
      rewrite Eq in T1, T2, T3, T4, T5, T6. cbn [fst snd] in *. destruct T4 as [->|[->|[st ->]]]; cbn.
      * split; [by apply T1|]. eauto.
      * split; [done|]. split; [by apply T2|]. by apply T5.
      * destruct (proj1 (T3 st) eq_refl) as [H1 H2]. split; [done|]. split; [done|]. by apply T5.
Qed.

Lemma call_pending q : forall n d l, call_from q n d l = None ->
  (length l <= n)%nat /\ Forall (transient q) (exchanges q d l).
Proof.
  intros n d l. revert n d. induction l as [|a l IH]; intros n d H; [split; [simpl; lia|by apply Forall_nil]|].
  cbn [call_from] in H. cbn [exchanges]. destruct (attempt_run q d a) as [d1 x] eqn:Ea. cbn [fst snd].
  destruct (outcome q x) as [e|b] eqn:Eo; [|done]. destruct (is_ephemeral e) eqn:Ee; [|done]. destruct n as [|n]; [done|].
  destruct (call_from q n d1 l) as [[[]]|] eqn:Ec; [done|]. apply IH in Ec as [? ?]. split; [simpl; lia|].
  apply Forall_cons. split; [|done]. apply transient_spec. by exists e.
Qed.
