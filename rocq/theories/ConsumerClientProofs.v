(** Proofs about heartbeats and nonces. *)
From Verif Require Export ConsumerClient.
Local Open Scope N_scope.

(** *** Heartbeats *)
Lemma beats_app m l1 l2 : beats m (l1 ++ l2) = foldl (beat_step m) (beats m l1) l2.
Proof. apply foldl_app. Qed.
Lemma beats_none m l : foldl (beat_step m) None l = None.
Proof. by induction l. Qed.
Lemma beats_ticks m n k : foldl (beat_step m) (Some n) (replicate k Tick) = if N.of_nat k + n <=? m + 1 then Some (n + N.of_nat k) else if n <=? m + 1 then None else if bool_decide (k = 0%nat) then Some n else None.
Proof.
  revert n. induction k as [|k IH]; intros n.
  - simpl. destruct (N.leb_spec (0 + n) (m + 1)); [f_equal; lia|]. destruct (N.leb_spec n (m + 1)); [lia|done].
  - cbn [replicate foldl beat_step]. destruct (N.ltb_spec m n).
    + rewrite beats_none. destruct (N.leb_spec (N.of_nat (S k) + n) (m + 1)); [lia|]. by destruct (n <=? m + 1).
    + rewrite IH. destruct (N.leb_spec (N.of_nat k + (n + 1)) (m + 1)), (N.leb_spec (N.of_nat (S k) + n) (m + 1)); try lia; [f_equal; lia|].
      destruct (N.leb_spec (n + 1) (m + 1)), (N.leb_spec n (m + 1)); try lia; done.
Qed.
(** The counter: the ticks since the last message. *)
Fixpoint trailing (acc : N) (l : list beat) : N :=
  match l with [] => acc | Tick :: l => trailing (acc + 1) l | Message :: l => trailing 0 l end.
Lemma beats_state m l : forall n v, foldl (beat_step m) (Some n) l = Some v -> v = trailing n l.
Proof.
  induction l as [|b l IH]; intros n v H; [by injection H as ->|]. destruct b; cbn in H.
  - destruct (m <? n); [by rewrite beats_none in H|]. by apply IH.
  - by apply IH.
Qed.
Lemma beats_closed_iff m l : beats m l = None <-> exists l1 l2, l = l1 ++ replicate (N.to_nat (m + 2)) Tick ++ l2.
Proof.
  split.
  - intros H. destruct (decide (is_Some (beats m l))) as [[? E]|Hn]; [congruence|].
    unfold beats in H.
    assert (G : forall n, n <= m + 1 -> foldl (beat_step m) (Some n) l = None ->
      (exists l2, l = replicate (N.to_nat (m + 2 - n)) Tick ++ l2) \/ exists l1 l2, l = l1 ++ replicate (N.to_nat (m + 2)) Tick ++ l2).
    { clear. induction l as [|b l IH]; intros n Hn H; [done|]. destruct b; cbn in H.
      - destruct (N.ltb_spec m n) as [Hlt|Hge].
        + left. exists l. replace (m + 2 - n) with 1 by lia. done.
        + destruct (IH (n + 1) ltac:(lia) H) as [[l2 ->]|(l1 & l2 & ->)].
          * left. exists l2. replace (N.to_nat (m + 2 - n)) with (S (N.to_nat (m + 2 - (n + 1)))) by lia. done.
          * right. by exists (Tick :: l1), l2.
      - destruct (IH 0 ltac:(lia) H) as [[l2 ->]|(l1 & l2 & ->)]; right.
        + exists [Message], l2. by rewrite N.sub_0_r.
        + by exists (Message :: l1), l2. }
    destruct (G 0 ltac:(lia) H) as [[l2 ->]|?]; [|done]. exists [], l2. by rewrite N.sub_0_r.
  - intros (l1 & l2 & ->). rewrite beats_app, foldl_app. destruct (beats m l1) as [n|] eqn:E; [|by rewrite !beats_none].
    rewrite beats_ticks. destruct (N.leb_spec (N.of_nat (N.to_nat (m + 2)) + n) (m + 1)); [lia|].
    destruct (n <=? m + 1); [by rewrite beats_none|]. rewrite bool_decide_eq_false_2 by lia. by rewrite beats_none.
Qed.
(** Timed: the end of the connection, [d] being the end if no further message comes. *)
Fixpoint lasts_until (m p d : N) (ts : list N) : N :=
  match ts with [] => d | t :: ts => if t <? d then lasts_until m p (t + (m + 2) * p) ts else d end.
Lemma closes_lasts m p : forall fuel ts next missed T, missed <= m + 1 -> closes_at m p next missed ts fuel = Some T ->
  T = lasts_until m p (next + (m + 1 - missed) * p) ts.
Proof.
  induction fuel as [|fuel IH]; intros ts next missed T Hm H; [done|]. cbn [closes_at] in H. destruct ts as [|t ts].
  - cbn [lasts_until]. destruct (N.ltb_spec m missed).
    + injection H as <-. replace (m + 1 - missed) with 0 by lia. lia.
    + apply IH in H; [|lia]. cbn [lasts_until] in H. rewrite H. replace (m + 1 - missed) with (m + 1 - (missed + 1) + 1) by lia. lia.
  - cbn [lasts_until]. destruct (N.ltb_spec t next) as [Ht|Ht].
    + apply IH in H; [|lia]. rewrite (proj2 (N.ltb_lt t (next + _))) by (eapply N.lt_le_trans; [exact Ht|apply N.le_add_r]).
      rewrite H. f_equal. rewrite N.sub_0_r. lia.
    + destruct (N.ltb_spec m missed).
      * injection H as <-. replace (m + 1 - missed) with 0 by lia. rewrite N.mul_0_l, N.add_0_r. by rewrite (proj2 (N.ltb_ge t next)) by lia.
      * apply IH in H; [|lia]. cbn [lasts_until] in H. rewrite H.
        replace (next + p + (m + 1 - (missed + 1)) * p) with (next + (m + 1 - missed) * p); [done|].
        replace (m + 1 - missed) with (m + 1 - (missed + 1) + 1) by lia. lia.
Qed.
Lemma closes_enough m p : forall ts next missed, missed <= m + 1 -> exists fuel T, closes_at m p next missed ts fuel = Some T.
Proof.
  assert (G : forall ts, (forall t rest, ts = t :: rest -> forall next missed, missed <= m + 1 -> exists fuel T, closes_at m p next missed rest fuel = Some T) ->
    forall k next missed, missed <= m + 1 -> N.of_nat k = m + 1 - missed -> exists fuel T, closes_at m p next missed ts fuel = Some T).
  { intros ts Hts k. induction k as [|k IH]; intros next missed Hm Hk.
    - destruct ts as [|t ts].
      + exists 1%nat, next. cbn. by rewrite (proj2 (N.ltb_lt m missed)) by lia.
      + destruct (N.ltb_spec t next) as [Ht|Ht].
        * destruct (Hts t ts eq_refl (t + p) 0 ltac:(lia)) as (f & T & E). exists (S f), T. cbn [closes_at]. by rewrite (proj2 (N.ltb_lt t next)) by lia.
        * exists 1%nat, next. cbn. rewrite (proj2 (N.ltb_ge t next)) by lia. by rewrite (proj2 (N.ltb_lt m missed)) by lia.
    - destruct (IH (next + p) (missed + 1) ltac:(lia) ltac:(lia)) as (f & T & E).
      destruct ts as [|t ts]; [exists (S f), T; cbn [closes_at]; by rewrite (proj2 (N.ltb_ge m missed)) by lia|].
      destruct (N.ltb_spec t next) as [Ht|Ht].
      + destruct (Hts t ts eq_refl (t + p) 0 ltac:(lia)) as (f' & T' & E'). exists (S f'), T'. cbn [closes_at]. by rewrite (proj2 (N.ltb_lt t next)) by lia.
      + exists (S f), T. cbn [closes_at]. rewrite (proj2 (N.ltb_ge t next)) by lia. by rewrite (proj2 (N.ltb_ge m missed)) by lia. }
  induction ts as [|t ts IH]; intros next missed Hm; apply (G _) with (k := N.to_nat (m + 1 - missed)); try lia; [by intros|].
  intros ? ? [= <- <-]. exact IH.
Qed.
Lemma lasts_spec m p : forall ts d, exists heard rest, ts = heard ++ rest /\
  lasts_until m p d ts = match last heard with Some t => t + (m + 2) * p | None => d end /\
  (forall t, head heard = Some t -> t < d) /\
  (forall i t t', heard !! i = Some t -> heard !! S i = Some t' -> t' < t + (m + 2) * p) /\
  (forall t, head rest = Some t -> lasts_until m p d ts <= t).
Proof.
  induction ts as [|t ts IH]; intros d; [exists [], []; by split_and!|]. cbn [lasts_until]. destruct (N.ltb_spec t d) as [Ht|Ht].
  - destruct (IH (t + (m + 2) * p)) as (heard & rest & -> & H1 & H2 & H3 & H4). exists (t :: heard), rest. split; [done|]. split.
    + rewrite H1. destruct heard; [done|]. rewrite last_cons_cons. destruct (last (n :: heard)) eqn:E; [done|]. by apply last_None in E.
    + split; [by intros ? [= <-]|]. split; [|done]. intros [|i] t1 t2 E1 E2; [|by apply (H3 i)]. injection E1 as <-.
      apply H2. by destruct heard.
  - exists [], (t :: ts). split_and!; try done. by intros ? [= <-].
Qed.

(** *** Nonces *)
Record cinv (l : list cstep) (c : client) (es : list effect) : Prop := CInv {
  ci_below : cl_task c <> Clearing -> forall n k, cl_map c !! n = Some k -> n < cl_counter c;
  ci_nodup : cl_task c = Running -> NoDup (omap nonce_sent es);
  ci_sent : cl_task c = Running -> forall e n, e ∈ es -> nonce_sent e = Some n -> n < cl_counter c;
  ci_map : forall n k, cl_map c !! n = Some k -> k < cl_callers c /\ (Requested k n ∈ es \/ k ∈ cl_gone c) /\ (k ∉ cl_gone c -> forall e, e ∈ es -> ~ returned k e);
  ci_inj : forall n n' k, cl_map c !! n = Some k -> cl_map c !! n' = Some k -> n = n';
  ci_req : forall k n, Requested k n ∈ es -> k < cl_callers c;
  ci_once : forall k n n', Requested k n ∈ es -> Requested k n' ∈ es -> n = n';
  ci_ret : forall k e, e ∈ es -> returned k e -> k < cl_callers c;
  ci_gone : forall k, k ∈ cl_gone c -> k < cl_callers c /\ (GiveUp k ∈ l \/ CallFailed k ∈ es);
  ci_fate : forall k n, Requested k n ∈ es -> cl_map c !! n = Some k \/ (exists e, e ∈ es /\ returned k e) \/ k ∈ cl_gone c;
  ci_resp : cl_task c = Running -> forall k n, Requested k n ∈ es -> cl_map c !! n = Some k \/ exists a, Respond n a ∈ l }.
Lemma cinv_new : cinv [] client_new [].
Proof.
  split; intros; simpl in *; repeat match goal with
    | H : _ ∈ [] |- _ => by apply elem_of_nil in H
    | H : ∅ !! _ = Some _ |- _ => by rewrite lookup_empty in H
    | H : _ ∈ ∅ |- _ => by apply elem_of_empty in H end. apply NoDup_nil_2.
Qed.
Lemma elem_give_back n l e : e ∈ give_back n l -> exists n' c, e = GaveBack n' c /\ n <= n' < n + N.of_nat (length l).
Proof.
  revert n. induction l as [|c l IH]; intros n H; [by apply elem_of_nil in H|]. cbn [give_back length] in *. apply elem_of_cons in H as [->|H].
  - exists n, c. split; [done|]. lia.
  - destruct (IH _ H) as (n' & c' & -> & ?). exists n', c'. split; [done|]. lia.
Qed.
Lemma give_back_nodup n l : NoDup (omap nonce_sent (give_back n l)).
Proof.
  revert n. induction l as [|c l IH]; intros n; [apply NoDup_nil_2|]. cbn. apply NoDup_cons. split; [|apply IH].
  intros (e & He & E)%elem_of_list_omap. apply elem_give_back in He as (n' & c' & -> & ?). injection E as ->. lia.
Qed.
Lemma client_run_snoc c l s : client_run c (l ++ [s]) =
  let '(c1, e1) := client_run c l in let '(c2, e2) := client_step c1 s in (c2, e1 ++ e2).
Proof.
  revert c. induction l as [|s' l IH]; intros c.
  - cbn. destruct (client_step c s) as [c2 e2]. by rewrite app_nil_r.
  - cbn. destruct (client_step c s') as [c1 e1]. rewrite IH. destruct (client_run c1 l) as [c2 e2]. destruct (client_step c2 s) as [c3 e3]. by rewrite app_assoc.
Qed.
Lemma effects_snoc l s : effects (l ++ [s]) = effects l ++ then_does l s.
Proof.
  unfold effects, then_does. rewrite client_run_snoc. destruct (client_run client_new l) as [c1 e1]. simpl. by destruct (client_step c1 s).
Qed.
Lemma state_snoc l s : fst (client_run client_new (l ++ [s])) = fst (client_step (fst (client_run client_new l)) s).
Proof. rewrite client_run_snoc. destruct (client_run client_new l) as [c1 e1]. simpl. by destruct (client_step c1 s). Qed.
Lemma cinv_mono l s c es : cinv l c es -> cinv (l ++ [s]) c es.
Proof.
  intros [I1 I2 I3 I4 I5 I6 I7 I8 I9 I10 I11]. split; try assumption.
  - intros k Hk. destruct (I9 k Hk) as [? [?|?]]; (split; [done|]); [left; apply elem_of_app; by left|by right].
  - intros Ht k n H. destruct (I11 Ht k n H) as [?|[a ?]]; [by left|]. right. exists a. apply elem_of_app. by left.
Qed.
Lemma returned_eq k k' n a : returned k (Answered k' n a) -> k = k'.
Proof. intros [(? & ? & E)|E]; [by injection E|done]. Qed.
Lemma returned_failed k k' : returned k (CallFailed k') -> k = k'.
Proof. intros [(? & ? & E)|E]; [done|by injection E]. Qed.
Ltac unret := repeat match goal with
  | H : _ ∈ _ ++ _ |- _ => apply elem_of_app in H as [H|H]
  | H : _ ∈ [_] |- _ => apply elem_of_list_singleton in H
  | H : _ ∈ [] |- _ => by apply elem_of_nil in H
  | H : Requested _ _ = Requested _ _ |- _ => injection H; clear H; intros; subst
  | H : Requested _ _ = _ |- _ => discriminate H
  | H : returned _ (Requested _ _) |- _ => destruct H as [(? & ? & H)|H]; discriminate H
  | H : returned _ (Notified _) |- _ => destruct H as [(? & ? & H)|H]; discriminate H
  | H : returned _ (GaveBack _ _) |- _ => destruct H as [(? & ? & H)|H]; discriminate H
  | H : returned _ TaskPanicked |- _ => destruct H as [(? & ? & H)|H]; discriminate H
  | H : returned _ (Answered _ _ _) |- _ => apply returned_eq in H; subst
  | H : returned _ (CallFailed _) |- _ => apply returned_failed in H; subst
  end.
Lemma in_l {A} (x : A) l1 l2 : x ∈ l1 -> x ∈ l1 ++ l2.
Proof. intros. apply elem_of_app. by left. Qed.
Lemma in_r {A} (x : A) l1 l2 : x ∈ l2 -> x ∈ l1 ++ l2.
Proof. intros. apply elem_of_app. by right. Qed.
Lemma nodup_nonces es e n : NoDup (omap nonce_sent es) -> (forall e n', e ∈ es -> nonce_sent e = Some n' -> n' < n) -> nonce_sent e = Some n ->
  NoDup (omap nonce_sent (es ++ [e])).
Proof.
  intros Hd Hb He. rewrite omap_app. simpl. rewrite He. apply NoDup_app. split; [done|]. split; [|apply NoDup_singleton].
  intros x (e' & He' & E)%elem_of_list_omap. intros ->%elem_of_list_singleton. specialize (Hb _ _ He' E). lia.
Qed.
Lemma nodup_no_nonce es e : NoDup (omap nonce_sent es) -> nonce_sent e = None -> NoDup (omap nonce_sent (es ++ [e])).
Proof. intros Hd He. rewrite omap_app. simpl. rewrite He. by rewrite app_nil_r. Qed.

Lemma cinv_request l c es sent : cinv l c es -> let '(c', e) := client_step c (Request sent) in cinv (l ++ [Request sent]) c' (es ++ e).
Proof.
  intros I. cbn [client_step]. case_bool_decide as Ht; [rewrite app_nil_r; by apply cinv_mono|].
  apply (cinv_mono _ (Request sent)) in I. destruct I as [I1 I2 I3 I4 I5 I6 I7 I8 I9 I10 I11]. specialize (I1 Ht).
  assert (Hfresh : forall n, cl_map c !! n = Some (cl_callers c) -> False).
  { intros n H. apply I4 in H. lia. }
  destruct sent; split; cbn [cl_counter cl_map cl_callers cl_gone cl_task].
  - intros _ n k H. apply lookup_insert_Some in H as [[<- <-]|[? H]]; [lia|]. apply I1 in H. lia.
  - intros Hr. apply (nodup_nonces _ _ (cl_counter c)); [by apply I2|by apply I3|done].
  - intros Hr e n He E. unret; [specialize (I3 Hr _ _ He E); lia|]. subst e. injection E as ->. lia.
  - intros n k H. apply lookup_insert_Some in H as [[<- <-]|[? H]].
    + split; [lia|]. split; [left; apply in_r, elem_of_list_singleton; done|]. intros _ e He Hret. unret; [|subst e; unret].
      specialize (I8 _ _ He Hret). lia.
    + destruct (I4 _ _ H) as (H1 & H2 & H3). split; [lia|]. split; [destruct H2; [left; by apply in_l|by right]|].
      intros Hg e He Hret. unret; [by eapply H3|]. subst e. unret.
  - intros n n' k H H'. apply lookup_insert_Some in H as [[<- <-]|[? H]]; apply lookup_insert_Some in H' as [[<- E]|[? H']]; subst; try done.
    + by apply Hfresh in H'.
    + by apply Hfresh in H.
    + by eapply I5.
  - intros k n H. unret; [apply I6 in H|]; lia.
  - intros k n n' H H'. unret; try done; repeat match goal with H : Requested _ _ ∈ es |- _ => pose proof (I6 _ _ H); revert H end; intros; try lia. by eapply I7.
  - intros k e He Hret. unret; [specialize (I8 _ _ He Hret); lia|]. subst e. unret.
  - intros k Hk. destruct (I9 k Hk) as [? [?|?]]; (split; [lia|]); [by left|right; by apply in_l].
  - intros k n H. unret.
    + destruct (I10 k n H) as [Hm|[(e & He & Hret)|Hg]].
      * left. rewrite lookup_insert_ne; [done|]. apply I1 in Hm. lia.
      * right. left. exists e. split; [by apply in_l|done].
      * by repeat right.
    + left. by rewrite lookup_insert.
  - intros Hr k n H. unret.
    + destruct (I11 Hr k n H) as [Hm|[a Ha]]; [left|right; by exists a]. rewrite lookup_insert_ne; [done|]. apply I1 in Hm. lia.
    + left. by rewrite lookup_insert.
  - intros _ n k H. apply lookup_insert_Some in H as [[<- <-]|[? H]]; [lia|]. apply I1 in H. lia.
  - intros Hr. apply nodup_no_nonce; [by apply I2|done].
  - intros Hr e n He E. unret; [specialize (I3 Hr _ _ He E); lia|]. subst e. discriminate E.
  - intros n k H. apply lookup_insert_Some in H as [[<- <-]|[? H]].
    + split; [lia|]. split; [right; set_solver|]. set_solver.
    + destruct (I4 _ _ H) as (H1 & H2 & H3). split; [lia|]. split; [destruct H2; [left; by apply in_l|right; set_solver]|].
      intros Hg e He Hret. unret; [eapply H3; [set_solver|done..]|]. subst e. unret. set_solver.
  - intros n n' k H H'. apply lookup_insert_Some in H as [[<- <-]|[? H]]; apply lookup_insert_Some in H' as [[<- E]|[? H']]; subst; try done.
    + by apply Hfresh in H'.
    + by apply Hfresh in H.
    + by eapply I5.
  - intros k n H. unret. apply I6 in H. lia.
  - intros k n n' H H'. unret. by eapply I7.
  - intros k e He Hret. unret; [specialize (I8 _ _ He Hret); lia|]. subst e. unret. lia.
  - intros k Hk. apply elem_of_union in Hk as [->%elem_of_singleton|Hk].
    + split; [lia|]. right. by apply in_r, elem_of_list_singleton.
    + destruct (I9 k Hk) as [? [?|?]]; (split; [lia|]); [by left|right; by apply in_l].
  - intros k n H. unret. destruct (I10 k n H) as [Hm|[(e & He & Hret)|Hg]].
    + left. rewrite lookup_insert_ne; [done|]. apply I1 in Hm. lia.
    + right. left. exists e. split; [by apply in_l|done].
    + right. right. set_solver.
  - intros Hr k n H. unret. destruct (I11 Hr k n H) as [Hm|[a Ha]]; [left|right; by exists a]. rewrite lookup_insert_ne; [done|]. apply I1 in Hm. lia.
Qed.
Lemma cinv_notify l c es : cinv l c es -> let '(c', e) := client_step c Notify in cinv (l ++ [Notify]) c' (es ++ e).
Proof.
  intros I. apply (cinv_mono _ Notify) in I. destruct I as [I1 I2 I3 I4 I5 I6 I7 I8 I9 I10 I11]. cbn [client_step].
  split; cbn [cl_counter cl_map cl_callers cl_gone cl_task].
  - intros Ht n k H. specialize (I1 Ht _ _ H). lia.
  - intros Hr. apply (nodup_nonces _ _ (cl_counter c)); [by apply I2|by apply I3|done].
  - intros Hr e n He E. unret; [specialize (I3 Hr _ _ He E); lia|]. subst e. injection E as ->. lia.
  - intros n k H. destruct (I4 _ _ H) as (H1 & H2 & H3). split; [done|]. split; [destruct H2; [left; by apply in_l|by right]|].
    intros Hg e He Hret. unret; [by eapply H3|]. subst e. unret.
  - done.
  - intros k n H. unret. by eapply I6.
  - intros k n n' H H'. unret. by eapply I7.
  - intros k e He Hret. unret; [by eapply I8|]. subst e. unret.
  - intros k Hk. destruct (I9 k Hk) as [? [?|?]]; (split; [lia|]); [by left|right; by apply in_l].
  - intros k n H. unret. destruct (I10 k n H) as [Hm|[(e & He & Hret)|Hg]]; [by left|right; left|by repeat right].
    exists e. split; [by apply in_l|done].
  - intros Hr k n H. unret. by apply I11.
Qed.
Lemma cinv_giveup l c es k0 : cinv l c es -> let '(c', e) := client_step c (GiveUp k0) in cinv (l ++ [GiveUp k0]) c' (es ++ e).
Proof.
  intros I. cbn [client_step]. destruct (N.ltb_spec k0 (cl_callers c)) as [Hk0|Hk0]; rewrite app_nil_r; [|by apply cinv_mono].
  apply (cinv_mono _ (GiveUp k0)) in I. destruct I as [I1 I2 I3 I4 I5 I6 I7 I8 I9 I10 I11].
  split; cbn [cl_counter cl_map cl_callers cl_gone cl_task]; try assumption.
  - intros n k H. destruct (I4 _ _ H) as (H1 & H2 & H3). split; [done|]. split; [destruct H2; [by left|right; set_solver]|].
    intros Hg. apply H3. set_solver.
  - intros k Hk. apply elem_of_union in Hk as [->%elem_of_singleton|Hk]; [|by apply I9].
    split; [done|]. left. by apply in_r, elem_of_list_singleton.
  - intros k n H. destruct (I10 k n H) as [Hm|[Hret|Hg]]; [by left|by (right; left)|right; right; set_solver].
Qed.
Lemma cinv_lose l c es : cinv l c es -> let '(c', e) := client_step c LoseBegin in cinv (l ++ [LoseBegin]) c' (es ++ e).
Proof.
  intros I. cbn [client_step]. case_bool_decide as Ht; rewrite app_nil_r; [|by apply cinv_mono].
  apply (cinv_mono _ LoseBegin) in I. destruct I as [I1 I2 I3 I4 I5 I6 I7 I8 I9 I10 I11].
  split; cbn [cl_counter cl_map cl_callers cl_gone cl_task]; done.
Qed.
Lemma elem_failed c e : e ∈ CallFailed <$> base.filter (fun k => k ∉ cl_gone c) (map_to_list (cl_map c)).*2 <->
  exists n k, e = CallFailed k /\ k ∉ cl_gone c /\ cl_map c !! n = Some k.
Proof.
  rewrite elem_of_list_fmap. split.
  - intros (k & -> & [Hg Hk]%elem_of_list_filter). apply elem_of_list_fmap in Hk as ([n k'] & -> & Hm%elem_of_map_to_list). by exists n, k'.
  - intros (n & k & -> & Hg & Hm). exists k. split; [done|]. apply elem_of_list_filter. split; [done|].
    apply elem_of_list_fmap. exists (n, k). split; [done|]. by apply elem_of_map_to_list.
Qed.
Lemma cinv_lost l c es : cinv l c es -> let '(c', e) := client_step c LoseEnd in cinv (l ++ [LoseEnd]) c' (es ++ e).
Proof.
  intros I. cbn [client_step]. case_bool_decide as Ht; [|rewrite app_nil_r; by apply cinv_mono].
  apply (cinv_mono _ LoseEnd) in I. destruct I as [I1 I2 I3 I4 I5 I6 I7 I8 I9 I10 I11].
  assert (Hno : forall k n, Requested k n ∉ CallFailed <$> base.filter (fun k => k ∉ cl_gone c) (map_to_list (cl_map c)).*2).
  { intros k n H. apply elem_failed in H as (? & ? & ? & _). done. }
  split; cbn [cl_counter cl_map cl_callers cl_gone cl_task]; try done.
  - intros k n H. apply elem_of_app in H as [H|H]; [by eapply I6|]. by apply Hno in H.
  - intros k n n' H H'. apply elem_of_app in H as [H|H]; [|by apply Hno in H]. apply elem_of_app in H' as [H'|H']; [|by apply Hno in H'].
    by eapply I7.
  - intros k e He Hret. apply elem_of_app in He as [He|He]; [by eapply I8|].
    apply elem_failed in He as (n & k' & -> & _ & Hm). unret. by apply I4 in Hm as [? _].
  - intros k Hk. destruct (I9 k Hk) as [? [?|?]]; (split; [lia|]); [by left|right; by apply in_l].
  - intros k n H. apply elem_of_app in H as [H|H]; [|by apply Hno in H].
    destruct (I10 k n H) as [Hm|[(e & He & Hret)|Hg]]; [|right; left|by repeat right].
    + destruct (decide (k ∈ cl_gone c)); [by repeat right|]. right. left. exists (CallFailed k). split; [|by right].
      apply in_r, elem_failed. by exists n, k.
    + exists e. split; [by apply in_l|done].
Qed.
Lemma cinv_respond l c es n0 a0 : cinv l c es -> let '(c', e) := client_step c (Respond n0 a0) in cinv (l ++ [Respond n0 a0]) c' (es ++ e).
Proof.
  intros I. cbn [client_step]. case_bool_decide as Ht; [|rewrite app_nil_r; by apply cinv_mono].
  apply (cinv_mono _ (Respond n0 a0)) in I. destruct I as [I1 I2 I3 I4 I5 I6 I7 I8 I9 I10 I11].
  assert (Hnc : cl_task c <> Clearing) by (by rewrite Ht). specialize (I1 Hnc). specialize (I2 Ht). specialize (I3 Ht). specialize (I11 Ht).
  destruct (cl_map c !! n0) as [k0|] eqn:E0.
  - case_bool_decide as Hg0.
    + assert (Hno : forall e k, e ∈ give_back (cl_counter c) (default [] a0) -> ~ returned k e /\ (forall n, e <> Requested k n)).
      { intros e k He. apply elem_give_back in He as (n' & c' & -> & _). split; [|done]. intros H. unret. }
      split; cbn [cl_counter cl_map cl_callers cl_gone cl_task].
      * intros _ n k H. apply lookup_delete_Some in H as [_ H]. apply I1 in H. lia.
      * intros _. rewrite omap_app. apply NoDup_app. split; [done|]. split; [|apply give_back_nodup].
        intros x (e & He & Ex)%elem_of_list_omap (e' & He' & Ex')%elem_of_list_omap. specialize (I3 _ _ He Ex).
        apply elem_give_back in He' as (? & ? & -> & ?). injection Ex' as ->. lia.
      * intros _ e n He E. apply elem_of_app in He as [He|He]; [specialize (I3 _ _ He E); lia|].
        apply elem_give_back in He as (? & ? & -> & ?). injection E as ->. lia.
      * intros n k H. apply lookup_delete_Some in H as [? H]. destruct (I4 _ _ H) as (H1 & H2 & H3). split; [done|].
        split; [destruct H2; [left; by apply in_l|by right]|]. intros Hg e He Hret. apply elem_of_app in He as [He|He]; [by eapply H3|].
        by destruct (Hno e k He).
      * intros n n' k H H'. apply lookup_delete_Some in H as [? H], H' as [? H']. by eapply I5.
      * intros k n H. apply elem_of_app in H as [H|H]; [by eapply I6|]. destruct (Hno _ k H) as [_ Hn]. by destruct (Hn n).
      * intros k n n' H H'. apply elem_of_app in H as [H|H]; [|destruct (Hno _ k H) as [_ Hn]; by destruct (Hn n)].
        apply elem_of_app in H' as [H'|H']; [|destruct (Hno _ k H') as [_ Hn]; by destruct (Hn n')]. by eapply I7.
      * intros k e He Hret. apply elem_of_app in He as [He|He]; [by eapply I8|]. by destruct (Hno e k He).
      * intros k Hk. destruct (I9 k Hk) as [? [?|?]]; (split; [lia|]); [by left|right; by apply in_l].
      * intros k n H. apply elem_of_app in H as [H|H]; [|destruct (Hno _ k H) as [_ Hn]; by destruct (Hn n)].
        destruct (I10 k n H) as [Hm|[(e & He & Hret)|Hg]]; [|right; left|by repeat right].
        -- destruct (decide (n = n0)) as [->|Hne]; [|left; by rewrite lookup_delete_ne]. rewrite E0 in Hm. injection Hm as <-. by repeat right.
        -- exists e. split; [by apply in_l|done].
      * intros _ k n H. apply elem_of_app in H as [H|H]; [|destruct (Hno _ k H) as [_ Hn]; by destruct (Hn n)].
        destruct (decide (n = n0)) as [->|Hne]; [right; exists a0; by apply in_r, elem_of_list_singleton|].
        destruct (I11 k n H) as [Hm|?]; [|by right]. left. by rewrite lookup_delete_ne.
    + split; cbn [cl_counter cl_map cl_callers cl_gone cl_task].
      * intros _ n k H. apply lookup_delete_Some in H as [_ H]. by apply I1 in H.
      * intros _. by apply nodup_no_nonce.
      * intros _ e n He E. unret; [by eapply I3|]. by subst e.
      * intros n k H. apply lookup_delete_Some in H as [Hne H]. destruct (I4 _ _ H) as (H1 & H2 & H3). split; [done|].
        split; [destruct H2; [left; by apply in_l|by right]|]. intros Hg e He Hret. unret; [by eapply H3|]. subst e. unret.
        apply Hne. by eapply I5.
      * intros n n' k H H'. apply lookup_delete_Some in H as [? H], H' as [? H']. by eapply I5.
      * intros k n H. unret. by eapply I6.
      * intros k n n' H H'. unret. by eapply I7.
      * intros k e He Hret. unret; [by eapply I8|]. subst e. unret. by apply I4 in E0 as [? _].
      * intros k Hk. destruct (I9 k Hk) as [? [?|?]]; (split; [lia|]); [by left|right; by apply in_l].
      * intros k n H. unret. destruct (I10 k n H) as [Hm|[(e & He & Hret)|Hg]]; [|right; left|by repeat right].
        -- destruct (decide (n = n0)) as [->|Hne]; [|left; by rewrite lookup_delete_ne]. rewrite E0 in Hm. injection Hm as <-.
           right. left. exists (Answered k0 n0 a0). split; [by apply in_r, elem_of_list_singleton|]. left. by eexists _, _.
        -- exists e. split; [by apply in_l|done].
      * intros _ k n H. unret. destruct (decide (n = n0)) as [->|Hne]; [right; exists a0; by apply in_r, elem_of_list_singleton|].
        destruct (I11 k n H) as [Hm|?]; [|by right]. left. by rewrite lookup_delete_ne.
  - split; cbn [cl_counter cl_map cl_callers cl_gone cl_task]; try done.
    + intros n k H. destruct (I4 _ _ H) as (H1 & H2 & H3). split; [done|]. split; [destruct H2; [left; by apply in_l|by right]|].
      intros Hg e He Hret. unret; [by eapply H3|]. subst e. unret.
    + intros k n H. unret. by eapply I6.
    + intros k n n' H H'. unret. by eapply I7.
    + intros k e He Hret. unret; [by eapply I8|]. subst e. unret.
    + intros k Hk. destruct (I9 k Hk) as [? [?|?]]; (split; [lia|]); [by left|right; by apply in_l].
    + intros k n H. unret. destruct (I10 k n H) as [Hm|[(e & He & Hret)|Hg]]; [by left|right; left|by repeat right].
      exists e. split; [by apply in_l|done].
Qed.
Lemma cinv_run l : cinv l (fst (client_run client_new l)) (effects l).
Proof.
  induction l as [|s l IH] using rev_ind; [apply cinv_new|]. rewrite effects_snoc, state_snoc. unfold then_does.
  assert (G : let '(c', e) := client_step (fst (client_run client_new l)) s in cinv (l ++ [s]) c' (effects l ++ e)).
  { destruct s; [by apply cinv_request|by apply cinv_notify|by apply cinv_respond|by apply cinv_giveup|by apply cinv_lose|by apply cinv_lost]. }
  by destruct (client_step (fst (client_run client_new l)) s).
Qed.

(** *** What callers see *)
Lemma effects_app_incl l1 l2 e : e ∈ effects l1 -> e ∈ effects (l1 ++ l2).
Proof.
  revert l1. induction l2 as [|s l2 IH]; intros l1 H; [by rewrite app_nil_r|]. rewrite cons_middle, app_assoc. apply IH.
  rewrite effects_snoc. by apply in_l.
Qed.
(** An answer comes from a response to the caller's own request, and is the caller's only one. *)
Lemma answered_by l s k n a : Answered k n a ∈ then_does l s ->
  s = Respond n a /\ Requested k n ∈ effects l /\ forall e, e ∈ effects l -> ~ returned k e.
Proof.
  pose proof (cinv_run l) as I. unfold then_does. set (c := fst (client_run client_new l)) in *. intros H.
  destruct s as [sent| |n0 a0|k0| |]; cbn [client_step] in H.
  - case_bool_decide; simpl in H; [by apply elem_of_nil in H|]. destruct sent; simpl in H; unret; discriminate H.
  - simpl in H. unret; discriminate H.
  - case_bool_decide; simpl in H; [|by apply elem_of_nil in H]. destruct (cl_map c !! n0) as [k0|] eqn:E; simpl in H; [|unret; discriminate H].
    case_bool_decide as Hg; simpl in H; [apply elem_give_back in H as (? & ? & ? & _); done|].
    unret. injection H as -> -> ->. split; [done|]. destruct (ci_map _ _ _ I _ _ E) as (_ & [?|?] & H3); [|done]. split; [done|]. by apply H3.
  - destruct (k0 <? cl_callers c); simpl in H; by apply elem_of_nil in H.
  - case_bool_decide; simpl in H; by apply elem_of_nil in H.
  - case_bool_decide; simpl in H; [|by apply elem_of_nil in H]. apply elem_failed in H as (? & ? & ? & _). done.
Qed.
Lemma waiting_mapped l k n : waiting_call l k n -> cl_map (fst (client_run client_new l)) !! n = Some k /\ k ∉ cl_gone (fst (client_run client_new l)).
Proof.
  intros (Hr & Hg & Hret). pose proof (cinv_run l) as I.
  assert (Hng : k ∉ cl_gone (fst (client_run client_new l))).
  { intros H. destruct (ci_gone _ _ _ I _ H) as [_ [?|Hf]]; [done|]. apply (Hret _ Hf). by right. }
  split; [|done]. destruct (ci_fate _ _ _ I _ _ Hr) as [?|[(e & He & Hre)|?]]; [done|by destruct (Hret _ He)|done].
Qed.
Lemma response_delivered l k n a : task_after l = Running -> waiting_call l k n -> then_does l (Respond n a) = [Answered k n a].
Proof.
  intros Ht Hw. destruct (waiting_mapped _ _ _ Hw) as [Hm Hg]. unfold then_does, task_after in *. cbn [client_step].
  rewrite bool_decide_eq_true_2 by done. rewrite Hm. by rewrite bool_decide_eq_false_2.
Qed.
Lemma response_given_back l k n cs : task_after l = Running -> Requested k n ∈ effects l -> (forall a, Respond n a ∉ l) ->
  (exists l1 l2, l = l1 ++ GiveUp k :: l2 /\ Requested k n ∈ effects l1) ->
  then_does l (Respond n (Some cs)) = give_back (cl_counter (fst (client_run client_new l))) cs.
Proof.
  intros Ht Hr Hno (l1 & l2 & E & Hr1). pose proof (cinv_run l) as I. unfold then_does, task_after in *. cbn [client_step].
  rewrite bool_decide_eq_true_2 by done. destruct (ci_resp _ _ _ I Ht _ _ Hr) as [Hm|[a Ha]]; [|by destruct (Hno a)].
  rewrite Hm. rewrite bool_decide_eq_true_2; [done|].
  assert (Hgone : forall l3 l4, k ∈ cl_gone (fst (client_run client_new l3)) -> k ∈ cl_gone (fst (client_run client_new (l3 ++ l4)))).
  { intros l3 l4. revert l3. induction l4 as [|s l4 IH]; intros l3 H; [by rewrite app_nil_r|]. rewrite cons_middle, app_assoc. apply IH.
    rewrite state_snoc. destruct s; cbn [client_step]; repeat case_match; simpl; set_solver. }
  rewrite E, cons_middle, app_assoc. apply Hgone. rewrite state_snoc. cbn [client_step].
  pose proof (ci_req _ _ _ (cinv_run l1) _ _ Hr1) as Hlt. apply N.ltb_lt in Hlt. rewrite Hlt. simpl. set_solver.
Qed.
Lemma pending_distinct l k k' n : waiting_call l k n -> waiting_call l k' n -> k = k'.
Proof. intros H H'. apply waiting_mapped in H as [H _], H' as [H' _]. rewrite H in H'. by injection H'. Qed.
Lemma no_panic l : proper_server l -> TaskPanicked ∉ effects l.
Proof.
  induction l as [|s l IH] using rev_ind; [by intros _ H%elem_of_nil|]. intros Hp. rewrite effects_snoc. intros [H|H]%elem_of_app.
  - revert H. apply IH. intros l1 n a l2 E. apply (Hp l1 n a (l2 ++ [s])). by rewrite E, <- app_assoc.
  - pose proof (cinv_run l) as I. unfold then_does in H. destruct s as [sent| |n0 a0|k0| |]; cbn [client_step] in H.
    + case_bool_decide; [by apply elem_of_nil in H|]. destruct sent; simpl in H; unret; discriminate H.
    + simpl in H. unret. discriminate H.
    + case_bool_decide as Ht; [|by apply elem_of_nil in H]. destruct (Hp l n0 a0 [] eq_refl) as [[k Hk] Hn].
      destruct (ci_resp _ _ _ I Ht _ _ Hk) as [Hm|[a Ha]]; [|by destruct (Hn a)]. rewrite Hm in H. case_bool_decide.
      * simpl in H. apply elem_give_back in H as (? & ? & ? & _). done.
      * simpl in H. unret. discriminate H.
    + case_match; by apply elem_of_nil in H.
    + case_bool_decide; by apply elem_of_nil in H.
    + case_bool_decide; [|by apply elem_of_nil in H]. simpl in H. apply elem_failed in H as (? & ? & ? & _). done.
Qed.
(** *** Loss of the connection *)
Lemma lost_fails l k n : task_after l = Clearing -> waiting_call l k n -> CallFailed k ∈ then_does l LoseEnd.
Proof.
  intros Ht Hw. destruct (waiting_mapped _ _ _ Hw) as [Hm Hg]. unfold then_does, task_after in *. cbn [client_step].
  rewrite bool_decide_eq_true_2 by done. simpl. apply elem_failed. by exists n, k.
Qed.
Lemma ended_forever l l' k : task_after l = Ended -> k < cl_callers (fst (client_run client_new l)) -> (forall e, e ∈ effects l -> ~ returned k e) ->
  forall e, e ∈ effects (l ++ l') -> ~ returned k e.
Proof.
  revert l. induction l' as [|s l' IH]; intros l Ht Hk Hno; [by rewrite app_nil_r|]. rewrite cons_middle, app_assoc. apply IH.
  - unfold task_after in *. rewrite state_snoc. destruct s; cbn [client_step]; rewrite ?Ht; repeat case_match; simpl; try done.
  - rewrite state_snoc. unfold task_after in Ht. destruct s; cbn [client_step]; rewrite ?Ht; repeat case_match; simpl; lia.
  - intros e. rewrite effects_snoc. intros [He|He]%elem_of_app; [by apply Hno|]. unfold task_after in Ht. unfold then_does in He.
    destruct s as [sent| |n0 a0|k0| |]; cbn [client_step] in He.
    + rewrite bool_decide_eq_false_2 in He by (by rewrite Ht). destruct sent; cbn in He; unret; subst e; intros H; unret; lia.
    + cbn in He. unret. subst e. intros H. unret.
    + rewrite bool_decide_eq_false_2 in He by (by rewrite Ht). by apply elem_of_nil in He.
    + case_match; by apply elem_of_nil in He.
    + rewrite bool_decide_eq_false_2 in He by (by rewrite Ht). by apply elem_of_nil in He.
    + rewrite bool_decide_eq_false_2 in He by (by rewrite Ht). by apply elem_of_nil in He.
Qed.
