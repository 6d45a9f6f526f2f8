(** How long a finished submission is kept by the cleanup loop. *)
From Verif Require Export Retention AnswerProofs OpProofs.
Local Open Scope Z_scope.

Lemma cleanup_in h c e : e ∈ h -> e_op e = OCleanup c -> OCleanup c ∈ cleanups h.
Proof. intros He E. apply elem_of_list_omap. exists e. split; [done|]. unfold cleanup_of. by rewrite E. Qed.

(** Kept: as long as no round reads a clock beyond t + max_age. *)
Lemma loop_keeps h h' id st t max_age rs :
  fresh_ids (h ++ h') -> clocks_ok (h ++ h') -> reports (after h) id st -> finished_at st = Some t ->
  cleanups h' = round max_age <$> rs -> Forall (fun r => r <= t + max_age) rs ->
  reports (after (h ++ h')) id st.
Proof.
  intros Hf Hk Hst Ht Hc Hr. eapply terminal_kept; try done. apply Forall_forall. intros e He. destruct (e_op e) as [| | | | |c] eqn:E; try done.
  pose proof (cleanup_in _ _ _ He E) as Hin. rewrite Hc in Hin. apply elem_of_list_fmap in Hin as (r & [= ->] & Hin).
  rewrite Forall_forall in Hr. specialize (Hr _ Hin). lia.
Qed.

Lemma unknown_stays h h' id : fresh_ids (h ++ h') -> id ∈ inserted_ids h -> unknown (after h) id -> unknown (after (h ++ h')) id.
Proof.
  induction h' as [|e h' IH] using rev_ind; intros Hf Hin Hu; [by rewrite app_nil_r|]. rewrite app_assoc in *.
  apply unknown_step; [done| |]; [rewrite inserted_ids_app, elem_of_app; by left|]. apply IH; [by eapply fresh_prefix|done|done].
Qed.

(** Gone: a round that succeeds with a clock beyond t + max_age. *)
Lemma round_removes h e id st t max_age now :
  fresh_ids (h ++ [e]) -> clocks_ok (h ++ [e]) -> reports (after h) id st -> finished_at st = Some t ->
  e_op e = round max_age now -> t + max_age < now -> answer_of (after h) e = Some (ACleanup (Ok tt)) ->
  unknown (after (h ++ [e])) id.
Proof.
  intros Hf Hk Hst Ht Eo Hlt Ha. destruct e as [o fs k]. simpl in Eo. subst o. destruct k as [k|]; [done|].
  destruct (ok_whole (OCleanup (now - max_age)) (after h) fs (ACleanup (Ok tt))) as [E _]; [by intros ? []|done|done|done|].
  pose proof (cleanup_exact h (now - max_age) id st (fresh_prefix _ _ Hf) (clocks_ok_app _ _ Hk) Hst) as Hx. cbv zeta in Hx. rewrite Ht in Hx.
  destruct Hx as [_ Hx]. destruct Hx as [Hx _]; [lia|]. unfold unknown, after, run_from in *. rewrite fold_left_app in *. cbn [fold_left] in *.
  unfold round. fold (run_from db_empty h) in *. fold (after h) in *. by rewrite E.
Qed.

(** The first round beyond [x] comes soon. *)
Lemma rounds_reach lag costs start x : Forall (fun c => 0 <= c <= lag) costs -> start <= x + cleanup_interval + lag ->
  Exists (fun r => x < r) (rounds start costs) ->
  exists rs1 r rs2, rounds start costs = rs1 ++ r :: rs2 /\ Forall (fun r => r <= x) rs1 /\ x < r <= x + cleanup_interval + lag.
Proof.
  intros Hc. revert start. induction Hc as [|c costs Hc _ IH]; intros start Hs Hx; cbn [rounds] in *.
  - exists [], start, []. split; [done|]. split; [constructor|]. inversion Hx as [? ? H|? ? H]; subst; [lia|inversion H].
  - destruct (Z.lt_ge_cases x start) as [Hlt|Hge].
    + exists [], start, (rounds (start + c + cleanup_interval) costs). split; [done|]. split; [constructor|lia].
    + destruct (IH (start + c + cleanup_interval)) as (rs1 & r & rs2 & E & H1 & H2).
      * unfold cleanup_interval in *. lia.
      * inversion Hx as [? ? H|? ? H]; subst; [lia|done].
      * exists (start :: rs1), r, rs2. split; [by rewrite E|]. split; [by constructor|done].
Qed.

Lemma omap_split {A B} (f : A -> option B) l l1 y l2 : omap f l = l1 ++ y :: l2 ->
  exists k1 x k2, l = k1 ++ x :: k2 /\ omap f k1 = l1 /\ f x = Some y /\ omap f k2 = l2.
Proof.
  revert l1. induction l as [|x l IH]; intros l1 E; cbn [omap list_omap] in E; [by destruct l1|].
  destruct (f x) as [z|] eqn:Ex.
  - destruct l1 as [|z' l1]; cbn in E; injection E as -> E; [exists [], x, l; done|].
    destruct (IH _ E) as (k1 & x' & k2 & -> & H1 & H2 & H3). exists (x :: k1), x', k2. cbn [omap list_omap]. rewrite Ex.
    split; [done|]. split; [f_equal; exact H1|done].
  - destruct (IH _ E) as (k1 & x' & k2 & -> & H1 & H2 & H3). exists (x :: k1), x', k2. cbn [omap list_omap]. rewrite Ex. done.
Qed.

Lemma loop_removes h h' id st t max_age start costs lag :
  fresh_ids (h ++ h') -> clocks_ok (h ++ h') -> reports (after h) id st -> finished_at st = Some t ->
  cleanups h' = round max_age <$> rounds start costs -> Forall (fun c => 0 <= c <= lag) costs ->
  start <= t + max_age + cleanup_interval + lag -> Exists (fun r => t + max_age < r) (rounds start costs) ->
  exists h1 e h2 r, h' = h1 ++ e :: h2 /\ e_op e = round max_age r /\
    t + max_age < r <= t + max_age + cleanup_interval + lag /\
    reports (after (h ++ h1)) id st /\
    (answer_of (after (h ++ h1)) e = Some (ACleanup (Ok tt)) -> unknown (after (h ++ h')) id).
Proof.
  intros Hf Hk Hst Ht Hc Hcost Hs Hx. destruct (rounds_reach lag costs start (t + max_age) Hcost Hs Hx) as (rs1 & r & rs2 & E & H1 & H2).
  rewrite E, fmap_app, fmap_cons in Hc. apply omap_split in Hc as (h1 & e & h2 & -> & E1 & Ee & _).
  assert (Eo : e_op e = round max_age r) by (unfold cleanup_of in Ee; destruct (e_op e); congruence).
  assert (Hk1 : reports (after (h ++ h1)) id st).
  { eapply loop_keeps; [| |exact Hst|exact Ht|exact E1|exact H1].
    - rewrite app_assoc in Hf. by eapply fresh_prefix.
    - rewrite app_assoc in Hk. by eapply clocks_ok_app. }
  exists h1, e, h2, r. split; [done|]. split; [done|]. split; [done|]. split; [done|]. intros Ha.
  rewrite cons_middle, !app_assoc in Hf, Hk |- *. rewrite <- (app_assoc h h1 [e]) in Hf, Hk |- *.
  apply unknown_stays; [by rewrite app_assoc in *| |].
  - rewrite !inserted_ids_app, !elem_of_app. left. eapply reports_inserted; [|exact Hst]. rewrite <- app_assoc in Hf. by eapply fresh_prefix.
  - rewrite !app_assoc in *. eapply round_removes; try done; [by eapply fresh_prefix|by eapply clocks_ok_app|lia].
Qed.
