(** C49, C51, C53: producers, consumers, server and object store together. Vocabulary: World.v. *)
From Verif Require Export WorldProofs.
From Verif Require Import PropQueue PropServer PropPython.
From Coq Require Import Strings.Ascii.
Local Open Scope N_scope.

(** *** Concrete runs for the examples *)
Fixpoint has_slash (s : string) : bool :=
  match s with EmptyString => false | String c s => bool_decide (c = "/"%char) || has_slash s end.
Lemma no_slash s : has_slash s = false -> forall a b, s <> a +:+ "/" +:+ b.
Proof.
  intros H a b. revert s H. induction a as [|c a IH]; intros s H ->; cbn in H; [done|]. apply orb_false_iff in H as [_ H]. exact (IH _ H eq_refl).
Qed.
Definition wallowed_b (l : wlabel) (w : world) : bool :=
  match l with
  | WServer l => allowed_b l (w_server w)
  | WBegin p => negb (bool_decide (p = "")) && negb (has_slash p)
  | _ => true
  end.
Fixpoint wplay (cfg : config) (base : string) (work : string -> option string) (ls : list (world -> wlabel)) (tr : list wlabel) (w : world) : option (list wlabel * world) :=
  match ls with
  | [] => Some (tr, w)
  | f :: ls => if wallowed_b (f w) w then match wnext cfg base work (f w) w with Some w' => wplay cfg base work ls (tr ++ [f w]) w' | None => None end else None
  end.
Lemma allowed_by cfg l s : allowed_b l s = true -> allowed cfg l s.
Proof.
  intros E1. destruct l as [| | | |c q off rows|c off rows| | | | | | | | | | | | | | | |[e|]]; try done; cbn in E1.
  - apply bool_decide_eq_true_1 in E1 as ->. apply scan_offers.
  - destruct (s_conns s !! c) as [x|] eqn:Ex; [|done]. destruct (c_retry x) as [|q rest] eqn:Er; [done|]. apply bool_decide_eq_true_1 in E1 as ->. exists x, q, rest. split; [done|]. split; [done|]. apply scan_offers.
Qed.
Lemma wplay_run cfg base work w0 : forall ls tr w tr' w', wplay cfg base work ls tr w = Some (tr', w') -> wrun cfg base work w0 tr w -> wrun cfg base work w0 tr' w'.
Proof.
  induction ls as [|f ls IH]; intros tr w tr' w' Hp Hr; cbn in Hp; [by injection Hp as <- <-|].
  destruct (wallowed_b (f w) w) eqn:Ea; [|done]. destruct (wnext cfg base work (f w) w) as [w2|] eqn:En; [|done]. apply (IH _ _ _ _ Hp). eapply wrun_snoc; [exact Hr| |exact En].
  destruct (f w) as [l|p|p c u|p|b broken|b|j u|j c|c k fl]; try done; cbn in Ea |- *; [by apply allowed_by|].
  apply andb_true_iff in Ea as [E1 E2]. apply negb_true_iff in E1, E2. split; [by apply bool_decide_eq_false in E1|by apply no_slash].
Qed.
Lemma by_wplay cfg base work now ls (P : list wlabel -> world -> bool) :
  match wplay cfg base work ls [] (world_start now) with Some (tr, w) => P tr w | None => false end = true ->
  exists tr w, wrun cfg base work (world_start now) tr w /\ P tr w = true.
Proof.
  intros Hp. destruct (wplay cfg base work ls [] (world_start now)) as [[tr w]|] eqn:E; [|done]. exists tr, w. split; [|done].
  eapply wplay_run; [exact E|constructor].
Qed.
Lemma wplay_takes cfg base work : forall ls tr w tr' w' f i, wplay cfg base work ls tr w = Some (tr', w') -> ls !! i = Some f -> exists w0, f w0 ∈ tr'.
Proof.
  induction ls as [|g ls IH]; intros tr w tr' w' f i Hp Hi; [done|]. cbn in Hp. destruct (wallowed_b (g w) w); [|done]. destruct (wnext cfg base work (g w) w) as [w2|]; [|done].
  destruct i as [|i]; cbn in Hi; [|by eapply IH]. injection Hi as ->. exists w. assert (Hx : exists tr2, tr' = (tr ++ [f w]) ++ tr2).
  { revert Hp. generalize (tr ++ [f w]). clear. revert w2. induction ls as [|g ls IH]; intros w2 tr Hp; cbn in Hp; [injection Hp as <- _; exists []; by rewrite app_nil_r|].
    destruct (wallowed_b (g w2) w2); [|done]. destruct (wnext cfg base work (g w2) w2) as [w3|]; [|done]. apply IH in Hp as [tr2 ->]. eexists. by rewrite <- app_assoc. }
  destruct Hx as [tr2 ->]. rewrite !elem_of_app. left. right. left.
Qed.
Definition wserver (ls : list (state -> label)) : list (world -> wlabel) := (fun (f : state -> label) w => WServer (f (w_server w))) <$> ls.
Definition wdoes (ls : list wlabel) : list (world -> wlabel) := (fun l _ => l) <$> ls.

(** ** C49. The producer gets its operations' results once the submission is completed. [uploaded]
    are the chunks that the producer uploaded under its prefix before it inserted the submission;
    [at_ i] is the world at the time the [i]th output is read, any time after. The consumers'
    callback applies [f] to each operation of a chunk; if that raises an exception for some
    operation, the submission does not complete. *)
Theorem C49_end_to_end : forall cfg base {A B} (fa : format A) (fb : format B) (f : A -> option B) now tr w e id p contents meta strat size otel n chunk_size ops s at_,
  (forall l, loads fa (dumps fa l) = Some l) -> (forall l, loads fb (dumps fb l) = Some l) ->
  let work := run_each_op fa fb f in
  wrun cfg base work (world_start now) tr w -> fresh_ids (s_hist (w_server w)) ->
  WServer (LProducer e) ∈ tr -> e_op e = OInsert id (Some p) contents meta strat size otel n ->
  chunk_iterator fa chunk_size ops = Some (uploaded p tr) ->
  reports (s_db (w_server w)) id (Completed s) ->
  (forall i, exists tr', wrun cfg base work w tr' (at_ i) /\ fresh_ids (s_hist (w_server (at_ i)))) ->
  exists results, mapM f ops = Some results /\ unchunk_iterator fb (stream_outputs base s at_) = (results, true).
Proof.
  intros cfg base A B fa fb f now tr w e id p contents meta strat size otel n chunk_size ops s at_ Hfa Hfb work Hr Hf He Eo Hch Hs Hat.
  assert (Hin : e ∈ s_hist (w_server w)).
  { clear -Hr He. induction Hr as [|tr w1 l w2 Hr IH Ha Hn]; [by apply elem_of_nil in He|]. apply elem_of_app in He as [He|He].
    - apply wgrows in Hn as [[t Ht] _]. rewrite Ht. apply elem_of_app. left. by apply IH.
    - apply elem_of_list_singleton in He as <-. cbn [wnext] in Hn. destruct (next cfg (LProducer e) (w_server w1)) as [[s o]|] eqn:En; [|done]. destruct (submit _ _); [|done]. injection Hn as <-.
      unfold next in En. destruct (is_producer_op _); [|done]. injection En as <- <-. cbn. apply elem_of_app. right. left. }
  set (a := InsertArgs (Some p) contents meta strat size otel). assert (Ha : inserted_with (s_hist (w_server w)) id a) by (by exists e, n).
  destruct (outputs_stay cfg base work now tr w id a p s at_ Hr Hf Ha eq_refl Hs Hat) as [H1 H2]. rewrite H1.
  unfold chunk_iterator in Hch. destruct (chunk_size <=? 0)%Z; [done|]. injection Hch as Hch. rewrite <- Hch in H2 |- *.
  destruct (each_op fa fb f _ Hfa Hfb H2) as (outs & H3 & H4). exists outs. unfold batched in H3. rewrite batched_concat in H3. done.
Qed.
Print Assumptions C49_end_to_end.
(** One level below, for any callback on whole chunks. *)
Theorem C49_chunks : forall cfg base work now tr w id a p s at_,
  wrun cfg base work (world_start now) tr w -> fresh_ids (s_hist (w_server w)) ->
  inserted_with (s_hist (w_server w)) id a -> ia_prefix a = Some p -> reports (s_db (w_server w)) id (Completed s) ->
  (forall i, exists tr', wrun cfg base work w tr' (at_ i) /\ fresh_ids (s_hist (w_server (at_ i)))) ->
  stream_outputs base s at_ = work <$> uploaded p tr /\ Forall (fun c => is_Some (work c)) (uploaded p tr).
Proof. exact outputs_stay. Qed.
Print Assumptions C49_chunks.

(** "abc" is submitted in chunks "ab" and "c"; the callback puts letters in upper case. The upload
    of a result fails once and the chunk is worked on again; a failure is reported; a result is
    reported twice. *)
Definition upper (c : ascii) : option ascii := Some (ascii_of_N (N_of_ascii c - 32)).
Definition ex_work : string -> option string := run_each_op ex_format ex_format upper.
Definition handle_mail : list (world -> wlabel) := wserver (does [LWrite [] 2 2 2; LFinish; LCounters true; LTime 2000; LPurge 0]).
Definition handle_late : list (world -> wlabel) := wserver (does [LWrite [] 2 2 2; LFinish; LCounters true]).
Definition ex_insert_p : event := quiet (OInsert 1 (Some "uuid"%string) [None; None] None ∅ 2 "o" 1).
Definition ex_world : list (world -> wlabel) :=
  wdoes [WBegin "uuid"; WUpload "uuid" "ab" Uploaded; WUpload "uuid" "c" Uploaded; WServer (LProducer ex_insert_p); WServer (LConnect 1); WServer (LConnect 2)] ++
  wserver (get_one 1) ++ wdoes [WFetch 0 false; WDeliver 0; WRun 0 UploadedUnnoticed; WServer (LDisconnect 1)] ++
  wserver (get_one 2) ++ wdoes [WFetch 0 false; WDeliver 0; WRun 0 Uploaded; WReport 0 2; WReport 0 2] ++ handle_mail ++ handle_late ++
  wserver (get_one 2) ++ wdoes [WFail 2 (1, 1) "oops"] ++ handle_late ++
  wserver (get_one 2) ++ wdoes [WFetch 0 false; WFetch 1 false; WDeliver 0; WDeliver 0; WRun 1 Uploaded; WRun 2 NotUploaded; WReport 1 2] ++ handle_mail.
Example C49_example : exists tr w s,
  wrun ex_cfg "base" ex_work (world_start 0) tr w /\ fresh_ids (s_hist (w_server w)) /\ WServer (LProducer ex_insert_p) ∈ tr /\
  chunk_iterator ex_format 2 (list_ascii_of_string "abc") = Some (uploaded "uuid" tr) /\
  reports (s_db (w_server w)) 1 (Completed s) /\ stream_outputs "base" s (fun _ => w) = [Some "AB"; Some "C"]%string.
Proof.
  pose (P := fun tr w => bool_decide (NoDup (inserted_ids (s_hist (w_server w)))) &&
    bool_decide (chunk_iterator ex_format 2 (list_ascii_of_string "abc") = Some (uploaded "uuid" tr)) &&
    match status_of (s_db (w_server w)) 1 with Ok (Some (Completed s)) => bool_decide (stream_outputs "base" s (fun _ => w) = [Some "AB"; Some "C"]%string) | _ => false end).
  destruct (wplay ex_cfg "base" ex_work ex_world [] (world_start 0)) as [[tr w]|] eqn:E.
  2: { exfalso. assert (H : match wplay ex_cfg "base" ex_work ex_world [] (world_start 0) with Some _ => true | None => false end = true) by (clear; by vm_compute). rewrite E in H. discriminate H. }
  assert (H : match wplay ex_cfg "base" ex_work ex_world [] (world_start 0) with Some (tr, w) => P tr w | None => false end = true) by (clear; by vm_compute).
  rewrite E in H. unfold P in H. apply andb_true_iff in H as [H H3]. apply andb_true_iff in H as [H1%bool_decide_eq_true H2%bool_decide_eq_true].
  destruct (status_of (s_db (w_server w)) 1) as [[[|s| |]|]| |] eqn:Es; try discriminate H3. apply bool_decide_eq_true in H3.
  exists tr, w, s. split; [eapply wplay_run; [exact E|constructor]|]. split; [exact H1|]. split; [|split; [exact H2|split; [exact Es|exact H3]]].
  destruct (wplay_takes _ _ _ _ _ _ _ _ (fun _ => WServer (LProducer ex_insert_p)) 3 E eq_refl) as [_ Hin]. exact Hin.
Qed.

(** ** C51. Nothing can be streamed of a completed submission whose chunks were sent inline: every
    element of the stream is an error. *)
Theorem C51_refuted : forall cfg base work now tr w id a s at_,
  wrun cfg base work (world_start now) tr w -> fresh_ids (s_hist (w_server w)) ->
  inserted_with (s_hist (w_server w)) id a -> ia_prefix a = None -> reports (s_db (w_server w)) id (Completed s) ->
  (forall i, exists tr', wrun cfg base work w tr' (at_ i) /\ fresh_ids (s_hist (w_server (at_ i)))) ->
  stream_outputs base s at_ = replicate (length (ia_contents a)) None.
Proof. exact inline_outputs. Qed.
Print Assumptions C51_refuted.
(** A submission of one inline chunk is worked on and completed; its output is in the database but
    cannot be streamed. *)
Definition ex_insert_i : event := quiet (OInsert 1 None [Some "ab"%string] None ∅ 2 "o" 1).
Definition ex_inline : list (world -> wlabel) :=
  wdoes [WServer (LProducer ex_insert_i); WServer (LConnect 1)] ++ wserver (get_one 1) ++
  wdoes [WFetch 0 false; WDeliver 0; WRun 0 Uploaded; WReport 0 1] ++ handle_mail.
Example C51_example : exists tr w s c,
  wrun ex_cfg "base" ex_work (world_start 0) tr w /\ fresh_ids (s_hist (w_server w)) /\
  inserted_with (s_hist (w_server w)) 1 (InsertArgs None [Some "ab"%string] None ∅ 2 "o") /\
  reports (s_db (w_server w)) 1 (Completed s) /\ completed_chunk (s_db (w_server w)) (1, 0) = Some c /\ kc_output c = Some "AB"%string /\
  stream_outputs "base" s (fun _ => w) = [None].
Proof.
  destruct (by_wplay ex_cfg "base" ex_work 0 ex_inline (fun tr w => bool_decide (NoDup (inserted_ids (s_hist (w_server w)))) &&
    match head (s_hist (w_server w)) with Some e => match e_op e with OInsert 1 None l None m 2%Z o 1%Z => bool_decide (l = [Some "ab"%string]) && bool_decide (m = ∅) && bool_decide (o = "o"%string) | _ => false end | None => false end &&
    match status_of (s_db (w_server w)) 1, completed_chunk (s_db (w_server w)) (1, 0) with
    | Ok (Some (Completed s)), Some c => bool_decide (kc_output c = Some "AB"%string) && bool_decide (stream_outputs "base" s (fun _ => w) = [None]) | _, _ => false end))
    as (tr & w & Hr & H); [by vm_compute|].
  apply andb_true_iff in H as [H H3]. apply andb_true_iff in H as [H1%bool_decide_eq_true H2].
  destruct (status_of (s_db (w_server w)) 1) as [[[|s| |]|]| |] eqn:Es; try discriminate H3. destruct (completed_chunk (s_db (w_server w)) (1, 0)) as [c|] eqn:Ec; [|discriminate H3].
  apply andb_true_iff in H3 as [H3%bool_decide_eq_true H4%bool_decide_eq_true].
  exists tr, w, s, c. split; [exact Hr|]. split; [exact H1|]. split; [|split; [exact Es|split; [done|split; [exact H3|exact H4]]]].
  destruct (s_hist (w_server w)) as [|e h]; [discriminate H2|]. cbn in H2. exists e, 1%Z. split; [left|].
  repeat case_match; try discriminate H2. apply andb_true_iff in H2 as [H2 Hx%bool_decide_eq_true]. apply andb_true_iff in H2 as [Hy%bool_decide_eq_true Hz%bool_decide_eq_true]. by subst.
Qed.

(** ** C53. One chunk of a batch cannot be fetched, and the whole batch is forgotten: nothing is
    worked on, nothing is reported, the server does not learn of it (its state is the same). *)
Theorem C53_refuted : forall cfg base work w b r s todo got broken w',
  w_batches w !! b = Some (Batch ((r, s) :: todo) got) ->
  (forall c p, from_internal base r s broken (w_objects w) <> Content c p) ->
  wnext cfg base work (WFetch b broken) w = Some w' ->
  w_server w' = w_server w /\ w_jobs w' = w_jobs w /\ w_batches w' = delete b (w_batches w).
Proof.
  intros cfg base work w b r s todo got broken w' Hb Hf Hn. cbn [wnext] in Hn. rewrite Hb in Hn. injection Hn as <-. cbn. split; [done|]. split; [done|].
  destruct (from_internal base r s broken (w_objects w)) eqn:E; [|done|done]. by destruct (Hf c prefix).
Qed.
Print Assumptions C53_refuted.
(** Both chunks of a batch stay reserved for a consumer that works on neither. *)
Definition ex_hostage : list (world -> wlabel) :=
  wdoes [WBegin "uuid"; WUpload "uuid" "ab" Uploaded; WUpload "uuid" "c" Uploaded; WServer (LProducer ex_insert_p); WServer (LConnect 1)] ++
  wserver ([ask 1 2] ++ does [LRow 1; LJoin 1 false; LRow 1; LJoin 1 false; LReply 1]) ++ wdoes [WFetch 0 false; WFetch 0 true].
Example C53_example : exists tr w x,
  wrun ex_cfg "base" ex_work (world_start 0) tr w /\ w_batches w = [] /\ w_jobs w = [] /\ s_mail (w_server w) = [] /\
  s_conns (w_server w) !! 1 = Some x /\ c_set x = {[ (1, 0); (1, 1) ]} /\
  forall k, k ∈ [(1, 0); (1, 1)] -> is_reserved 60000 59999 k (s_res (w_server w)) = true.
Proof.
  destruct (by_wplay ex_cfg "base" ex_work 0 ex_hostage (fun tr w =>
    match w_batches w, w_jobs w, s_mail (w_server w), s_conns (w_server w) !! 1 with
    | [], [], [], Some x => bool_decide (c_set x = {[ (1, 0); (1, 1) ]}) && forallb (fun k => is_reserved 60000 59999 k (s_res (w_server w))) [(1, 0); (1, 1)]
    | _, _, _, _ => false end)) as (tr & w & Hr & H); [by vm_compute|].
  destruct (w_batches w) eqn:E1; [|discriminate H]. destruct (w_jobs w) eqn:E2; [|discriminate H]. destruct (s_mail (w_server w)) eqn:E3; [|discriminate H].
  destruct (s_conns (w_server w) !! 1) as [x|] eqn:E4; [|discriminate H]. apply andb_true_iff in H as [H1%bool_decide_eq_true H2].
  exists tr, w, x. split_and!; try done. intros k Hk. rewrite forallb_forall in H2. apply H2. by apply elem_of_list_In.
Qed.
