(** C105: what consumers are given. *)
From Verif Require Import AnswerProofs PropQueue SpacingProofs LeakProofs CountProofs PropServer WorldProofs.
Local Open Scope N_scope.

(** ** C105 *)
(** With every chunk that a consumer is given come the contents, prefix, metadata, chunk size and tracing carrier of
    the insert that made it. There is only one: [inserted_with_unique]. *)
Lemma given_run cfg ok h now tr s : run_to cfg ok (server_start h now) tr s -> fresh_ids (s_hist s) ->
  fetches_from s /\ forall lo c n g, lo ∈ tr -> Given c n g ∈ lo.2 -> forall p, p ∈ g -> given_from (s_hist s) p.
Proof.
  induction 1 as [|tr s1 l s2 o Hr IH Hok Hs]; intros Hf.
  - split; [intros c x f Hx; cbn in Hx; by rewrite lookup_empty in Hx|]. intros lo c n g Hin. by apply elem_of_nil in Hin.
  - destruct Hs as [Ha Hn]. pose proof (hist_grows _ _ _ _ _ Hn) as Hp. assert (Hf1 : fresh_ids (s_hist s1)) by (by eapply fresh_prefix_of).
    destruct (IH Hf1) as [K1 K2]. destruct (fetches_from_step cfg s1 l s2 o Hf1 K1 (conj Ha Hn)) as [J1 J2]. split; [done|].
    intros lo c n g Hin Hg p Hq. eapply given_from_mono; [exact Hp|]. apply elem_of_app in Hin as [Hin|Hin]; [by eapply K2|].
    apply elem_of_list_singleton in Hin as ->. by eapply J2.
Qed.
Theorem C105_as_submitted : forall cfg h now tr s, run_to cfg anything (server_start h now) tr s -> fresh_ids (s_hist s) ->
  forall lo c n g ch sub, lo ∈ tr -> Given c n g ∈ lo.2 -> (ch, sub) ∈ g ->
  exists a, (forall a', inserted_with (s_hist s) (c_sub ch) a' <-> a' = a) /\
    ia_contents a !! N.to_nat (c_index ch) = Some (c_input ch) /\
    s_id sub = c_sub ch /\ s_total sub = N.of_nat (length (ia_contents a)) /\ s_prefix sub = ia_prefix a /\
    s_meta sub = ia_meta a /\ s_strat sub = ia_strat a /\ s_size sub = ia_size a /\ s_otel sub = ia_otel a.
Proof.
  intros cfg h now tr s Hr Hf lo c n g ch sub Hlo Hg Hin. destruct (given_run _ _ _ _ _ _ Hr Hf) as [_ K].
  destruct (K lo c n g Hlo Hg _ Hin) as (a & Ha & Hc & H1 & H2 & H3 & H4 & H5 & H6 & H7). cbn in *. exists a. split; [|done].
  intros a'. split; [|by intros ->]. intros Ha'. by eapply inserted_with_unique.
Qed.
Print Assumptions C105_as_submitted.
(** Two submissions, one of them made while the server runs; the consumer is given a chunk of each. *)
Definition ex_first : history := [quiet (OInsert 2 None [Some "a"; Some "b"]%string (Some "m"%string) {[ "k" := 5%Z ]} 10 "o" 1)].
Example C105_example : exists tr s lo1 lo2 g1 g2, run_to ex_cfg anything (server_start ex_first 0) tr s /\ fresh_ids (s_hist s) /\
  lo1 ∈ tr /\ lo2 ∈ tr /\ Given 1 77 g1 ∈ lo1.2 /\ Given 1 77 g2 ∈ lo2.2 /\
  ((fun p => (c_sub p.1, c_index p.1, c_input p.1)) <$> g1) = [(2, 0, Some "a"%string)] /\
  ((fun p => (c_sub p.1, c_index p.1, c_input p.1)) <$> g2) = [(2, 1, Some "b"%string); (3, 0, None)].
Proof.
  destruct (by_play ex_cfg (fun _ _ _ => true) anything ex_first 0
    (does [LConnect 1] ++ get_one 1 ++ does [LProducer (quiet (OInsert 3 (Some "p"%string) [None] None ∅ 1 "{}" 2))] ++
     [ask 1 2] ++ does [LSkip 1 0; LRow 1; LJoin 1 false; LRow 1; LJoin 1 false; LReply 1])
    (fun tr s => bool_decide (fresh_ids (s_hist s)) &&
      match omap (fun lo => match lo.2 with [Given 1 77 g] => Some g | _ => None end) tr with
      | [g1; g2] => bool_decide (((fun p => (c_sub p.1, c_index p.1, c_input p.1)) <$> g1) = [(2, 0, Some "a"%string)]) &&
          bool_decide (((fun p => (c_sub p.1, c_index p.1, c_input p.1)) <$> g2) = [(2, 1, Some "b"%string); (3, 0, None)])
      | _ => false end)) as (tr & s & Hr & HP); [done|by vm_compute|].
  apply andb_true_iff in HP as [H1 H2]. apply bool_decide_eq_true_1 in H1.
  destruct (omap _ tr) as [|g1 [|g2 [|]]] eqn:E; try done. apply andb_true_iff in H2 as [H2 H3]. apply bool_decide_eq_true_1 in H2, H3.
  assert (Hin : forall g, g ∈ [g1; g2] -> exists lo, lo ∈ tr /\ Given 1 77 g ∈ lo.2).
  { intros g Hg. rewrite <- E in Hg. apply elem_of_list_omap in Hg as (lo & Hlo & Eg). exists lo. split; [done|].
    destruct lo.2 as [|[c n g'| | |] [|]]; try done; [destruct c as [|[]]; try done; destruct (n =? 77) eqn:En|]; repeat case_match; simplify_eq; by left. }
  destruct (Hin g1) as (lo1 & Hl1 & Hg1); [left|]. destruct (Hin g2) as (lo2 & Hl2 & Hg2); [right; left|].
  by exists tr, s, lo1, lo2, g1, g2.
Qed.
