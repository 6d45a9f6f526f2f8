(** C114, continued: a client that talks to this server. *)
From Verif Require Import Server PropServer PropOnce ConsumerClient ConsumerClientProofs.
Local Open Scope N_scope.

(** ** Vocabulary *)
(** The nonces of the reserve requests that left the client, and of the replies that reached it. *)
Definition nonces_out (es : list effect) : list N := omap (fun e => match e with Requested _ n => Some n | _ => None end) es.
Definition nonces_in (l : list cstep) : list N := omap (fun s => match s with Respond n _ => Some n | _ => None end) l.
(** Whenever a reply reaches the client, it comes from a server on whose connection [c] no other
    requests arrived than those that had left the client, in any order, and the replies so far are
    the first of those that the server sent. *)
Definition served_by_server (c : N) (l : list cstep) : Prop :=
  forall l1 n a l2, l = l1 ++ Respond n a :: l2 ->
    exists cfg h now tr s, run_to cfg anything (server_start h now) tr s /\
      asks c tr ⊆+ nonces_out (effects l1) /\ nonces_in (l1 ++ [Respond n a]) `prefix_of` replies c tr.

(** ** Proofs *)
Lemma nonces_out_sent es : nonces_out es ⊆+ omap nonce_sent es.
Proof. induction es as [|e es IH]; [done|]. unfold nonces_out in *. destruct e; cbn [omap list_omap nonce_sent]; try done; by constructor. Qed.
Lemma submseteq_nodup (l k : list N) : l ⊆+ k -> NoDup k -> NoDup l.
Proof. intros H. destruct (submseteq_Permutation _ _ H) as [r ->]. by intros [? _]%NoDup_app. Qed.
Lemma in_nonces n a l : Respond n a ∈ l -> n ∈ nonces_in l.
Proof. intros H. unfold nonces_in. apply elem_of_list_omap. by exists (Respond n a). Qed.

(** ** Theorem *)
(** No reply makes the client's background task panic. *)
Theorem C114_client_safe c l : served_by_server c l -> TaskPanicked ∉ effects l.
Proof.
  induction l as [|s l IH] using rev_ind; [by intros _ H%elem_of_nil|]. intros Hp. rewrite effects_snoc. intros [H|H]%elem_of_app.
  - revert H. apply IH. intros l1 n a l2 E. apply (Hp l1 n a (l2 ++ [s])). by rewrite E, <- app_assoc.
  - pose proof (cinv_run l) as I. unfold then_does in H. destruct s as [sent| |n0 a0|k0| |]; cbn [client_step] in H.
    + case_bool_decide; [by apply elem_of_nil in H|]. destruct sent; simpl in H; unret; discriminate H.
    + simpl in H. unret. discriminate H.
    + case_bool_decide as Ht; [|by apply elem_of_nil in H]. destruct (Hp l n0 a0 [] eq_refl) as (cfg & h & now & tr & st & Hr & Ha & [k Hb]).
      pose proof (submseteq_nodup _ _ (nonces_out_sent _) (ci_nodup _ _ _ I Ht)) as N1.
      pose proof (C114_nonces _ _ _ _ _ c Hr (submseteq_nodup _ _ Ha N1)) as N2.
      unfold nonces_in in Hb. rewrite omap_app in Hb. fold (nonces_in l) in Hb. cbn [omap list_omap] in Hb.
      assert (Hk : exists k, Requested k n0 ∈ effects l).
      { assert (n0 ∈ nonces_out (effects l)) as (e & He & Hs)%elem_of_list_omap.
        { eapply elem_of_submseteq; [|exact Ha]. eapply elem_of_submseteq; [|exact (C114_at_most_once _ _ _ _ _ c Hr)]. rewrite Hb. set_solver. }
        destruct e as [k' n'| | | | |]; try done. injection Hs as ->. by exists k'. }
      destruct Hk as [k' Hk]. destruct (ci_resp _ _ _ I Ht _ _ Hk) as [Hm|[a Ha']].
      * rewrite Hm in H. case_bool_decide.
        -- simpl in H. apply elem_give_back in H as (? & ? & ? & _). done.
        -- simpl in H. unret. discriminate H.
      * rewrite Hb in N2. apply NoDup_app in N2 as (N2 & _ & _). apply NoDup_app in N2 as (_ & N2 & _). apply (N2 n0); [by eapply in_nonces|left].
    + case_match; by apply elem_of_nil in H.
    + case_bool_decide; by apply elem_of_nil in H.
    + case_bool_decide; [|by apply elem_of_nil in H]. simpl in H. apply elem_failed in H as (? & ? & ? & _). done.
Qed.
Print Assumptions C114_client_safe.
(** Two requests of a client: the first waits, the second, for no chunks, is refused; then a submission comes. *)
Example C114_client_example : let l := [Request true; Request true; Respond 1 None; Respond 0 (Some [(1, 0)])] in
  served_by_server 1 l /\ effects l = [Requested 0 0; Requested 1 1; Answered 1 1 None; Answered 0 0 (Some [(1, 0)])].
Proof.
  intros l. split; [|by vm_compute].
  pose (wants := fun q : req => (fun s => LReserve 1 q 0 (rows_now q 0 s)) : state -> label).
  destruct (by_play ex_cfg (fun _ _ _ => true) anything [] 0
    (does [LConnect 1] ++ [wants (Req 0 1 Oldest)] ++ does [LReply 1; LRegister 1] ++ [wants (Req 1 0 Oldest)] ++
     does [LProducer (quiet (OInsert 1 None [None] None ∅ 10 "o" 1)); LNotify] ++ [fun s => LRetry 1 0 (rows_now (Req 0 1 Oldest) 0 s)] ++ does [LRow 1; LJoin 1 false; LReply 1])
    (fun tr s => bool_decide (asks 1 tr = [0; 1]) && bool_decide (replies 1 tr = [1; 0])))
    as (tr & s & Hr & H); [done|by vm_compute|].
  rewrite andb_true_iff, !bool_decide_eq_true in H. destruct H as [H1 H2].
  intros l1 n a l2 E. exists ex_cfg, [], 0, tr, s. split; [done|]. rewrite H1, H2.
  destruct l1 as [|x1 [|x2 [|x3 [|x4 l1]]]]; try discriminate E.
  - injection E as <- <- <- <- <-. split; [by vm_compute|by exists [0]].
  - injection E as <- <- <- <- <- <-. split; [by vm_compute|by exists []].
  - exfalso. injection E as _ _ _ _ E. by destruct l1.
Qed.
