(** C113: the histogram of the reserve requests. *)
From Verif Require Import Labels.
Local Open Scope N_scope.

(** ** Vocabulary *)
(** The requests that found their way into the metric: those that were neither refused nor failed. *)
Definition served (q : request) : Prop := rq_limit q <> 0 /\ rq_failed q = false.

(** ** Proofs *)
Lemma hex_prefix d e x y : hex_digits d ++ 125 :: x = hex_digits e ++ 125 :: y -> d = e /\ x = y.
Proof.
  revert e. induction d; intros e; destruct e; cbn [hex_digits app]; intros H; try discriminate H; injection H as H; try (by subst);
    match goal with IH : forall e, _ -> _ |- _ => by destruct (IH _ H) as [-> ->] end.
Qed.
Inductive shape (c : N) : list N -> Prop :=
| sh_short e : (c, e) ∈ [(0, 48); (9, 116); (13, 114); (10, 110); (34, 34); (92, 92)] -> shape c [92; e]
| sh_plain : c <> 92 -> c <> 34 -> shape c [c]
| sh_hex : c <> 34 -> shape c ([92; 117; 123] ++ hex_digits (N.to_hex_uint c) ++ [125]).
Lemma char_shape pr c : shape c (debug_char pr c).
Proof.
  unfold debug_char. repeat (case_match; match goal with H : (_ =? _) = true |- _ => apply N.eqb_eq in H; subst; constructor; set_solver | H : (_ =? _) = false |- _ => apply N.eqb_neq in H | _ => idtac end).
  all: by constructor.
Qed.
Lemma char_prefix pr c d x y : debug_char pr c ++ x = debug_char pr d ++ y -> c = d /\ x = y.
Proof.
  generalize (char_shape pr c) (char_shape pr d). generalize (debug_char pr c) (debug_char pr d). intros u v Hc Hd H.
  destruct Hc as [e He|N1 N2|N2]; destruct Hd as [f Hf|M1 M2|M2]; cbn [app] in H.
  - injection H as <- ->. split; [|done].
    rewrite !elem_of_cons, elem_of_nil in He, Hf. destruct_or! He; destruct_or! Hf; congruence.
  - by injection H as <- _.
  - injection H as -> _. rewrite !elem_of_cons, elem_of_nil in He. destruct_or! He; congruence.
  - by injection H as -> _.
  - by injection H as -> ->.
  - by injection H as -> _.
  - injection H as <- _. rewrite !elem_of_cons, elem_of_nil in Hf. destruct_or! Hf; congruence.
  - by injection H as <- _.
  - injection H as H. rewrite <- !(assoc_L (++)) in H. cbn [app] in H. apply hex_prefix in H as [H ->]. split; [|done]. by apply HexadecimalN.Unsigned.to_uint_inj.
Qed.
Lemma char_first pr c : exists e r, debug_char pr c = e :: r /\ e <> 34.
Proof.
  destruct (char_shape pr c) as [e He|N1 N2|N2]; [by eexists _, _|by eexists _, _|]. by eexists _, _.
Qed.
Lemma text_prefix pr k l x y : debug_text pr k ++ x = debug_text pr l ++ y -> k = l /\ x = y.
Proof.
  unfold debug_text. rewrite <- !(assoc_L (++)). cbn [app]. intros H. injection H as H. revert l H.
  induction k as [|c k IH]; intros [|d l] H; cbn [mbind list_bind app] in H.
  - by injection H as ->.
  - destruct (char_first pr d) as (e & r & E & N). rewrite E in H. cbn [app] in H. by injection H as <- _.
  - destruct (char_first pr c) as (e & r & E & N). rewrite E in H. cbn [app] in H. by injection H as -> _.
  - rewrite <- !(assoc_L (++)) in H. apply char_prefix in H as [-> H]. by destruct (IH _ H) as [-> ->].
Qed.
Lemma plan_prefix pr s : forall t x y, debug_plan pr s ++ x = debug_plan pr t ++ y -> s = t /\ x = y.
Proof.
  induction s as [| | |k u IH]; intros [| | |l w] x y H; cbn [debug_plan] in H; try (by injection H as ->); try discriminate H.
  rewrite <- !(assoc_L (++)) in H. apply app_inv_head in H. apply text_prefix in H as [-> H]. apply app_inv_head in H.
  apply IH in H as [-> H]. by apply app_inv_head in H.
Qed.
Lemma txt_inj s k : txt s = txt k -> s = k.
Proof.
  revert k. induction s as [|a s IH]; intros [|b k] H; [done..|]. cbn [txt] in H. injection H as Ha H. f_equal; [|by apply IH].
  rewrite <- (Ascii.ascii_N_embedding a), <- (Ascii.ascii_N_embedding b). by f_equal.
Qed.

(** ** Theorems *)
(** Requests that differ in their limit or their strategy are told apart by the labels, whichever
    characters the keys consist of. *)
Theorem C113_distinct_partial pr n s m t : labels pr n s = labels pr m t -> n = m /\ s = t.
Proof.
  unfold labels. intros H. injection H as H1 H2. apply txt_inj, (inj pretty) in H1. split; [done|].
  apply (plan_prefix pr s t [] []). by rewrite !app_nil_r.
Qed.
Lemma series_snoc pr qs q : series pr (qs ++ [q]) = observe pr (series pr qs) q.
Proof. unfold series. by rewrite foldl_app. Qed.
Lemma observe_served pr k q : served q -> observe pr k q = if bool_decide (labels pr (rq_limit q) (rq_plan q) ∈ k) then k else k ++ [labels pr (rq_limit q) (rq_plan q)].
Proof. intros [H1 H2]. unfold observe. rewrite H2. apply N.eqb_neq in H1. by rewrite H1. Qed.
(** There is one series for each kind of request that was served, and no other. *)
Theorem C113_one_each_partial pr qs :
  NoDup (series pr qs) /\ forall l, l ∈ series pr qs <-> exists q, q ∈ qs /\ served q /\ l = labels pr (rq_limit q) (rq_plan q).
Proof.
  induction qs as [|q qs [IH1 IH2]] using rev_ind.
  - split; [constructor|]. intros l. split; [intros H; by apply elem_of_nil in H|intros (q & H & _); by apply elem_of_nil in H].
  - rewrite series_snoc. destruct (decide (rq_limit q = 0 \/ rq_failed q = true)) as [D|D].
    + assert (E : observe pr (series pr qs) q = series pr qs).
      { unfold observe. destruct D as [-> | ->]; [done|]. by rewrite orb_true_r. }
      rewrite E. split; [done|]. intros l. rewrite IH2. setoid_rewrite elem_of_app. setoid_rewrite elem_of_list_singleton.
      split; [naive_solver|]. intros (r & [H|Hq] & [S1 S2] & El); [by exists r|]. subst r. destruct D; congruence.
    + assert (S : served q). { split; [tauto|]. destruct (rq_failed q); [tauto|done]. }
      rewrite (observe_served _ _ _ S). case_bool_decide as B.
      * split; [done|]. intros l. rewrite IH2. setoid_rewrite elem_of_app. setoid_rewrite elem_of_list_singleton. split; [naive_solver|]. intros (r & [H|Hq] & Sr & El); [by exists r|]. subst. by apply IH2.
      * split.
        { apply NoDup_app. split_and!; [done| |apply NoDup_singleton]. intros x Hx Hy. apply elem_of_list_singleton in Hy as ->. done. }
        intros l. rewrite elem_of_app, elem_of_list_singleton, IH2. setoid_rewrite elem_of_app. setoid_rewrite elem_of_list_singleton. naive_solver.
Qed.
(** Hence nothing but the requests bounds the number of the series, and none ever goes: [n] requests
    with limits 1 to [n], of one consumer and on an empty queue, make [n] of them. *)
Theorem C113_bounded_refuted pr (n : nat) s : exists qs, length (series pr qs) = n /\ (forall q, q ∈ qs -> rq_plan q = s) /\
  (forall more, exists new, series pr (qs ++ more) = series pr qs ++ new).
Proof.
  exists ((fun i => Request (N.of_nat (S i)) s false) <$> seq 0 n). split_and!.
  - assert (E : series pr ((fun i => Request (N.of_nat (S i)) s false) <$> seq 0 n) = (fun i => labels pr (N.of_nat (S i)) s) <$> seq 0 n);
      [|by rewrite E, fmap_length, seq_length].
    induction n as [|n IH]; [done|]. rewrite seq_S, !fmap_app. cbn [fmap list_fmap Nat.add]. rewrite series_snoc, observe_served by done.
    rewrite IH. rewrite bool_decide_eq_false_2; [done|]. intros (i & E & H)%elem_of_list_fmap. apply elem_of_seq in H. apply C113_distinct_partial in E as [E _]. cbn in E. lia.
  - intros q (i & -> & _)%elem_of_list_fmap. done.
  - intros more. generalize ((fun i => Request (N.of_nat (S i)) s false) <$> seq 0 n). intros qs. induction more as [|q more [new IH]] using rev_ind.
    + exists []. by rewrite !app_nil_r.
    + rewrite (assoc_L (++)), series_snoc, IH. unfold observe. repeat case_match; [by exists new..|]. eexists. by rewrite <- (assoc_L (++)).
Qed.
(** Two keys that look alike when quotes are not escaped. *)
Example C113_example : let pr := fun c => (32 <=? c) && (c <? 127) in
  let s := PreferDistinct (txt "a") Oldest in let t := PreferDistinct [97; 34; 233; 10] s in
  (labels pr 12 s).2 = txt "PreferDistinct { meta_key: ""a"", underlying: Oldest }" /\
  (labels pr 12 t).2 = txt "PreferDistinct { meta_key: ""a\""\u{e9}\n"", underlying: PreferDistinct { meta_key: ""a"", underlying: Oldest } }" /\
  length (series pr [Request 12 s false; Request 12 t false; Request 12 s false; Request 0 s false; Request 7 s true; Request 7 s false]) = 3%nat.
Proof. split_and!; by vm_compute. Qed.
