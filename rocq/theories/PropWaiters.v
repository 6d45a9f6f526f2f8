(** C112: what the server keeps for requests that found no chunk. *)
From Verif Require Import Waiters.
Local Open Scope N_scope.

(** ** Vocabulary *)
(** The requests the consumers made. *)
Definition asked (tr : list wlabel) : list ask := omap (fun l => match l with WAsk c n _ => Some (c, n) | _ => None end) tr.
(** The requests of one connection. *)
Definition made_by (c : N) (l : list ask) : list ask := filter (fun p => p.1 = c) l.
(** What the server keeps in memory, in one form or another. *)
Definition kept (s : room) : list ask := w_new s ++ w_tasks s ++ w_again s.
(** The loop of connection [c] has ended. *)
Definition ended (tr : list wlabel) (c : N) : Prop := WClose c ∈ tr.

(** ** Proofs *)
Lemma drop_one_perm p l : p ∈ l -> l ≡ₚ p :: drop_one p l.
Proof.
  induction l as [|q r IH]; intros H; [by apply elem_of_nil in H|]. cbn [drop_one].
  case_decide as E; [by subst|]. apply elem_of_cons in H as [->|H]; [done|]. rewrite (IH H) at 1. constructor.
Qed.
Lemma asked_snoc tr l : asked (tr ++ [l]) = asked tr ++ asked [l].
Proof. apply omap_app. Qed.

Record winv (tr : list wlabel) (out : list ask) (s : room) (lost : list ask) : Prop := Winv {
  i_used : w_open s ⊆ w_used s;
  i_all : asked tr ≡ₚ out ++ kept s ++ lost;
  i_lost : forall p, p ∈ lost -> p.1 ∈ w_used s /\ p.1 ∉ w_open s;
  i_again : forall p, p ∈ w_again s -> p.1 ∈ w_open s;
  i_kept : forall p, p ∈ kept s -> p.1 ∈ w_used s;
  i_ended : forall c, ended tr c <-> c ∈ w_used s /\ c ∉ w_open s;
  i_opened : forall c, c ∈ w_used s <-> WConnect c ∈ tr }.
Lemma filter_split {A} (P : A -> Prop) `{forall x, Decision (P x)} l : l ≡ₚ filter P l ++ filter (fun x => ~ P x) l.
Proof.
  induction l as [|x r IH]; [done|]. rewrite !filter_cons. destruct (decide (P x)) as [E|E].
  - destruct (decide (~ P x)); [done|]. cbn. by rewrite IH at 1.
  - destruct (decide (~ P x)); [|done]. rewrite <- Permutation_middle. by rewrite IH at 1.
Qed.
Ltac perm := rewrite ?asked_snoc; unfold kept in *; cbn [w_new w_tasks w_again asked omap list_omap] in *; rewrite ?app_nil_r.
Lemma ended_snoc tr l c : ended (tr ++ [l]) c <-> ended tr c \/ l = WClose c.
Proof. unfold ended. rewrite elem_of_app, elem_of_list_singleton. naive_solver. Qed.
Lemma opened_snoc tr l c : WConnect c ∈ tr ++ [l] <-> WConnect c ∈ tr \/ l = WConnect c.
Proof. rewrite elem_of_app, elem_of_list_singleton. naive_solver. Qed.
Lemma winv_run tr out s : wrun tr out s -> exists lost, winv tr out s lost.
Proof.
  induction 1 as [|tr out [used open new tasks again] l s' o Hr [lost IH] Hn].
  - exists []. split; unfold ended; cbn; set_solver.
  - destruct IH as [Hu Ha Hl Hg Hk He Ho]. cbn [w_used w_open w_new w_tasks w_again] in *.
    assert (Hd : forall p k, p ∈ k -> forall q, q ∈ drop_one p k -> q ∈ k).
    { intros p k Hp q Hq. rewrite (drop_one_perm p k Hp). by right. }
    destruct l as [c|c n f|c n| |c n f|c]; cbn [wnext] in Hn.
    + case_bool_decide as E; [done|]. simplify_eq. exists lost. split; cbn [w_used w_open]; perm.
      * set_solver.
      * done.
      * intros p Hp. specialize (Hl p Hp). set_solver.
      * set_solver.
      * set_solver.
      * intros d. rewrite ended_snoc, He. set_solver.
      * intros d. rewrite opened_snoc, <- Ho. set_solver.
    + case_bool_decide as E; [|done]. exists lost. destruct f; simplify_eq; split; cbn [w_used w_open]; perm; try done.
      * rewrite Ha. solve_Permutation.
      * intros d. rewrite ended_snoc, He. naive_solver.
      * intros d. rewrite opened_snoc, <- Ho. naive_solver.
      * rewrite Ha. solve_Permutation.
      * intros p Hp. rewrite <- app_assoc in Hp. set_solver.
      * intros d. rewrite ended_snoc, He. naive_solver.
      * intros d. rewrite opened_snoc, <- Ho. naive_solver.
    + case_bool_decide as E; [|done]. simplify_eq. exists lost. split; cbn [w_used w_open]; perm; try done.
      * rewrite Ha. rewrite (drop_one_perm _ _ E) at 1. solve_Permutation.
      * intros p Hp. specialize (Hd _ _ E). set_solver.
      * intros d. rewrite ended_snoc, He. naive_solver.
      * intros d. rewrite opened_snoc, <- Ho. naive_solver.
    + simplify_eq. exists (lost ++ filter (fun p => ~ p.1 ∈ open) tasks). split; cbn [w_used w_open]; perm; try done.
      * rewrite Ha. rewrite (filter_split (fun p => p.1 ∈ open) tasks) at 1. solve_Permutation.
      * intros p Hp. apply elem_of_app in Hp as [Hp|Hp]; [by apply Hl|]. apply elem_of_list_filter in Hp as [Hp Hq]. split; [|done]. apply Hk. set_solver.
      * intros p Hp. apply elem_of_app in Hp as [Hp|Hp]; [by apply Hg|]. by apply elem_of_list_filter in Hp as [Hp Hq].
      * intros p Hp. apply Hk. rewrite !elem_of_app in Hp. destruct_or! Hp; try (apply elem_of_list_filter in Hp as [_ Hp]); set_solver.
      * intros d. rewrite ended_snoc, He. naive_solver.
      * intros d. rewrite opened_snoc, <- Ho. naive_solver.
    + case_bool_decide as E; [|done]. destruct E as [E1 E2]. specialize (Hd _ _ E2). exists lost.
      destruct f; simplify_eq; split; cbn [w_used w_open]; perm; try done.
      * rewrite Ha. rewrite (drop_one_perm _ _ E2) at 1. solve_Permutation.
      * set_solver.
      * set_solver.
      * intros d. rewrite ended_snoc, He. naive_solver.
      * intros d. rewrite opened_snoc, <- Ho. naive_solver.
      * rewrite Ha. rewrite (drop_one_perm _ _ E2) at 1. solve_Permutation.
      * set_solver.
      * intros p Hp. rewrite <- app_assoc in Hp. set_solver.
      * intros d. rewrite ended_snoc, He. naive_solver.
      * intros d. rewrite opened_snoc, <- Ho. naive_solver.
    + case_bool_decide as E; [|done]. simplify_eq. exists (lost ++ filter (fun p => ~ p.1 <> c) again). split; cbn [w_used w_open]; perm; try done.
      * set_solver.
      * rewrite Ha. rewrite (filter_split (fun p => p.1 <> c) again) at 1. solve_Permutation.
      * intros p Hp. apply elem_of_app in Hp as [Hp|Hp]; [specialize (Hl p Hp); set_solver|]. apply elem_of_list_filter in Hp as [Hp Hq]. specialize (Hg p Hq). split; [set_solver|]. destruct (decide (p.1 = c)); [set_solver|done].
      * intros p Hp. apply elem_of_list_filter in Hp as [Hp Hq]. specialize (Hg p Hq). set_solver.
      * intros p Hp. apply Hk. rewrite !elem_of_app in Hp. destruct_or! Hp; try (apply elem_of_list_filter in Hp as [_ Hp]); set_solver.
      * intros d. rewrite ended_snoc, He. destruct (decide (d = c)); [subst; set_solver|]. split; [intros [H|H]; [set_solver|by injection H as ->]|set_solver].
      * intros d. rewrite opened_snoc, <- Ho. naive_solver.
Qed.
Lemma made_by_nil c l : (forall p, p ∈ l -> p.1 <> c) -> made_by c l = [].
Proof.
  intros H. unfold made_by. induction l as [|p l IH]; [done|]. rewrite filter_cons. case_decide as E.
  - exfalso. by apply (H p); [left|].
  - apply IH. intros q Hq. apply H. by right.
Qed.
Lemma made_by_app c l k : made_by c (l ++ k) = made_by c l ++ made_by c k.
Proof. apply filter_app. Qed.

(** ** Theorems *)
(** While a connection lasts, every request made on it was either answered, once, or is kept, once. *)
Theorem C112_open_partial tr out s c : wrun tr out s -> WConnect c ∈ tr -> ~ ended tr c ->
  made_by c (asked tr) ≡ₚ made_by c out ++ made_by c (kept s).
Proof.
  intros H Hc He. destruct (winv_run _ _ _ H) as [lost I].
  assert (Ho : c ∈ w_open s).
  { destruct (decide (c ∈ w_open s)) as [|N]; [done|]. destruct He. apply (i_ended _ _ _ _ I). split; [|done]. by apply (i_opened _ _ _ _ I). }
  unfold made_by at 1. rewrite (i_all _ _ _ _ I). fold (made_by c (out ++ kept s ++ lost)). rewrite !made_by_app.
  rewrite (made_by_nil c lost); [by rewrite app_nil_r|]. intros p Hp E. apply (i_lost _ _ _ _ I) in Hp. rewrite E in Hp. by destruct Hp.
Qed.
(** At any time: what is answered or kept was asked for, and nothing is answered or kept twice. *)
Theorem C112_once_partial tr out s : wrun tr out s -> out ++ kept s ⊆+ asked tr.
Proof.
  intros H. destruct (winv_run _ _ _ H) as [lost I]. rewrite (i_all _ _ _ _ I), (assoc_L (++)). apply submseteq_inserts_r. done.
Qed.
(** Nothing is answered on a connection that has ended. *)
Theorem C112_ended_partial tr out s l s' o c : wrun tr out s -> ended tr c -> wnext l s = Some (s', o) -> made_by c o = [].
Proof.
  intros H He Hn. destruct (winv_run _ _ _ H) as [lost I]. apply (i_ended _ _ _ _ I) in He as [_ He].
  apply made_by_nil. intros p Hp E. destruct s as [used open new tasks again]. cbn [w_open] in He.
  destruct l as [d|d n f|d n| |d n f|d]; cbn [wnext] in Hn; try case_bool_decide as B; try (destruct f); simplify_eq; try set_solver.
Qed.
(** An insert clears away all that was kept for connections that have ended, but for tasks which were only just spawned. *)
Theorem C112_insert_partial tr out s s' o c : wrun tr out s -> ended tr c -> wnext WInsert s = Some (s', o) ->
  made_by c (kept s') = made_by c (w_new s).
Proof.
  intros H He Hn. destruct (winv_run _ _ _ H) as [lost I]. apply (i_ended _ _ _ _ I) in He as [_ He].
  pose proof (i_again _ _ _ _ I) as Hg. destruct s as [used open new tasks again]. cbn [w_open w_again wnext w_new] in *. simplify_eq.
  unfold kept. cbn [w_new w_tasks w_again]. rewrite !made_by_app. rewrite (made_by_nil c again), (made_by_nil c (filter _ _)); [by rewrite !app_nil_r| |].
  - intros p Hp E. apply elem_of_list_filter in Hp as [Hp _]. by rewrite E in Hp.
  - intros p Hp E. apply Hg in Hp. by rewrite E in Hp.
Qed.

(** One after the other [n] consumers connect, ask for chunks and leave. *)
Fixpoint visits (n : nat) : list wlabel :=
  match n with O => [] | S m => let c := N.of_nat m in visits m ++ [WConnect c; WAsk c 0 false; WRegister c 0; WClose c] end.
Lemma visits_run n : exists s, wrun (visits n) [] s /\ (forall c, c ∈ w_used s -> c < N.of_nat n) /\ w_open s = ∅ /\ w_new s = [] /\ length (w_tasks s) = n /\ w_again s = [].
Proof.
  induction n as [|n ([used open new tasks again] & Hr & Hu & Ho & Hn & Ht & Ha)]; [exists room_new; split_and!; [constructor|set_solver|done..]|].
  cbn [w_used w_open w_new w_tasks w_again] in *. subst open new again. set (c := N.of_nat n).
  assert (Hc : c ∉ used). { intros H. apply Hu in H. lia. }
  exists (Room ({[c]} ∪ used) (({[c]} ∪ ∅) ∖ {[c]}) [] (tasks ++ [(c, 0)]) []). split_and!; cbn [w_used w_open w_new w_tasks w_again]; try done.
  - cbn [visits]. fold c.
    replace (visits n ++ _) with ((((visits n ++ [WConnect c]) ++ [WAsk c 0 false]) ++ [WRegister c 0]) ++ [WClose c]) by (by rewrite <- !(assoc_L (++))).
    replace (@nil (N * N)) with (((([] ++ []) ++ []) ++ []) ++ [] : list (N * N)) at 1 by done.
    eapply wrun_snoc; [eapply wrun_snoc; [eapply wrun_snoc; [eapply wrun_snoc; [exact Hr|]|]|]|].
    + cbn [wnext]. rewrite bool_decide_eq_false_2 by done. reflexivity.
    + cbn [wnext]. rewrite bool_decide_eq_true_2 by set_solver. reflexivity.
    + cbn [wnext]. rewrite bool_decide_eq_true_2 by (cbn; set_solver). cbn [app drop_one]. rewrite decide_True by done. reflexivity.
    + cbn [wnext]. rewrite bool_decide_eq_true_2 by set_solver. reflexivity.
  - intros d Hd. apply elem_of_union in Hd as [Hd|Hd]; [apply elem_of_singleton in Hd; lia|]. apply Hu in Hd. lia.
  - set_solver.
  - rewrite app_length. cbn. lia.
Qed.
(** The server's memory is not bounded by the connections there are: there can be none, and any number
    of requests that it keeps, one for each visit, as long as nothing is inserted. *)
Theorem C112_refuted n : exists tr s, wrun tr [] s /\ WInsert ∉ tr /\ (forall c, WConnect c ∈ tr -> ended tr c) /\
  (forall c, length (made_by c (asked tr)) <= 1)%nat /\ length (kept s) = n.
Proof.
  destruct (visits_run n) as (s & Hr & Hu & Ho & Hn & Ht & Ha). destruct (winv_run _ _ _ Hr) as [lost I].
  exists (visits n), s. split_and!; [done| | | |by unfold kept; rewrite Hn, Ha, app_nil_r].
  - clear. induction n as [|n IH]; [set_solver|]. cbn [visits]. rewrite elem_of_app. set_solver.
  - intros c Hc. apply (i_ended _ _ _ _ I). rewrite Ho. split; [by apply (i_opened _ _ _ _ I)|set_solver].
  - clear. intros c.
    assert (H : (length (made_by c (asked (visits n))) <= if decide (c < N.of_nat n)%N then 1 else 0)%nat).
    { induction n as [|n IH]; [case_decide; cbn [visits asked omap list_omap length made_by filter list_filter]; lia|]. cbn [visits]. unfold asked. rewrite omap_app, made_by_app, app_length. fold (asked (visits n)).
      cbn [omap list_omap]. unfold made_by at 2. rewrite filter_cons, filter_nil. cbn [fst].
      repeat case_decide; cbn [length]; lia. }
    case_decide; lia.
Qed.
Fixpoint wexec (tr : list wlabel) (out : list ask) (s : room) : option (list ask * room) :=
  match tr with
  | [] => Some (out, s)
  | l :: r => match wnext l s with Some (s', o) => wexec r (out ++ o) s' | None => None end
  end.
Lemma wexec_run tr : forall tr0 out s out' s', wrun tr0 out s -> wexec tr out s = Some (out', s') -> wrun (tr0 ++ tr) out' s'.
Proof.
  induction tr as [|l r IH]; cbn [wexec]; intros tr0 out s out' s' H E.
  - simplify_eq. by rewrite app_nil_r.
  - destruct (wnext l s) as [[s1 o]|] eqn:F; [|done]. rewrite cons_middle, (assoc_L (++)). eapply IH; [|exact E]. by econstructor.
Qed.
(** Two consumers wait, one leaves; a submission wakes the other, which gets its chunk, and nothing is left. *)
Example C112_example : let tr := [WConnect 1; WAsk 1 5 false; WConnect 2; WAsk 2 5 false; WRegister 2 5; WRegister 1 5; WClose 1] in
  exists s s', wrun tr [] s /\ ended tr 1 /\ kept s = [(2, 5); (1, 5)] /\
    wrun (tr ++ [WInsert]) [] s' /\ kept s' = [(2, 5)] /\
    exists s'', wrun (tr ++ [WInsert; WRetry 2 5 true]) [(2, 5)] s'' /\ kept s'' = [].
Proof.
  cbn zeta. pose proof (wexec_run [WConnect 1; WAsk 1 5 false; WConnect 2; WAsk 2 5 false; WRegister 2 5; WRegister 1 5; WClose 1] [] [] room_new _ _ wrun_nil eq_refl) as H1.
  pose proof (wrun_snoc _ _ _ WInsert _ _ H1 eq_refl) as H2. pose proof (wrun_snoc _ _ _ (WRetry 2 5 true) _ _ H2 eq_refl) as H3.
  eexists _, _. split; [exact H1|]. split; [unfold ended; set_solver|]. split; [by vm_compute|]. split; [exact H2|]. split; [by vm_compute|].
  eexists. split; [exact H3|by vm_compute].
Qed.
