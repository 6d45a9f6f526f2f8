(** Properties C47, C48, C50, C52, C53 (in part), C54: object store and Python library. *)
From Verif Require Export PyProofs.
From Verif Require Import PropQueue.
From Coq Require Import Strings.Ascii.
Local Open Scope N_scope.

(** ** C47 *)
Theorem C47_paths_distinct : forall base p i t p' i' t',
  (forall a b, p <> a +:+ "/" +:+ b) -> (forall a b, p' <> a +:+ "/" +:+ b) ->
  chunk_path base p i t = chunk_path base p' i' t' -> p = p' /\ i = i' /\ t = t'.
Proof. exact chunk_path_inj. Qed.
Print Assumptions C47_paths_distinct.

(** Storing succeeds exactly when every element of the stream is a chunk that gets uploaded; then
    retrieving as many chunks as were stored gives them back in order, also when only objects of
    other prefixes or of the other kind were written in between. *)
Theorem C47_roundtrip : forall base p t (l : list (option string * upload)) o n o' at_,
  (forall a b, p <> a +:+ "/" +:+ b) ->
  store_chunks base p t l o = (Some n, o') ->
  (forall i, retrieve_chunk base p i t (at_ i) = retrieve_chunk base p i t o') ->
  n = N.of_nat (length l) /\ retrieve_chunks base p n t at_ = l.*1 /\ Forall (fun x => is_Some x.1 /\ x.2 = Uploaded) l.
Proof.
  intros base p t l o n o' at_ Hp E Hat. destruct (store_chunks_result base p t l 0 o n o' E Hp) as [-> H]. split; [lia|]. split.
  - unfold retrieve_chunks. rewrite N.add_0_l, Nnat.Nat2N.id. apply list_eq. intros k. rewrite !list_lookup_fmap.
    destruct (l !! k) as [[c u]|] eqn:Ek.
    + rewrite lookup_seq_lt by (by eapply lookup_lt_Some). cbn. f_equal. rewrite Hat. exact (H k c u Ek).
    + rewrite lookup_seq_ge by (by eapply lookup_ge_None). done.
  - clear Hat at_ H. unfold store_chunks in E. revert E. generalize 0 at 1. generalize (0 + N.of_nat (length l)). revert o.
    induction l as [|[[c|] u] l IH]; intros o m i E; cbn in E; [done| |done]. destruct u; cbn in E; [|discriminate|discriminate].
    constructor; [done|]. by apply IH in E.
Qed.
Print Assumptions C47_roundtrip.
Theorem C47_store_succeeds : forall base p t (l : list (option string * upload)) o,
  Forall (fun x => is_Some x.1 /\ x.2 = Uploaded) l -> exists o', store_chunks base p t l o = (Some (N.of_nat (length l)), o').
Proof.
  intros base p t l. unfold store_chunks. assert (G : forall i o, Forall (fun x => is_Some x.1 /\ x.2 = Uploaded) l -> exists o', store_chunks_from base p t i l o = (Some (i + N.of_nat (length l)), o')).
  { induction l as [|[c u] l IH]; intros i o H.
    - exists o. cbn. by rewrite N.add_0_r.
    - apply Forall_cons in H as [[[c' Hc] Hu] H]. cbn in Hc, Hu. subst c u. cbn. destruct (IH (i + 1) (<[chunk_path base p i t:=c']> o) H) as [o' E]. exists o'. cbn in E. rewrite E. f_equal. f_equal. lia. }
  intros o H. destruct (G 0 o H) as [o' E]. exists o'. by rewrite E.
Qed.
Print Assumptions C47_store_succeeds.
(** ... and whether it succeeds or not, nothing else is touched. *)
Theorem C47_others_untouched : forall base p t (l : list (option string * upload)) o p' i' t',
  (forall a b, p <> a +:+ "/" +:+ b) -> (forall a b, p' <> a +:+ "/" +:+ b) -> (p, t) <> (p', t') ->
  retrieve_chunk base p' i' t' (snd (store_chunks base p t l o)) = retrieve_chunk base p' i' t' o.
Proof. intros base p t l o p' i' t' Hp Hp' Hne. apply store_chunks_other; [done|done|by left]. Qed.
Print Assumptions C47_others_untouched.
(** Names: of ordinary characters, literally [base/prefix/index-in.bin] (or [-out.bin]); and whatever
    the prefix, no other characters than ordinary ones, / and %. *)
Theorem C47_names : forall base p i t,
  (plain_part base -> plain_part p ->
   chunk_path base p i t = base +:+ "/" +:+ p +:+ "/" +:+ pretty i +:+ match t with Input => "-in.bin" | Output => "-out.bin" end) /\
  (forall c, c ∈ String.list_ascii_of_string (chunk_path base p i t) -> kept c \/ c = "/"%char \/ c = "%"%char).
Proof. intros base p i t. split; [intros Hb Hp; rewrite (chunk_path_plain _ _ _ _ Hb Hp); by destruct t|exact (chunk_path_safe base p i t)]. Qed.
Print Assumptions C47_names.
Example C47_example :
  store_chunks "base" "prefix" Input [(Some "a", Uploaded); (Some "b", Uploaded)] {[ "base/prefix/0-out.bin" := "x" ]} =
    (Some 2, {[ "base/prefix/0-in.bin" := "a"; "base/prefix/1-in.bin" := "b"; "base/prefix/0-out.bin" := "x" ]}) /\
  (forall a b, "prefix" <> a +:+ "/" +:+ b) /\ plain_part "prefix of run 1" /\
  chunk_path "base" "run*" 0 Input = "base/run%2A/0-in.bin".
Proof.
  split; [apply (bool_decide_unpack _); by vm_compute|]. split; [apply (no_char_by "/"); reflexivity|].
  split; [split_and!; [done..|chars]|by vm_compute].
Qed.
(** Without the condition on prefixes objects do collide. *)
Example C47_slashes_collide : chunk_path "base" "a//b" 0 Input = chunk_path "base" "a/b" 0 Input.
Proof. vm_compute. reflexivity. Qed.

(** ** C48. A serialisation format that reads back what it wrote is assumed, as the library does. *)
Theorem C48_roundtrip : forall {A} (fmt : format A) (size : Z) (ops : list A) (cs : list string),
  (forall l, loads fmt (dumps fmt l) = Some l) -> chunk_iterator fmt size ops = Some cs ->
  unchunk_iterator fmt (Some <$> cs) = (ops, true).
Proof.
  intros A fmt size ops cs Hf E. unfold chunk_iterator in E. destruct (size <=? 0)%Z; [discriminate|]. injection E as <-.
  rewrite unchunk_dumps by done. unfold batched. by rewrite batched_concat.
Qed.
Print Assumptions C48_roundtrip.
Theorem C48_sizes : forall {A} (fmt : format A) (size : Z) (ops : list A) (cs : list string),
  (forall l, loads fmt (dumps fmt l) = Some l) -> chunk_iterator fmt size ops = Some cs ->
  (0 < size)%Z /\
  forall i c, cs !! i = Some c -> exists l, loads fmt c = Some l /\ l <> [] /\ (Z.of_nat (length l) <= size)%Z /\
    ((S i < length cs)%nat -> Z.of_nat (length l) = size).
Proof.
  intros A fmt size ops cs Hf E. unfold chunk_iterator in E. destruct (size <=? 0)%Z eqn:Es; [discriminate|]. apply Z.leb_gt in Es. injection E as <-.
  split; [done|]. intros i c Hi. apply list_lookup_fmap_inv in Hi as (l & -> & Hl). exists l. split; [apply Hf|].
  destruct (batched_sizes (Z.to_nat size) ops [] ltac:(lia) ltac:(simpl; lia) i l Hl) as [H1 H2]. split; [intros ->; simpl in H1; lia|]. split; [lia|].
  intros Hlt. rewrite fmap_length in Hlt. rewrite H2 by done. lia.
Qed.
Print Assumptions C48_sizes.
Theorem C48_size_refused : forall {A} (fmt : format A) (size : Z) (ops : list A),
  chunk_iterator fmt size ops = None <-> (size <= 0)%Z.
Proof. intros A fmt size ops. unfold chunk_iterator. destruct (Z.leb_spec size 0); split; intros; try done; lia. Qed.
Print Assumptions C48_size_refused.
(** A chunk that cannot be retrieved or read raises an exception, after the operations of the chunks
    before it. *)
Theorem C48_broken : forall {A} (fmt : format A) (good : list (string * list A)) (bad : option string) (rest : list (option string)),
  (forall c ops, (c, ops) ∈ good -> loads fmt c = Some ops) -> (forall c, bad = Some c -> loads fmt c = None) ->
  unchunk_iterator fmt ((Some <$> good.*1) ++ bad :: rest) = (concat good.*2, false).
Proof.
  intros A fmt good bad rest Hg Hb. induction good as [|[c ops] good IH].
  - cbn [fmap list_fmap app unchunk_iterator]. destruct bad as [c|]; [|done]. cbn [mbind option_bind]. by rewrite (Hb c eq_refl).
  - change (unchunk_iterator fmt ((Some <$> ((c, ops) :: good).*1) ++ bad :: rest)) with
      (match loads fmt c with Some ops => let '(r, ok) := unchunk_iterator fmt ((Some <$> good.*1) ++ bad :: rest) in (ops ++ r, ok) | None => ([], false) end). rewrite (Hg c ops) by apply elem_of_list_here.
    rewrite IH; [done|]. intros c' o' Hin. apply Hg. by right.
Qed.
Print Assumptions C48_broken.
(** A format for lists of characters. *)
Definition ex_format : format ascii := Format String.string_of_list_ascii (fun s => Some (String.list_ascii_of_string s)).
Example C48_example : (forall l, loads ex_format (dumps ex_format l) = Some l) /\
  chunk_iterator ex_format 2 (String.list_ascii_of_string "abcde") = Some ["ab"; "cd"; "e"] /\
  chunk_iterator ex_format 3 [] = Some [] /\
  unchunk_iterator ex_format [Some "ab"; None; Some "c"] = (["a"; "b"]%char, false).
Proof. split; [|by vm_compute]. intros l. cbn. by rewrite list_ascii_of_string_of_list_ascii. Qed.

(** ** C50. The answers to the polls are what the database says at those moments, or errors. *)
Definition polls_see (hs : nat -> history) (id : sub_id) (polls : nat -> option (option status)) : Prop :=
  forall i, polls i = None \/ exists a, status_of (after (hs i)) id = Ok a /\ polls i = Some a.
(** Missing: cancelled submissions (see the refutation). Once a submission was completed or has
    failed and as long as no cleanup removes it, the next poll ends the waiting, with the outputs or
    the failure of that submission or with an error of the request. *)
Theorem C50_completed_or_failed_partial : forall hs id polls h h' k st,
  grows hs -> fresh_ids (hs k) -> clocks_ok (hs k) -> polls_see hs id polls ->
  hs k = h ++ h' -> no_cleanup h' -> reports (after h) id st -> kind_of st = KCompleted \/ kind_of st = KFailed ->
  exists r, wait_for polls (S k) = Some r /\
    (r = ClientError \/
     match st with Completed s => r = Streams (default "" (sc_prefix s)) (sc_total s) | Failed s c => r = Raises s c | _ => False end).
Proof.
  intros hs id polls h h' k st Hg Hf Hc Hp Eh Hn Hst Hk. assert (Ht : terminal st) by (by destruct st, Hk). rewrite Eh in Hf, Hc.
  assert (Hlate : forall h1 h2, h' = h1 ++ h2 -> reports (after (h ++ h1)) id st).
  { intros h1 h2 ->. rewrite app_assoc in Hf. apply fresh_prefix in Hf. apply terminal_no_cleanup; try done. by apply Forall_app in Hn as [? _]. }
  assert (Hm : match st with Completed s => maybe_stream (Some (Some st)) = Streams (default "" (sc_prefix s)) (sc_total s) | Failed s c => maybe_stream (Some (Some st)) = Raises s c | _ => False end).
  { destruct st; try done; by destruct Hk. }
  destruct (wait_answered polls k) as [r Hr].
  { destruct (Hp k) as [->|(a & Ha & ->)]; [done|]. rewrite Eh in Ha. pose proof (Hlate h' [] (eq_sym (app_nil_r _))) as Hk'. unfold reports in Hk'. rewrite Ha in Hk'. injection Hk' as ->. destruct st; try done; by rewrite Hm. }
  exists r. split; [done|]. destruct (wait_source _ _ _ Hr) as (Hnn & i & Hi & ->). destruct (Hp i) as [->|(a & Ha & E)]; [by left|]. rewrite E in *. right.
  assert (Ea : a = Some st); [|subst a; destruct st; done].
  assert (Hpre : hs i `prefix_of` h ++ h') by (rewrite <- Eh; apply grows_le; [done|lia]).
  assert (Hcase : (exists h1 h2, hs i = h ++ h1 /\ h' = h1 ++ h2) \/ exists h2, h = hs i ++ h2).
  { destruct Hpre as [t Ht']. destruct (decide (length (hs i) <= length h)%nat) as [Hl|Hl].
    - right. exists (drop (length (hs i)) h). apply (f_equal (take (length h))) in Ht' as Hx. rewrite take_app in Hx. rewrite take_app_ge in Hx by done. rewrite Hx at 1. f_equal. apply (f_equal (drop (length (hs i)))) in Ht'. rewrite drop_app, drop_app_le in Ht' by done. rewrite <- Ht'. rewrite take_app_le by (rewrite drop_length; lia). by rewrite take_ge by (rewrite drop_length; lia).
    - left. exists (drop (length h) (hs i)), t. assert (hs i = h ++ drop (length h) (hs i)) as E1.
      { apply (f_equal (take (length h))) in Ht'. rewrite take_app, take_app_le in Ht' by lia. rewrite Ht' at 1. by rewrite take_drop. }
      split; [done|]. rewrite E1, <- app_assoc in Ht'. by apply app_inv_head in Ht'. }
  destruct Hcase as [(h1 & h2 & E1 & E2)|[h2 E2]].
  - rewrite E1 in Ha. pose proof (Hlate h1 h2 E2) as Hx. unfold reports in Hx. rewrite Ha in Hx. by injection Hx.
  - destruct a as [st'|]; [|by destruct Hnn]. assert (Ht' : terminal st') by (by destruct st'). subst h. rewrite <- app_assoc in Hf, Hc.
    assert (Hf2 : fresh_ids (hs i ++ h2)). { rewrite app_assoc in Hf. by apply fresh_prefix in Hf. }
    assert (Hc2 : clocks_ok (hs i ++ h2)). { unfold clocks_ok in *. rewrite app_assoc in Hc. by apply Forall_app in Hc as [? _]. }
    destruct (terminal_forever (hs i) h2 id st' Hf2 (or_introl Hc2) Ha Ht') as [Hx|[_ Hx]]; unfold reports, unknown in *; rewrite Hst in Hx; congruence.
Qed.
Print Assumptions C50_completed_or_failed_partial.
Definition ex_polls : nat -> option (option status) := fun i => match status_of (after (take (S (S i)) ex_h)) 3 with Ok a => Some a | _ => None end.
Example C50_example : polls_see (fun i => take (S (S i)) ex_h) 3 ex_polls /\ grows (fun i => take (S (S i)) ex_h) /\
  wait_for ex_polls 2 = None /\ exists k s, reports (after (take (S (S k)) ex_h)) 3 (Completed s) /\ wait_for ex_polls (S k) = Some (Streams "p" 1).
Proof.
  split; [|split; [|split; [by vm_compute|]]].
  - intros i. unfold ex_polls. destruct (status_of (after (take (S (S i)) ex_h)) 3) as [a|e|]; [right; eauto|by left|by left].
  - intros k. exists (take 1 (drop (S (S k)) ex_h)). rewrite take_take_drop. f_equal. lia.
  - by_status (after (take 8 ex_h)) 3 (fun st => match st with Completed s => true | _ => false end) Hst. destruct Hst as ([| s | |] & Hs & E); try discriminate E.
    exists 6%nat, s. split; [exact Hs|]. clear. by vm_compute.
Qed.

(** Somebody who waits for a cancelled submission waits forever. *)
Theorem C50_refuted : forall hs id polls st,
  grows hs -> (forall k, fresh_ids (hs k)) -> (forall k, clocks_ok (hs k)) ->
  (forall i, exists a, status_of (after (hs i)) id = Ok a /\ polls i = Some a) ->
  reports (after (hs 0%nat)) id st -> kind_of st = KCancelled ->
  forall n, wait_for polls n = None.
Proof.
  intros hs id polls st Hg Hf Hc Hp Hst Hk. apply wait_never. intros n. destruct (Hp n) as (a & Ha & ->).
  destruct st; try done. destruct (grows_le hs 0 n Hg ltac:(lia)) as [h' E]. pose proof (Hf n) as Hfn. pose proof (Hc n) as Hcn. rewrite E in Hfn, Hcn, Ha.
  destruct (terminal_forever (hs 0%nat) h' id _ Hfn (or_introl Hcn) Hst I) as [Hx|[_ Hx]]; unfold reports, unknown in Hx; rewrite Ha in Hx; by injection Hx as ->.
Qed.
Print Assumptions C50_refuted.
Example C50_refuted_example : grows (fun _ => ex_h) /\ fresh_ids ex_h /\ clocks_ok ex_h /\ exists st, reports (after ex_h) 2 st /\ kind_of st = KCancelled.
Proof.
  split; [by intros k|]. split; [exact ex_fresh|]. split; [exact ex_clocks|].
  by_status (after ex_h) 2 (fun st => match st with Cancelled _ => true | _ => false end) Hst. destruct Hst as (st & Hs & E). exists st. split; [exact Hs|]. by destruct st.
Qed.

(** ** C52 *)
Theorem C52_backoff : forall j k, (j <= k)%nat -> 10 <= pause j <= pause k /\ pause k <= 5000 /\ ((9 <= j)%nat -> pause j = 5000).
Proof.
  intros j k Hjk. split; [split; [by apply (pause_le 0); lia|by apply pause_le]|]. split; [apply pause_max|].
  intros H9. pose proof (pause_le 9 j H9) as H. pose proof (pause_max j) as H'. replace (pause 9) with 5000 in H by (by vm_compute). unfold polling_interval in H'. lia.
Qed.
Print Assumptions C52_backoff.
Example C52_example : pause <$> seq 0 11 = [10; 20; 40; 80; 160; 320; 640; 1280; 2560; 5000; 5000].
Proof. by vm_compute. Qed.

(** ** C53. Missing: what happens when a retrieval fails (refuted in PropWorld.v). When all contents
    can be fetched the consumer gets the whole batch in order, each with its content. *)
Theorem C53_whole_batch_partial : forall base l broken o,
  (forall i r s, l !! i = Some (r, s) ->
     is_Some (c_input r) \/ (broken i = false /\ exists p, s_prefix s = Some p /\ is_Some (retrieve_chunk base p (c_index r) Input o))) ->
  exists l', retrieve_batch base l broken o = Some l' /\ (fun x => x.1.1) <$> l' = l.*1 /\
    forall i r s, l !! i = Some (r, s) -> exists c p, l' !! i = Some (r, c, p) /\
      match c_input r with Some c' => c = c' /\ p = None | None => p = s_prefix s /\ exists p', p = Some p' /\ retrieve_chunk base p' (c_index r) Input o = Some c end.
Proof.
  intros base l broken o H. destruct (retrieve_batch_all base o l broken) as [l' Hl'].
  { intros i r s Hi. unfold from_internal. destruct (H i r s Hi) as [[c ->]|[-> (p & -> & [c ->])]]; [by eauto|]. destruct (c_input r); eauto. }
  exists l'. split; [done|]. destruct (retrieve_batch_some base o l broken l' Hl') as [H1 H2]. split; [done|].
  intros i r s Hi. destruct (Forall2_lookup_l _ _ _ _ _ H2 Hi) as ([[r' c] p] & Hx & Hy). simpl in Hy.
  assert (r' = r) as ->. { apply (f_equal (.!! i)) in H1. rewrite !list_lookup_fmap, Hi, Hx in H1. simpl in H1. congruence. }
  exists c, p. split; [done|]. unfold from_internal in Hy. destruct (c_input r) as [c'|]; [by injection Hy as -> ->|].
  destruct (s_prefix s) as [p'|]; [|done]. destruct (retrieve_chunk base p' (c_index r) Input o) as [c'|] eqn:E; [|done]. injection Hy as -> <-. eauto.
Qed.
Print Assumptions C53_whole_batch_partial.

(** ** C54 *)
Theorem C54_roundtrip : forall s p, of_py (to_py s) = s /\ of_py_ref (to_py s) = s /\ to_py (of_py p) = p /\ to_py (of_py_ref p) = p.
Proof. intros s p. by rewrite !of_py_both, of_to, to_of. Qed.
Print Assumptions C54_roundtrip.
Theorem C54_equality : forall a b, py_eq a b = true <-> a = b.
Proof. intros a b. unfold py_eq. rewrite bool_decide_eq_true. split; [|by intros ->]. intros E. rewrite <- (to_of a), <- (to_of b). by rewrite E. Qed.
Print Assumptions C54_equality.
Example C54_example : to_py (PreferDistinct "a" (PreferDistinct "b" Random)) = PyPreferDistinct "a" (PyPreferDistinct "b" PyRandom).
Proof. reflexivity. Qed.
