(** Properties C97 to C99: operations and their results in the Python API. *)
From Verif Require Export PyOpsProofs.
Local Open Scope N_scope.

(** ** C97. [f] is any function, with state or not; [before]: what it was called with earlier. A
    chunk that is reported completed: [f] was called with each operation of the chunk, in order,
    each call returned, and the results in the same order are what was written. *)
Theorem C97_completed : forall fmt (f : list obj -> obj -> (exception * string) + obj) before c cid s out,
  Reports cid (RunLoop.Complete out) ∈ run_per_chunk [Reserved [(cid, (each_op_callback fmt f before c).2, s)]] ->
  exists ops rs, decode_chunk fmt c = Some ops /\ (each_op_callback fmt f before c).1 = ops /\
    length rs = length ops /\ encode_chunk fmt (OList rs) = Some out /\
    forall i v, ops !! i = Some v -> exists r, rs !! i = Some r /\ f (before ++ take i ops) v = inr r.
Proof.
  intros fmt f before c cid s out H. destruct (each_op_callback fmt f before c) as [calls r] eqn:E. cbn [fst snd] in *.
  assert (Hr : r = RunLoop.Output out).
  { destruct r as [o|x t], s; try destruct x; cbn in H; repeat (apply elem_of_cons in H as [H|H]; [by try (injection H as ->)|]); try by apply elem_of_nil in H. }
  subst r. pose proof (each_op_callback_spec _ _ _ _ _ _ E) as Hs. destruct (decode_chunk fmt c) as [ops|]; [|by destruct Hs as [_ [? ?]]].
  destruct Hs as (-> & rs & Hl & Ee & Hr). exists ops, rs. split_and!; [done|done|done|done|]. intros i v Hv.
  assert (Hi : (i < length rs)%nat) by (rewrite Hl; by eapply lookup_lt_Some). apply lookup_lt_is_Some_2 in Hi as [r Hri].
  exists r. split; [done|]. specialize (Hr i r Hri). unfold call_result in Hr. rewrite Hv in Hr. cbn in Hr. congruence.
Qed.
Print Assumptions C97_completed.
(** ... and a chunk whose operations all get a result that can be written is completed. *)
Theorem C97_completes : forall fmt (f : list obj -> obj -> (exception * string) + obj) before c cid s ops rs out,
  decode_chunk fmt c = Some ops -> length rs = length ops ->
  (forall i v r, ops !! i = Some v -> rs !! i = Some r -> f (before ++ take i ops) v = inr r) ->
  encode_chunk fmt (OList rs) = Some out ->
  Reports cid (RunLoop.Complete out) ∈ run_per_chunk [Reserved [(cid, (each_op_callback fmt f before c).2, s)]].
Proof.
  intros fmt f before c cid s ops rs out Hd Hl Hf He.
  assert (Hr : forall i v, ops !! i = Some v -> exists r, rs !! i = Some r /\ call_result f before ops i = Some (inr r)).
  { intros i v Hv. assert (Hi : (i < length rs)%nat) by (rewrite Hl; by eapply lookup_lt_Some). apply lookup_lt_is_Some_2 in Hi as [r Hri].
    exists r. split; [done|]. unfold call_result. rewrite Hv. cbn. f_equal. eauto. }
  destruct (each_op_callback fmt f before c) as [calls r] eqn:E. pose proof (each_op_callback_spec _ _ _ _ _ _ E) as Hs. rewrite Hd in Hs.
  assert (Hsame : forall rs', length rs' = length ops -> (forall i x, rs' !! i = Some x -> call_result f before ops i = Some (inr x)) -> rs' = rs).
  { intros rs' Hl' H'. apply list_eq_same_length with (length ops); [done|done|]. intros i x y Hi Hx Hy.
    assert (is_Some (ops !! i)) as [v Hv] by (by apply lookup_lt_is_Some_2). destruct (Hr i v Hv) as (r' & Hr' & Hc).
    specialize (H' i x Hx). rewrite Hc in H'. congruence. }
  destruct r as [o|x t].
  - destruct Hs as (_ & rs' & Hl' & He' & H'). rewrite (Hsame rs' Hl' H'), He in He'. injection He' as <-.
    destruct s; cbn; by (right; left).
  - exfalso. destruct Hs as [(n & Hn & _ & Hc & _)|(_ & _ & rs' & Hl' & He' & H')].
    + assert (is_Some (ops !! n)) as [v Hv] by (by apply lookup_lt_is_Some_2). destruct (Hr n v Hv) as (r' & _ & Hc'). congruence.
    + rewrite (Hsame rs' Hl' H'), He in He'. done.
Qed.
Print Assumptions C97_completes.
(** A chunk that is reported failed: nothing could be read and [f] was not called; or [f] was called
    with the operations up to one for which it raised, and that exception is reported and later
    operations are not touched; or all calls returned and their results cannot be written. *)
Theorem C97_failed : forall fmt (f : list obj -> obj -> (exception * string) + obj) before c cid s text,
  Reports cid (RunLoop.Fail text) ∈ run_per_chunk [Reserved [(cid, (each_op_callback fmt f before c).2, s)]] ->
  let calls := (each_op_callback fmt f before c).1 in
  (decode_chunk fmt c = None /\ calls = []) \/
  exists ops, decode_chunk fmt c = Some ops /\
    ((exists n v x, ops !! n = Some v /\ calls = take n ops ++ [v] /\ f (before ++ take n ops) v = inl (x, text) /\
        forall i u, (i < n)%nat -> ops !! i = Some u -> exists r, f (before ++ take i ops) u = inr r) \/
     (calls = ops /\ exists rs, length rs = length ops /\ encode_chunk fmt (OList rs) = None /\
        forall i u r, ops !! i = Some u -> rs !! i = Some r -> f (before ++ take i ops) u = inr r)).
Proof.
  intros fmt f before c cid s text H. destruct (each_op_callback fmt f before c) as [calls r] eqn:E. cbn [fst snd] in *.
  assert (Hr : exists x, r = RunLoop.Raises x text).
  { destruct r as [o|x t], s; try destruct x; cbn in H; repeat (apply elem_of_cons in H as [H|H]; [by try (injection H as ->; eauto)|]); try by apply elem_of_nil in H. }
  destruct Hr as [x ->]. pose proof (each_op_callback_spec _ _ _ _ _ _ E) as Hs. destruct (decode_chunk fmt c) as [ops|]; [|left; by destruct Hs].
  right. exists ops. split; [done|]. destruct Hs as [(n & Hn & -> & Hc & Hb)|(-> & _ & rs & Hl & Ee & Hr)].
  - left. assert (is_Some (ops !! n)) as [v Hv] by (by apply lookup_lt_is_Some_2). exists n, v, x. split_and!; [done|by apply take_S_r| |].
    + unfold call_result in Hc. rewrite Hv in Hc. cbn in Hc. congruence.
    + intros i u Hi Hu. destruct (Hb i Hi) as [y Hy]. exists y. unfold call_result in Hy. rewrite Hu in Hy. cbn in Hy. congruence.
  - right. split; [done|]. exists rs. split_and!; [done|done|]. intros i u r Hu Hri. specialize (Hr i r Hri). unfold call_result in Hr. rewrite Hu in Hr. cbn in Hr. congruence.
Qed.
Print Assumptions C97_failed.

(** A function that counts its calls and refuses to see the same value twice; operations 1 and "a",
    or 1 and 1. *)
Definition ex_fun (before : list obj) (v : obj) : (exception * string) + obj :=
  match before, v with
  | OInt 1 :: _, OInt 1 => inl (Ordinary, "seen before")
  | _, OTuple _ => inl (Ordinary, "a tuple")
  | _, _ => inr (OList [OInt (Z.of_nat (length before)); v])
  end.
Example C97_example : exists c d out text,
  decode_chunk (ex_pformat Cbor2) c = Some [OInt 1; OText "a"] /\ decode_chunk (ex_pformat Cbor2) d = Some [OInt 1; OInt 1; OInt 2] /\
  Reports (1, 0) (RunLoop.Complete out) ∈ run_per_chunk [Reserved [((1, 0), (each_op_callback (ex_pformat Cbor2) ex_fun [] c).2, Sent)]] /\
  op_results (ex_pformat Cbor2) [out] = ([OList [OInt 0; OInt 1]; OList [OInt 1; OText "a"]], true) /\
  Reports (1, 1) (RunLoop.Fail text) ∈ run_per_chunk [Reserved [((1, 1), (each_op_callback (ex_pformat Cbor2) ex_fun [] d).2, Sent)]] /\
  (each_op_callback (ex_pformat Cbor2) ex_fun [] d).1 = [OInt 1; OInt 1].
Proof.
  destruct (op_chunks (ex_pformat Cbor2) 3 [OInt 1; OText "a"]) as [[|[c|] []]|] eqn:E1; try (vm_compute in E1; discriminate).
  destruct (op_chunks (ex_pformat Cbor2) 3 [OInt 1; OInt 1; OInt 2]) as [[|[d|] []]|] eqn:E2; try (vm_compute in E2; discriminate).
  exists c, d. vm_compute in E1, E2. injection E1 as <-. injection E2 as <-. do 2 eexists.
  split_and!; [by vm_compute|by vm_compute|vm_compute; right; left|by vm_compute|vm_compute; right; left|by vm_compute].
Qed.

(** ** C98. Missing: values that the format changes, see the refutations. For operations and results
    that arrive as sent ([plain]), with consumers that may be different and have worked before: when
    each chunk has got its output, the producer reads exactly one result for each operation, in
    order, and it is what a consumer's function returned for that very operation. *)
Theorem C98_own_result_partial : forall k fmt size ops cs
    (f : nat -> list obj -> obj -> (exception * string) + obj) (before : nat -> list obj) outs,
  is_format k fmt -> Forall (plain k) ops -> (forall i h v r, f i h v = inr r -> plain k r) ->
  op_chunks fmt size ops = Some (Some <$> cs) -> length outs = length cs ->
  (forall i c o, cs !! i = Some c -> outs !! i = Some o -> (each_op_callback fmt (f i) (before i) c).2 = RunLoop.Output o) ->
  exists rs, op_results fmt outs = (rs, true) /\ Forall2 (fun v r => exists i h, f i h v = inr r) ops rs.
Proof.
  intros k fmt size ops cs f before outs Hf Hp Hr E Hl Ho.
  assert (Hs : (0 < size)%Z). { unfold op_chunks in E. destruct (Z.leb_spec size 0); [done|lia]. }
  destruct (op_chunks_plain k fmt size ops Hf Hp Hs) as (cs' & E' & H2). rewrite E in E'. injection E' as E'. apply (inj (fmap Some)) in E'. subst cs'.
  destruct (results_plain k fmt _ _ Hf H2 f before outs Hr Hl Ho) as (rs & Er & H). exists rs. split; [done|].
  unfold batched in H. by rewrite batched_concat in H.
Qed.
Print Assumptions C98_own_result_partial.
(** Plain operations are always accepted. *)
Theorem C98_accepted : forall k fmt size ops, is_format k fmt -> Forall (plain k) ops -> (0 < size)%Z ->
  exists cs, op_chunks fmt size ops = Some (Some <$> cs).
Proof. intros k fmt size ops Hf Hp Hs. destruct (op_chunks_plain k fmt size ops Hf Hp Hs) as (cs & E & _). eauto. Qed.
Print Assumptions C98_accepted.
(** An operation is refused exactly if something in it cannot be written: then the chunk with it
    raises. *)
Theorem C98_refused : forall k fmt size ops l, is_format k fmt -> op_chunks fmt size ops = Some l ->
  None ∈ l <-> exists v, v ∈ ops /\ unwritable k v.
Proof.
  intros k fmt size ops l Hf E. unfold op_chunks in E. destruct (Z.leb_spec size 0); [done|].
  assert (l = (λ b, encode_chunk fmt (OTuple b)) <$> batched (Z.to_nat size) ops) by congruence. subst l. clear E.
  assert (E : concat (batched (Z.to_nat size) ops) = ops) by (unfold batched; by rewrite batched_concat).
  assert (Hall : forall v, v ∈ ops <-> In v (concat (batched (Z.to_nat size) ops))) by (intros v; by rewrite E, elem_of_list_In).
  clear E. split.
  - intros (b & Hb & Hin)%elem_of_list_fmap. pose proof (seq_back k fmt (OTuple b) b Hf (or_intror eq_refl)) as Hsb.
    destruct (encode_chunk fmt (OTuple b)) as [s|]; [done|].
    assert (Hu : unwritable k (OTuple b)) by (apply unwritable_spec; by rewrite (proj2 (writes_seq k b))).
    destruct Hu as (u & Hu & P). inversion Hu as [|? ? ? ?|? v Hv Hi|? ? ? ? ?]; subst; [by destruct P as [[? ?]|[_ [? ?]]]|].
    exists v. split; [|by exists u]. apply Hall, in_concat. exists b. by rewrite <- !elem_of_list_In.
  - intros (v & Hv & Hu). apply Hall, in_concat in Hv as (b & Hb & Hv). apply elem_of_list_fmap. exists b. split; [|by apply elem_of_list_In].
    pose proof (seq_back k fmt (OTuple b) b Hf (or_intror eq_refl)) as Hsb. destruct (encode_chunk fmt (OTuple b)); [|done]. destruct Hsb as [_ Hwb].
    rewrite forallb_forall in Hwb. apply unwritable_spec in Hu. rewrite (Hwb v Hv) in Hu. done.
Qed.
Print Assumptions C98_refused.
(** With cbor2 and with json, an operation that is a tuple is a list for the consumer's function. *)
Theorem C98_tuple_refuted : forall k fmt l (f : list obj -> obj -> (exception * string) + obj) before, is_format k fmt -> Forall (plain k) l ->
  exists c, op_chunks fmt 1 [OTuple l] = Some [Some c] /\
  (each_op_callback fmt f before c).1 = [OList l] /\ OList l <> OTuple l.
Proof.
  intros k fmt l f before Hf Hl.
  pose proof (seq_back k fmt (OTuple [OTuple l]) [OTuple l] Hf (or_intror eq_refl)) as H.
  destruct (encode_chunk fmt (OTuple [OTuple l])) as [c|] eqn:Ec.
  - destruct H as [Hd _]. exists c. split_and!; [|unfold each_op_callback, raw_callback; rewrite Hd|done].
    + change (op_chunks fmt 1 [OTuple l]) with (Some [encode_chunk fmt (OTuple [OTuple l])]). by rewrite Ec.
    + rewrite fmap_cons, fmap_nil. rewrite (proj2 (back_seq k l)), (back_plain_list k l Hl). cbn [each_op].
      destruct (f before (OList l)) as [[x t]|r]; cbn; [done|]. by destruct (encode_chunk fmt (OList [r])).
  - cbn [forallb] in H. rewrite (proj2 (writes_seq k l)), (writes_plain_list k l Hl) in H. done.
Qed.
Print Assumptions C98_tuple_refuted.
(** With json, keys that are numbers become texts. *)
Theorem C98_keys_refuted : forall fmt (z : Z) (f : list obj -> obj -> (exception * string) + obj) before, is_format Json fmt ->
  exists c, op_chunks fmt 1 [ODict [(KInt z, ONone)]] = Some [Some c] /\
  (each_op_callback fmt f before c).1 = [ODict [(KText (pretty z), ONone)]].
Proof.
  intros fmt z f before Hf.
  pose proof (seq_back Json fmt (OTuple [ODict [(KInt z, ONone)]]) _ Hf (or_intror eq_refl)) as H.
  destruct (encode_chunk fmt (OTuple [ODict [(KInt z, ONone)]])) as [c|] eqn:Ec; [|done].
  destruct H as [Hd _]. exists c. split.
  - change (op_chunks fmt 1 [ODict [(KInt z, ONone)]]) with (Some [encode_chunk fmt (OTuple [ODict [(KInt z, ONone)]])]). by rewrite Ec.
  - unfold each_op_callback, raw_callback. rewrite Hd. cbn [fmap list_fmap back json_back List.map fst snd key_text dict_of foldl dict_set each_op].
    destruct (f before _) as [[x t]|r]; cbn; [done|]. by destruct (encode_chunk fmt (OList [r])).
Qed.
Print Assumptions C98_keys_refuted.
(** ... and two members of a dictionary may become one. *)
Theorem C98_collision_refuted : forall fmt (z : Z) a b (f : list obj -> obj -> (exception * string) + obj) before,
  is_format Json fmt -> plain Json a -> plain Json b ->
  exists c, op_chunks fmt 1 [ODict [(KInt z, a); (KText (pretty z), b)]] = Some [Some c] /\
  (each_op_callback fmt f before c).1 = [ODict [(KText (pretty z), b)]].
Proof.
  intros fmt z a b f before Hf Ha Hb. set (v := ODict [(KInt z, a); (KText (pretty z), b)]).
  pose proof (seq_back Json fmt (OTuple [v]) _ Hf (or_intror eq_refl)) as H.
  destruct (encode_chunk fmt (OTuple [v])) as [c|] eqn:Ec.
  - destruct H as [Hd _]. exists c. split.
    + change (op_chunks fmt 1 [v]) with (Some [encode_chunk fmt (OTuple [v])]). by rewrite Ec.
    + unfold each_op_callback, raw_callback. rewrite Hd. rewrite fmap_cons, fmap_nil.
      assert (E : back Json v = ODict [(KText (pretty z), b)]).
      { cbn. rewrite String.eqb_refl. pose proof (plain_back Json b Hb) as Eb. cbn [back] in Eb. by rewrite Eb. }
      rewrite E. cbn [each_op]. destruct (f before _) as [[x t]|r]; cbn; [done|]. by destruct (encode_chunk fmt (OList [r])).
  - exfalso. apply plain_writes in Ha, Hb. cbn in H, Ha, Hb. by rewrite Ha, Hb in H.
Qed.
Print Assumptions C98_collision_refuted.

Definition ex_ops : list obj := [OInt 1; OText "a"; ODict [(KText "x", OList [ONone])]; OBool true; OInt (-7)].
Definition ex_inc (before : list obj) (v : obj) : (exception * string) + obj :=
  match v with OInt z => inr (OInt (z + 1)) | _ => inr (OInt (Z.of_nat (length before))) end.
Example C98_example : is_format Json (ex_pformat Json) /\ Forall (plain Json) ex_ops /\
  (forall h v r, ex_inc h v = inr r -> plain Json r) /\
  exists c1 c2 c3 o1 o2 o3, op_chunks (ex_pformat Json) 2 ex_ops = Some [Some c1; Some c2; Some c3] /\
    (each_op_callback (ex_pformat Json) ex_inc [] c1).2 = RunLoop.Output o1 /\
    (each_op_callback (ex_pformat Json) ex_inc [] c2).2 = RunLoop.Output o2 /\
    (each_op_callback (ex_pformat Json) ex_inc [OInt 1; OText "a"] c3).2 = RunLoop.Output o3 /\
    op_results (ex_pformat Json) [o1; o2; o3] = (OInt <$> [2; 1; 0; 1; -6]%Z, true).
Proof.
  split; [apply ex_pformat_ok|]. split.
  { repeat constructor; try (intros H; by apply elem_of_nil in H). }
  split; [intros h v r H; destruct v; injection H as <-; by repeat constructor|].
  do 6 eexists. split; [by vm_compute|]. split_and!; by vm_compute.
Qed.

(** ** C99. Missing: results that are no list or tuple, see the refutations. A chunk for which the
    function of run_each_chunk returns a list or tuple of plain values is completed with an output
    that the producer reads as those values. *)
Theorem C99_read_partial : forall k fmt (f : list obj -> (exception * string) + obj) c ops v rs,
  is_format k fmt -> decode_chunk fmt c = Some ops -> f ops = inr v -> v = OList rs \/ v = OTuple rs -> Forall (plain k) rs ->
  exists out, each_chunk_callback fmt f c = RunLoop.Output out /\ op_results fmt [out] = (rs, true).
Proof.
  intros k fmt f c ops v rs Hf Hd Hv Hs Hp. unfold each_chunk_callback, raw_callback. rewrite Hd, Hv.
  destruct (seq_plain k fmt v rs Hf Hs Hp) as (out & -> & Eo). exists out. split; [done|]. cbn. rewrite Eo. by rewrite app_nil_r.
Qed.
Print Assumptions C99_read_partial.
(** Nobody looks at what the function returns: if it can be written and is no sequence, like None, a
    number or a dictionary, the chunk is completed and the producer's iteration raises at it. *)
Theorem C99_unreadable_refuted : forall k fmt (f : list obj -> (exception * string) + obj) c ops v cid s,
  is_format k fmt -> decode_chunk fmt c = Some ops -> f ops = inr v -> ~ unwritable k v -> no_sequence v ->
  exists out, Reports cid (RunLoop.Complete out) ∈ run_per_chunk [Reserved [(cid, each_chunk_callback fmt f c, s)]] /\
  forall before rest, (forall o, o ∈ before -> is_Some (decode_chunk fmt o)) ->
    (op_results fmt (before ++ out :: rest)).2 = false /\
    (op_results fmt (before ++ out :: rest)).1 = (op_results fmt before).1.
Proof.
  intros k fmt f c ops v cid s Hf Hd Hv Hw Hi. unfold each_chunk_callback, raw_callback. rewrite Hd, Hv.
  apply (not_iff_compat (unwritable_spec k v)) in Hw. apply not_false_iff_true in Hw.
  assert (Hb : items (back k v) = None).
  { destruct Hi as [Hi1 Hi2]. destruct v as [ | | |s1|s1|l1|l1|l1|t1]; try (by destruct k); try (by destruct (Hi2 s1)); by destruct (Hi1 l1). }
  specialize (Hf v). rewrite Hw in Hf. destruct Hf as (out & Eo & El). unfold encode_chunk. rewrite Eo. exists out. cbn [snd]. split.
  - destruct s; cbn; by (right; left).
  - assert (Hbad : decode_chunk fmt out = None) by (unfold decode_chunk; rewrite El; cbn; done).
    intros before rest Hg. induction before as [|o before IH]; [cbn; by rewrite Hbad|].
    cbn [app op_results]. destruct (Hg o ltac:(left)) as [l ->]. destruct (IH ltac:(intros o' Ho; apply Hg; by right)) as [IH1 IH2].
    destruct (op_results fmt (before ++ out :: rest)) as [a b], (op_results fmt before) as [a' b']. cbn [fst snd] in *. by subst.
Qed.
Print Assumptions C99_unreadable_refuted.
(** A text is a sequence: its characters become the results. So are bytes, with numbers as results
    (cbor2). *)
Theorem C99_text_refuted : forall k fmt (f : list obj -> (exception * string) + obj) c ops s,
  is_format k fmt -> decode_chunk fmt c = Some ops -> f ops = inr (OText s) ->
  exists out, each_chunk_callback fmt f c = RunLoop.Output out /\
    op_results fmt [out] = ((fun a => OText (String a "")) <$> String.list_ascii_of_string s, true).
Proof.
  intros k fmt f c ops s Hf Hd Hv. unfold each_chunk_callback, raw_callback. rewrite Hd, Hv.
  specialize (Hf (OText s)). assert (Hw : writes k (OText s) = true) by (by destruct k). rewrite Hw in Hf.
  destruct Hf as (out & Eo & El). unfold encode_chunk. rewrite Eo. exists out. split; [done|].
  cbn [op_results]. unfold decode_chunk. rewrite El. destruct k; cbn; by rewrite app_nil_r.
Qed.
Print Assumptions C99_text_refuted.
Theorem C99_bytes_refuted : forall fmt (f : list obj -> (exception * string) + obj) c ops s,
  is_format Cbor2 fmt -> decode_chunk fmt c = Some ops -> f ops = inr (OBytes s) ->
  exists out, each_chunk_callback fmt f c = RunLoop.Output out /\
    op_results fmt [out] = ((fun a => OInt (Z.of_N (Ascii.N_of_ascii a))) <$> String.list_ascii_of_string s, true).
Proof.
  intros fmt f c ops s Hf Hd Hv. unfold each_chunk_callback, raw_callback. rewrite Hd, Hv.
  specialize (Hf (OBytes s)). cbn [writes cbor_writes] in Hf.
  destruct Hf as (out & Eo & El). unfold encode_chunk. rewrite Eo. exists out. split; [done|].
  cbn [op_results]. unfold decode_chunk. rewrite El. cbn. by rewrite app_nil_r.
Qed.
Print Assumptions C99_bytes_refuted.
(** The number of results is not compared with the number of operations: with a function that drops
    one, every later result moves to the operation before. *)
Theorem C99_count_refuted : forall k fmt v1 v2 v3 (f : list obj -> (exception * string) + obj),
  is_format k fmt -> Forall (plain k) [v1; v2; v3] ->
  (forall l, f l = inr (OList (match l with [_; x] => [x] | _ => l end))) ->
  exists c1 c2 o1 o2, op_chunks fmt 2 [v1; v2; v3] = Some [Some c1; Some c2] /\
    each_chunk_callback fmt f c1 = RunLoop.Output o1 /\ each_chunk_callback fmt f c2 = RunLoop.Output o2 /\
    op_results fmt [o1; o2] = ([v2; v3], true).
Proof.
  intros k fmt v1 v2 v3 f Hf Hp E.
  destruct (op_chunks_plain k fmt 2 [v1; v2; v3] Hf Hp eq_refl) as (cs & Ec & H2).
  change (batched (Z.to_nat 2) [v1; v2; v3]) with [[v1; v2]; [v3]] in H2.
  inversion H2 as [|c1 ? cs1 ? Hc1 H2' Ea]. subst. inversion H2' as [|c2 ? cs2 ? Hc2 H2'' Eb]. subst. inversion H2''. subst.
  inversion Hp as [|? ? P1 Hp1]. subst. inversion Hp1 as [|? ? P2 Hp2]. subst.
  destruct (C99_read_partial k fmt f c1 _ _ [v2] Hf Hc1 (E _) (or_introl eq_refl)) as (o1 & E1 & R1); [by constructor|].
  destruct (C99_read_partial k fmt f c2 _ _ [v3] Hf Hc2 (E _) (or_introl eq_refl)) as (o2 & E2 & R2); [done|].
  exists c1, c2, o1, o2. split_and!; [done|done|done|]. cbn [op_results] in *.
  destruct (decode_chunk fmt o1) as [l1|]; [|done]. destruct (decode_chunk fmt o2) as [l2|]; [|done].
  rewrite app_nil_r in R1, R2. assert (l1 = [v2]) by congruence. assert (l2 = [v3]) by congruence. by subst.
Qed.
Print Assumptions C99_count_refuted.
(** A function that returns the number of operations instead of a list. *)
Example C99_example : is_format Cbor2 (ex_pformat Cbor2) /\
  exists c, decode_chunk (ex_pformat Cbor2) c = Some [OInt 1; OInt 2] /\
  (fun l : list obj => @inr (exception * string) obj (OInt (Z.of_nat (length l)))) [OInt 1; OInt 2] = inr (OInt 2) /\
  ~ unwritable Cbor2 (OInt 2) /\ no_sequence (OInt 2).
Proof.
  split; [apply ex_pformat_ok|]. destruct (op_chunks (ex_pformat Cbor2) 3 [OInt 1; OInt 2]) as [[|[c|] []]|] eqn:E1; try (vm_compute in E1; discriminate).
  exists c. vm_compute in E1. injection E1 as <-. split_and!; [by vm_compute|done| |by split].
  rewrite unwritable_spec. done.
Qed.
