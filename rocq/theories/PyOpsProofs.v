(** Proofs about the operation-level Python API. *)
From Coq Require Import Strings.Ascii.
From Verif Require Export PyOps PyProofs.
Local Open Scope N_scope.

(** *** Induction over values *)
Section obj_induction.
  Context (P : obj -> Prop).
  Hypothesis HNone : P ONone.
  Hypothesis HBool : forall b, P (OBool b).
  Hypothesis HInt : forall z, P (OInt z).
  Hypothesis HText : forall s, P (OText s).
  Hypothesis HBytes : forall s, P (OBytes s).
  Hypothesis HList : forall l, Forall P l -> P (OList l).
  Hypothesis HTuple : forall l, Forall P l -> P (OTuple l).
  Hypothesis HDict : forall l, Forall (fun x => P x.2) l -> P (ODict l).
  Hypothesis HOther : forall t, P (OOther t).
  Fixpoint obj_induction (v : obj) : P v :=
    match v with
    | ONone => HNone | OBool b => HBool b | OInt z => HInt z | OText s => HText s | OBytes s => HBytes s
    | OList l => HList l ((fix go l : Forall P l := match l with [] => Forall_nil_2 _ | v :: l => Forall_cons_2 _ _ _ (obj_induction v) (go l) end) l)
    | OTuple l => HTuple l ((fix go l : Forall P l := match l with [] => Forall_nil_2 _ | v :: l => Forall_cons_2 _ _ _ (obj_induction v) (go l) end) l)
    | ODict l => HDict l ((fix go l : Forall (fun x => P x.2) l := match l with [] => Forall_nil_2 _ | v :: l => Forall_cons_2 _ _ _ (obj_induction v.2) (go l) end) l)
    | OOther t => HOther t
    end.
End obj_induction.

(** *** Plain values *)
Lemma cbor_plain_writes v : cbor_plain v = true -> cbor_writes v = true.
Proof.
  induction v as [ | | | | |l IH|l IH|l IH| ] using obj_induction; try done; cbn [cbor_plain cbor_writes].
  - rewrite !forallb_forall. intros H x Hx. rewrite Forall_forall in IH. apply IH; [by apply elem_of_list_In|by apply H].
  - rewrite !forallb_forall. intros H x Hx. rewrite Forall_forall in IH. apply (IH x); [by apply elem_of_list_In|by apply H].
Qed.
Lemma cbor_plain_back v : cbor_plain v = true -> cbor_back v = v.
Proof.
  induction v as [ | | | | |l IH|l IH|l IH| ] using obj_induction; try done; cbn [cbor_plain cbor_back].
  - rewrite forallb_forall. intros H. f_equal. induction IH as [|x l Hx Hl IHl]; [done|]. cbn [List.map]. f_equal.
    + apply Hx, H. by left.
    + apply IHl. intros y Hy. apply H. by right.
  - rewrite forallb_forall. intros H. f_equal. induction IH as [|[k x] l Hx Hl IHl]; [done|]. cbn [List.map fst snd] in *. f_equal.
    + f_equal. apply Hx. apply (H (k, x)). by left.
    + apply IHl. intros y Hy. apply H. by right.
Qed.
Lemma json_plain_writes v : json_plain v = true -> json_writes v = true.
Proof.
  induction v as [ | | | | |l IH|l IH|l IH| ] using obj_induction; try done; cbn [json_plain json_writes].
  - rewrite !forallb_forall. intros H x Hx. rewrite Forall_forall in IH. apply IH; [by apply elem_of_list_In|by apply H].
  - rewrite !forallb_forall. intros H [k x] Hx. rewrite Forall_forall in IH. apply (IH (k, x)); [by apply elem_of_list_In|].
    specialize (H _ Hx). cbn [fst snd] in *. by destruct k.
Qed.
Lemma dict_set_new k v l : k ∉ l.*1 -> dict_set k v l = l ++ [(k, v)].
Proof.
  induction l as [|[k' v'] l IH]; [done|]. cbn [dict_set fmap list_fmap fst]. intros H. apply not_elem_of_cons in H as [Hk H].
  destruct k as [a|a], k' as [b|b]; try (by rewrite IH).
  - destruct (String.eqb_spec a b) as [->|]; [done|]. by rewrite IH.
  - destruct (Z.eqb_spec a b) as [->|]; [done|]. by rewrite IH.
Qed.
Lemma dict_of_app d l : NoDup (d.*1 ++ l.*1) -> foldl (fun d x => dict_set x.1 x.2 d) d l = d ++ l.
Proof.
  revert d. induction l as [|[k v] l IH]; intros d H; [by rewrite app_nil_r|]. cbn [foldl fst snd fmap list_fmap] in *.
  rewrite dict_set_new.
  - rewrite IH; [by rewrite <- app_assoc|]. rewrite fmap_app, <- app_assoc. done.
  - intros Hk. apply NoDup_app in H as (_ & H & _). apply (H k Hk). by left.
Qed.
Lemma dict_of_id l : NoDup l.*1 -> dict_of l = l.
Proof. intros H. unfold dict_of. by rewrite dict_of_app. Qed.
Lemma json_plain_back v : json_plain v = true -> keys_once v -> json_back v = v.
Proof.
  induction v as [ | | | | |l IH|l IH|l IH| ] using obj_induction; try done; cbn [json_plain json_back keys_once].
  - rewrite forallb_forall. intros H K. f_equal. induction IH as [|x l Hx Hl IHl]; [done|]. cbn [List.map foldr] in *. f_equal.
    + apply Hx; [apply H; by left|apply K].
    + apply IHl; [intros y Hy; apply H; by right|apply K].
  - rewrite forallb_forall. intros H [Hn K]. f_equal.
    assert (E : List.map (fun x => (KText (key_text x.1), json_back x.2)) l = l).
    { clear Hn. induction IH as [|[k x] l Hx Hl IHl]; [done|]. cbn [List.map foldr fst snd] in *. f_equal.
      - specialize (H (k, x) (or_introl eq_refl)) as Hk. cbn [fst snd] in Hk. destruct k as [t|]; [|done]. cbn [key_text]. f_equal. apply Hx; [done|apply K].
      - apply IHl; [intros y Hy; apply H; by right|apply K]. }
    rewrite E. by apply dict_of_id.
Qed.
Lemma plain_writes k v : plain k v -> writes k v = true.
Proof. destruct k; [apply cbor_plain_writes|intros [H _]; by apply json_plain_writes]. Qed.
Lemma plain_back k v : plain k v -> back k v = v.
Proof. destruct k; [apply cbor_plain_back|intros [H1 H2]; by apply json_plain_back]. Qed.

(** *** Chunks *)
Lemma writes_seq k l : writes k (OList l) = forallb (writes k) l /\ writes k (OTuple l) = forallb (writes k) l.
Proof. by destruct k. Qed.
Lemma back_seq k l : back k (OList l) = OList (back k <$> l) /\ back k (OTuple l) = OList (back k <$> l).
Proof. by destruct k. Qed.
Lemma back_plain_list k l : Forall (plain k) l -> back k <$> l = l.
Proof. induction 1 as [|v l Hv Hl IH]; [done|]. rewrite fmap_cons, IH. f_equal. by apply plain_back. Qed.
Lemma writes_plain_list k l : Forall (plain k) l -> forallb (writes k) l = true.
Proof. intros H. apply forallb_forall. intros x Hx. apply plain_writes. rewrite Forall_forall in H. apply H. by apply elem_of_list_In. Qed.
(** A sequence that is written is read back as the list of what its items become. *)
Lemma seq_back k fmt v l : is_format k fmt -> v = OList l \/ v = OTuple l ->
  match encode_chunk fmt v with
  | Some s => decode_chunk fmt s = Some (back k <$> l) /\ forallb (writes k) l = true
  | None => forallb (writes k) l = false
  end.
Proof.
  intros Hf Hv. specialize (Hf v). destruct (writes_seq k l) as [W1 W2], (back_seq k l) as [B1 B2]. unfold encode_chunk, decode_chunk.
  assert (W : writes k v = forallb (writes k) l) by (destruct Hv; by subst v).
  assert (B : back k v = OList (back k <$> l)) by (destruct Hv; by subst v).
  rewrite W, B in Hf. destruct (forallb (writes k) l).
  - destruct Hf as (s & -> & E). by rewrite E.
  - by rewrite Hf.
Qed.
Lemma seq_plain k fmt v l : is_format k fmt -> v = OList l \/ v = OTuple l -> Forall (plain k) l ->
  exists s, encode_chunk fmt v = Some s /\ decode_chunk fmt s = Some l.
Proof.
  intros Hf Hv Hl. pose proof (seq_back k fmt v l Hf Hv) as H. rewrite (writes_plain_list k l Hl), (back_plain_list k l Hl) in H.
  destruct (encode_chunk fmt v) as [s|]; [|done]. exists s. by destruct H.
Qed.

Lemma unwritable_spec k v : unwritable k v <-> writes k v = false.
Proof.
  assert (H1 : forall w l, forallb (A := obj) w l = false <-> exists v, v ∈ l /\ w v = false).
  { intros w l. induction l as [|x l IH]; cbn [forallb]; [split; [done|by intros (? & ?%elem_of_nil & _)]|].
    rewrite andb_false_iff, IH. split.
    - intros [H|(y & Hy & H)]; [exists x; split; [left|done]|exists y; split; [by right|done]].
    - intros (y & Hy & H). apply elem_of_cons in Hy as [->|Hy]; eauto. }
  assert (H2 : forall w l, forallb (A := dkey * obj) (fun x => w x.2) l = false <-> exists key v, (key, v) ∈ l /\ w v = false).
  { intros w l. induction l as [|[kx x] l IH]; cbn [forallb snd]; [split; [done|by intros (? & ? & ?%elem_of_nil & _)]|].
    rewrite andb_false_iff, IH. split.
    - intros [H|(ky & y & Hy & H)]; [exists kx, x; split; [left|done]|exists ky, y; split; [by right|done]].
    - intros (ky & y & Hy & H). apply elem_of_cons in Hy as [E|Hy]; [left; congruence|eauto]. }
  assert (W : forall l, writes k (OList l) = forallb (writes k) l /\ writes k (OTuple l) = forallb (writes k) l /\ (forall d, writes k (ODict d) = forallb (fun x => writes k x.2) d)) by (by destruct k).
  split.
  - intros (u & Hin & Hu). induction Hin as [|l v Hv Hin IH|l v Hv Hin IH|l key v Hv Hin IH].
    + destruct Hu as [[t ->]|[-> [s ->]]]; by try destruct k.
    + rewrite (proj1 (W l)), H1. eauto.
    + rewrite (proj1 (proj2 (W l))), H1. eauto.
    + rewrite (proj2 (proj2 (W []))), H2. eauto.
  - induction v as [ | | | |s|l IH|l IH|l IH|t] using obj_induction; try (by destruct k).
    + destruct k; [done|]. intros _. exists (OBytes s). split; [constructor|]. right. eauto.
    + rewrite (proj1 (W l)), H1. intros (v & Hv & H). rewrite Forall_forall in IH. destruct (IH v Hv H) as (u & Hu & P).
      exists u. split; [by eapply inside_list|done].
    + rewrite (proj1 (proj2 (W l))), H1. intros (v & Hv & H). rewrite Forall_forall in IH. destruct (IH v Hv H) as (u & Hu & P).
      exists u. split; [by eapply inside_tuple|done].
    + rewrite (proj2 (proj2 (W []))), H2. intros (key & v & Hv & H). rewrite Forall_forall in IH. destruct (IH (key, v) Hv H) as (u & Hu & P).
      exists u. split; [by eapply inside_dict|done].
    + intros _. exists (OOther t). split; [constructor|]. left. eauto.
Qed.

(** *** The calls of a function *)
Lemma each_op_spec f before ops calls r : each_op f before ops = (calls, r) ->
  match r with
  | inr rs => calls = ops /\ length rs = length ops /\ forall i x, rs !! i = Some x -> call_result f before ops i = Some (inr x)
  | inl x => exists n, (n < length ops)%nat /\ calls = take (S n) ops /\ call_result f before ops n = Some (inl x) /\
      forall i, (i < n)%nat -> exists y, call_result f before ops i = Some (inr y)
  end.
Proof.
  revert before calls r. induction ops as [|v ops IH]; intros before calls r E; cbn [each_op] in E.
  - injection E as <- <-. split_and!; [done|done|]. intros i x Hx. by rewrite lookup_nil in Hx.
  - destruct (f before v) as [x|y] eqn:Ef.
    + injection E as <- <-. exists 0%nat. cbn [length take]. split_and!; [lia|by rewrite take_0|unfold call_result; cbn; by rewrite app_nil_r, Ef|intros i Hi; lia].
    + destruct (each_op f (before ++ [v]) ops) as [cs r'] eqn:Er. injection E as <- <-. specialize (IH _ _ _ Er).
      assert (Hsh : forall i, call_result f before (v :: ops) (S i) = call_result f (before ++ [v]) ops i).
      { intros i. unfold call_result. cbn. by rewrite <- app_assoc. }
      assert (H0 : call_result f before (v :: ops) 0 = Some (inr y)). { unfold call_result. cbn. by rewrite app_nil_r, Ef. }
      destruct r' as [x|rs].
      * destruct IH as (n & Hn & -> & Hc & Hb). exists (S n). cbn [length]. split_and!; [lia|done|by rewrite Hsh|].
        intros [|i] Hi; [by exists y|]. rewrite Hsh. apply Hb. lia.
      * destruct IH as (-> & Hl & Hr). split_and!; [done|cbn; lia|]. intros [|i] x Hx; cbn in Hx; [injection Hx as <-; done|]. rewrite Hsh. by apply Hr.
Qed.
Lemma each_op_callback_spec fmt f before c calls r : each_op_callback fmt f before c = (calls, r) ->
  match decode_chunk fmt c with
  | None => calls = [] /\ exists t, r = RunLoop.Raises Ordinary t
  | Some ops =>
    match r with
    | RunLoop.Output out => calls = ops /\ exists rs, length rs = length ops /\ encode_chunk fmt (OList rs) = Some out /\
        forall i x, rs !! i = Some x -> call_result f before ops i = Some (inr x)
    | RunLoop.Raises x t =>
      (exists n, (n < length ops)%nat /\ calls = take (S n) ops /\ call_result f before ops n = Some (inl (x, t)) /\
         forall i, (i < n)%nat -> exists y, call_result f before ops i = Some (inr y)) \/
      (calls = ops /\ x = Ordinary /\ exists rs, length rs = length ops /\ encode_chunk fmt (OList rs) = None /\
         forall i x, rs !! i = Some x -> call_result f before ops i = Some (inr x))
    end
  end.
Proof.
  unfold each_op_callback, raw_callback. destruct (decode_chunk fmt c) as [ops|]; [|intros E; injection E as <- <-; eauto].
  destruct (each_op f before ops) as [cs r'] eqn:E. pose proof (each_op_spec _ _ _ _ _ E) as H. destruct r' as [[x t]|rs].
  - intros E'. injection E' as <- <-. left. exact H.
  - destruct H as (-> & Hl & Hr). destruct (encode_chunk fmt (OList rs)) as [out|] eqn:Ee; intros E'; injection E' as <- <-; eauto 10.
Qed.

(** *** Results *)
Lemma op_results_good fmt l : (forall c ops, (c, ops) ∈ l -> decode_chunk fmt c = Some ops) ->
  op_results fmt l.*1 = (concat l.*2, true).
Proof.
  induction l as [|[c ops] l IH]; intros H; [done|]. cbn [fmap list_fmap fst snd op_results concat].
  rewrite (H c ops) by left. rewrite IH; [done|]. intros c' o' Hin. apply H. by right.
Qed.
Lemma op_results_app fmt l bad rest : (forall c ops, (c, ops) ∈ l -> decode_chunk fmt c = Some ops) -> decode_chunk fmt bad = None ->
  op_results fmt (l.*1 ++ bad :: rest) = (concat l.*2, false).
Proof.
  intros H Hb. induction l as [|[c ops] l IH]; [cbn; by rewrite Hb|]. cbn [fmap list_fmap fst snd app op_results concat].
  rewrite (H c ops) by left. rewrite IH; [done|]. intros c' o' Hin. apply H. by right.
Qed.
Lemma op_chunks_plain k fmt size ops : is_format k fmt -> Forall (plain k) ops -> (0 < size)%Z ->
  exists cs, op_chunks fmt size ops = Some (Some <$> cs) /\ Forall2 (fun c b => decode_chunk fmt c = Some b) cs (batched (Z.to_nat size) ops).
Proof.
  intros Hf Hp Hs. unfold op_chunks. destruct (Z.leb_spec size 0); [lia|].
  assert (Hb : Forall (Forall (plain k)) (batched (Z.to_nat size) ops)).
  { apply Forall_forall. intros b Hb. apply Forall_forall. intros v Hv. rewrite Forall_forall in Hp. apply Hp.
    assert (E : concat (batched (Z.to_nat size) ops) = ops) by (unfold batched; by rewrite batched_concat).
    rewrite <- E. apply elem_of_list_In, in_concat. exists b. by rewrite <- !elem_of_list_In. }
  induction Hb as [|b bs Hb Hbs IH]; [exists []; split; [done|constructor]|].
  destruct IH as (cs & E & H2). destruct (seq_plain k fmt (OTuple b) b Hf (or_intror eq_refl) Hb) as (s & Es & Ed).
  exists (s :: cs). split; [|by constructor]. injection E as E. rewrite !fmap_cons, Es, E. done.
Qed.
Lemma callback_plain k fmt f before c ops out : is_format k fmt -> (forall h v r, f h v = inr r -> plain k r) ->
  decode_chunk fmt c = Some ops -> (each_op_callback fmt f before c).2 = RunLoop.Output out ->
  exists rs, decode_chunk fmt out = Some rs /\ Forall2 (fun v r => exists h, f h v = inr r) ops rs.
Proof.
  intros Hf Hp Hd E. destruct (each_op_callback fmt f before c) as [calls r] eqn:E'. cbn [snd] in E. subst r.
  pose proof (each_op_callback_spec _ _ _ _ _ _ E') as H. rewrite Hd in H. destruct H as (_ & rs & Hl & Ee & Hr).
  assert (H2 : Forall2 (fun v r => exists h, f h v = inr r) ops rs).
  { apply Forall2_same_length_lookup. split; [done|]. intros i v r Hv Hri. specialize (Hr i r Hri). unfold call_result in Hr.
    rewrite Hv in Hr. injection Hr as Hr. eauto. }
  exists rs. split; [|done].
  assert (Hpl : Forall (plain k) rs). { clear -H2 Hp. induction H2 as [|v r l l' [h Hh] _ IH]; constructor; eauto. }
  destruct (seq_plain k fmt (OList rs) rs Hf (or_introl eq_refl) Hpl) as (s & Es & Ed). rewrite Ee in Es. injection Es as <-. done.
Qed.
Lemma results_plain k fmt cs bs : is_format k fmt -> Forall2 (fun c b => decode_chunk fmt c = Some b) cs bs ->
  forall (f : nat -> list obj -> obj -> (exception * string) + obj) (before : nat -> list obj) outs,
  (forall i h v r, f i h v = inr r -> plain k r) -> length outs = length cs ->
  (forall i c o, cs !! i = Some c -> outs !! i = Some o -> (each_op_callback fmt (f i) (before i) c).2 = RunLoop.Output o) ->
  exists rs, op_results fmt outs = (rs, true) /\ Forall2 (fun v r => exists i h, f i h v = inr r) (concat bs) rs.
Proof.
  intros Hf H2. induction H2 as [|c b cs bs Hc H2 IH]; intros f before outs Hp Hl Ho.
  - destruct outs; [|done]. exists []. split; [done|constructor].
  - destruct outs as [|o outs]; [done|]. injection Hl as Hl.
    destruct (callback_plain k fmt (f 0%nat) (before 0%nat) c b o Hf (Hp 0%nat) Hc (Ho 0%nat c o eq_refl eq_refl)) as (rs & Ed & Hr).
    destruct (IH (fun i => f (S i)) (fun i => before (S i)) outs (fun i => Hp (S i)) Hl (fun i => Ho (S i))) as (rs' & Er & Hr').
    exists (rs ++ rs'). cbn [op_results concat]. rewrite Ed, Er. split; [done|]. apply Forall2_app.
    + eapply Forall2_impl; [exact Hr|]. intros v r [h Hh]. eauto.
    + eapply Forall2_impl; [exact Hr'|]. intros v r (i & h & Hh). eauto.
Qed.

(** *** A format of either kind, for the examples: the value as a tree of the library's [Countable],
    as a string of zeros and ones. *)
Notation leaf := (nat * string * Z)%type.
Definition key_tree (k : dkey) : gen_tree leaf := match k with KText s => GenLeaf (0%nat, s, 0%Z) | KInt z => GenLeaf (1%nat, "", z) end.
Fixpoint to_tree (v : obj) : gen_tree leaf :=
  match v with
  | ONone => GenLeaf (0%nat, "", 0%Z) | OBool b => GenLeaf (1%nat, "", if b then 1%Z else 0%Z) | OInt z => GenLeaf (2%nat, "", z)
  | OText s => GenLeaf (3%nat, s, 0%Z) | OBytes s => GenLeaf (4%nat, s, 0%Z) | OOther s => GenLeaf (5%nat, s, 0%Z)
  | OList l => GenNode 0 (List.map to_tree l)
  | OTuple l => GenNode 1 (List.map to_tree l)
  | ODict l => GenNode 2 (List.map (fun x => GenNode 0 [key_tree x.1; to_tree x.2]) l)
  end.
Definition tree_key (t : gen_tree leaf) : dkey := match t with GenLeaf (O, s, _) => KText s | GenLeaf (_, _, z) => KInt z | _ => KInt 0 end.
Fixpoint of_tree (t : gen_tree leaf) : obj :=
  match t with
  | GenLeaf (n, s, z) => match n with 0 => ONone | 1 => OBool (z =? 1)%Z | 2 => OInt z | 3 => OText s | 4 => OBytes s | _ => OOther s end%nat
  | GenNode 0 l => OList (List.map of_tree l)
  | GenNode 1 l => OTuple (List.map of_tree l)
  | GenNode _ l => ODict (List.map (fun t => match t with GenNode _ [k; v] => (tree_key k, of_tree v) | _ => (KInt 0, ONone) end) l)
  end.
Lemma of_to_tree v : of_tree (to_tree v) = v.
Proof.
  induction v as [ |[]| | | |l IH|l IH|l IH| ] using obj_induction; try done; cbn [to_tree of_tree]; f_equal.
  - induction IH as [|x l Hx Hl IHl]; [done|]. cbn [List.map]. by rewrite Hx, IHl.
  - induction IH as [|x l Hx Hl IHl]; [done|]. cbn [List.map]. by rewrite Hx, IHl.
  - induction IH as [|[k x] l Hx Hl IHl]; [done|]. cbn [List.map fst snd] in *. rewrite Hx, IHl. by destruct k.
Qed.
Fixpoint bits (p : positive) : string :=
  match p with xH => "" | xO p => String "0"%char (bits p) | xI p => String "1"%char (bits p) end.
Fixpoint of_bits (s : string) : positive :=
  match s with EmptyString => xH | String "0"%char s => xO (of_bits s) | String _ s => xI (of_bits s) end.
Lemma of_bits_bits p : of_bits (bits p) = p.
Proof. induction p as [p IH|p IH|]; cbn; by rewrite ?IH. Qed.
Definition ex_pformat (k : library) : pformat :=
  PFormat (fun v => if writes k v then Some (bits (encode (to_tree v))) else None)
          (fun s => (fun t => back k (of_tree t)) <$> decode (of_bits s)).
Lemma ex_pformat_ok k : is_format k (ex_pformat k).
Proof.
  intros v. cbn [pdumps ploads ex_pformat]. destruct (writes k v); [|done]. eexists. split; [done|].
  rewrite of_bits_bits, decode_encode. cbn. by rewrite of_to_tree.
Qed.
