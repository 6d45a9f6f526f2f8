(** What one event does to one submission. [view] collects everything stored about a submission;
    [change] lists the possible transitions; [step_change] proves that there are no others. *)
From Verif Require Export InvProofs.
Local Open Scope N_scope.

Record view : Set := View {
  v_sub : option sub_row; v_comp : option comp_row; v_fail : option fail_row; v_canc : option canc_row;
  v_meta : strat_map; v_chunks : gmap N chunk_row; v_cdone : gmap N chunk_comp_row;
  v_cfail : gmap N chunk_fail_row }.

Definition view_of (d : db) (id : sub_id) : view :=
  View (t_sub d !! id) (t_comp d !! id) (t_fail d !! id) (t_canc d !! id)
    (rows_of (t_meta d) id) (rows_of (t_chunk d) id) (rows_of (t_cdone d) id) (rows_of (t_cfail d) id).

Definition number_rows (contents : list content) : gmap N chunk_row :=
  list_to_map (imap (fun i x => (N.of_nat i, ChunkRow x 0)) contents).

Definition skipped (n : time) (m : gmap N chunk_row) : gmap N chunk_fail_row :=
  (fun c => ChunkFailRow (ch_input c) "" n true) <$> m.

Definition drop_old {A} (at_ : A -> time) (cutoff : time) (r : option A) : option A :=
  match r with Some x => if (at_ x <? cutoff)%Z then None else Some x | None => None end.

Inductive change : op -> sub_id -> view -> view -> Prop :=
| CNothing o id v : change o id v v
| CInsert id p l m st z ot n :
    change (OInsert id p l m st z ot n) id (View None None None None ∅ ∅ ∅ ∅)
      (View (Some (SubRow p (N.of_nat (length l)) 0 m ot (Some z))) None None None st (number_rows l) ∅ ∅)
| CInsertEmpty id p m st z ot n :
    change (OInsert id p [] m st z ot n) id (View None None None None ∅ ∅ ∅ ∅)
      (View None (Some (CompRow p 0 m n "{}" None)) None None st ∅ ∅ ∅)
| CAck id ix out n1 n2 s c mt ch cd :
    ch !! ix = Some c -> ix < sr_total s -> cd !! ix = None -> sr_done s + 1 < sr_total s ->
    change (OComplete (id, ix) out n1 n2) id (View (Some s) None None None mt ch cd ∅)
      (View (Some (done_plus s)) None None None mt (delete ix ch) (<[ix := ChunkCompRow out n1]> cd) ∅)
| CAckLast id ix out n1 n2 s c mt ch cd :
    ch = {[ ix := c ]} -> ix < sr_total s -> cd !! ix = None -> sr_done s + 1 = sr_total s ->
    change (OComplete (id, ix) out n1 n2) id (View (Some s) None None None mt ch cd ∅)
      (View None (Some (CompRow (sr_prefix s) (sr_total s) (sr_meta s) n2 "{}" None)) None None mt
         ∅ (<[ix := ChunkCompRow out n1]> cd) ∅)
| CRetry id ix f mx n1 n2 n3 s c mt ch cd :
    ch !! ix = Some c -> ix < sr_total s -> ch_retries c + 1 < mx ->
    change (OFail (id, ix) f mx n1 n2 n3) id (View (Some s) None None None mt ch cd ∅)
      (View (Some s) None None None mt (<[ix := ChunkRow (ch_input c) (ch_retries c + 1)]> ch) cd ∅)
| CFail id ix f mx n1 n2 n3 s c mt ch cd :
    ch !! ix = Some c -> ix < sr_total s -> mx <= ch_retries c + 1 ->
    change (OFail (id, ix) f mx n1 n2 n3) id (View (Some s) None None None mt ch cd ∅)
      (View None None (Some (fail_row_of s ix n1)) None mt ∅ cd
         (<[ix := ChunkFailRow (ch_input c) f n2 false]> (skipped n3 (delete ix ch))))
| CFailSub id ix f n1 n2 n3 s c mt ch cd :
    ch !! ix = Some c -> ix < sr_total s ->
    change (OFailSubmission id ix f n1 n2 n3) id (View (Some s) None None None mt ch cd ∅)
      (View None None (Some (fail_row_of s ix n1)) None mt ∅ cd
         (<[ix := ChunkFailRow (ch_input c) f n2 false]> (skipped n3 (delete ix ch))))
| CCancel id n1 n2 s mt ch cd :
    change (OCancel id n1 n2) id (View (Some s) None None None mt ch cd ∅)
      (View None None None (Some (canc_row_of s n1)) mt ∅ cd (skipped n2 ch))
| CCleanup cutoff id v :
    change (OCleanup cutoff) id v
      (View (v_sub v) (drop_old cr_at cutoff (v_comp v)) (drop_old fr_at cutoff (v_fail v))
         (drop_old xr_at cutoff (v_canc v))
         (if older cr_at cutoff (v_comp v) || older fr_at cutoff (v_fail v) || older xr_at cutoff (v_canc v)
          then ∅ else v_meta v)
         (v_chunks v)
         (filter (fun p => (cc_at p.2 <? cutoff)%Z = false) (v_cdone v))
         (filter (fun p => (cf_at p.2 <? cutoff)%Z = false) (v_cfail v))).

(** *** Proof that an event makes one of these changes *)
Lemma view_eq d d' id id' :
  t_sub d !! id = t_sub d' !! id' -> t_comp d !! id = t_comp d' !! id' ->
  t_fail d !! id = t_fail d' !! id' -> t_canc d !! id = t_canc d' !! id' ->
  (forall k, t_meta d !! (id, k) = t_meta d' !! (id', k)) ->
  (forall k, t_chunk d !! (id, k) = t_chunk d' !! (id', k)) ->
  (forall k, t_cdone d !! (id, k) = t_cdone d' !! (id', k)) ->
  (forall k, t_cfail d !! (id, k) = t_cfail d' !! (id', k)) ->
  view_of d id = view_of d' id'.
Proof.
  intros E1 E2 E3 E4 E5 E6 E7 E8. unfold view_of. f_equal; try done; by apply rows_of_eq.
Qed.

Lemma rows_chunk_table id contents : rows_of (chunk_table id contents) id = number_rows contents.
Proof.
  apply map_eq. intros k. rewrite lookup_rows_of, lookup_chunk_table, decide_True by done.
  unfold number_rows. symmetry.
  assert (Hk : (imap (fun i x => (N.of_nat i, ChunkRow x 0)) contents).*1 = N.of_nat <$> seq 0 (length contents)).
  { pose proof (numbered_keys id contents) as Hk. apply (f_equal (fmap snd)) in Hk.
    unfold numbered_rows in Hk. rewrite fmap_imap, <- !list_fmap_compose in Hk. unfold compose in Hk; simpl in Hk.
    rewrite fmap_imap in Hk. rewrite fmap_imap. unfold compose in *. simpl in *. exact Hk. }
  assert (Hn : NoDup (imap (fun i x => (N.of_nat i, ChunkRow x 0)) contents).*1).
  { rewrite Hk. apply NoDup_fmap_2; [|apply NoDup_seq]. intros i j. lia. }
  destruct (contents !! N.to_nat k) as [x|] eqn:E; simpl.
  - apply elem_of_list_to_map; [done|]. apply elem_of_list_lookup. exists (N.to_nat k).
    rewrite list_lookup_imap, E. simpl. by rewrite N2Nat.id.
  - apply not_elem_of_list_to_map. rewrite Hk. intros Hin. apply elem_of_list_fmap in Hin as [j [-> Hj]].
    apply elem_of_seq in Hj. rewrite Nat2N.id in E. apply lookup_ge_None in E. lia.
Qed.
Lemma lookup_number_rows contents i : number_rows contents !! i = (fun x => ChunkRow x 0) <$> contents !! N.to_nat i.
Proof. by rewrite <- (rows_chunk_table 0), lookup_rows_of, lookup_chunk_table, decide_True. Qed.
Lemma rows_meta_table id strat : rows_of (meta_table id strat) id = strat.
Proof. apply map_eq. intros k. by rewrite lookup_rows_of, lookup_meta_table, decide_True. Qed.

Lemma rows_of_union_l {K : Type} `{Countable K} {A} (m m' : gmap (sub_id * K) A) id :
  (forall k, m' !! (id, k) = None) -> rows_of (m ∪ m') id = rows_of m id.
Proof. intros E. apply rows_of_eq. intros k. rewrite lookup_union, E. by destruct (m !! _). Qed.
Lemma rows_of_union_r {K : Type} `{Countable K} {A} (m m' : gmap (sub_id * K) A) id :
  (forall k, m !! (id, k) = None) -> rows_of (m ∪ m') id = rows_of m' id.
Proof. intros E. apply rows_of_eq. intros k. rewrite lookup_union, E. by destruct (m' !! _). Qed.

Section changes.
  Context (U : sub_id -> Prop) (d : db) (HI : inv U d).

  Lemma view_unused id : ~ U id -> view_of d id = View None None None None ∅ ∅ ∅ ∅.
  Proof.
    intros HU. destruct (inv_insertable _ _ _ HI HU) as [(H1 & H2 & H3) H4]. destruct HI.
    unfold view_of. f_equal; try done.
    - destruct (t_fail d !! id) eqn:E; [|done]. naive_solver.
    - destruct (t_canc d !! id) eqn:E; [|done]. naive_solver.
    - by apply rows_of_none.
    - by apply rows_of_none.
    - apply rows_of_none. intros k. destruct (t_cdone d !! _) eqn:E; [|done]. naive_solver.
    - apply rows_of_none. intros k. destruct (t_cfail d !! _) eqn:E; [|done]. naive_solver.
  Qed.

  Lemma view_in_progress id s : t_sub d !! id = Some s ->
    view_of d id = View (Some s) None None None (rows_of (t_meta d) id) (rows_of (t_chunk d) id) (rows_of (t_cdone d) id) ∅.
  Proof.
    intros Es. destruct (inv_sub _ _ HI _ _ Es) as (H1 & H2 & H3 & H4). unfold view_of. f_equal; try done.
    apply rows_of_none. intros k. destruct (t_cfail d !! _) eqn:E; [|done].
    destruct (inv_cfail _ _ HI _ _ _ E). congruence.
  Qed.

  Lemma change_inserted id p l m st z ot n id' : ~ U id ->
    change (OInsert id p l m st z ot n) id' (view_of d id') (view_of (inserted id p l m st z ot d) id').
  Proof.
    intros HU. destruct (inv_insertable _ _ _ HI HU) as [(H1 & H2 & H3) H4].
    destruct (decide (id' = id)) as [->|Hne].
    - pose proof (view_unused id HU) as Hv. rewrite Hv. injection Hv as V1 V2 V3 V4 V5 V6 V7 V8.
      unfold view_of, inserted; simpl. rewrite lookup_insert, V2, V3, V4, V7, V8.
      rewrite !rows_of_union_l by done. rewrite rows_chunk_table, rows_meta_table. constructor.
    - replace (view_of (inserted id p l m st z ot d) id') with (view_of d id'); [constructor|].
      apply view_eq; simpl; try done.
      + by rewrite lookup_insert_ne.
      + intros k. rewrite lookup_union, lookup_meta_table, decide_False by done. by destruct (t_meta d !! _).
      + intros k. rewrite lookup_union, lookup_chunk_table, decide_False by done. by destruct (t_chunk d !! _).
  Qed.

  Lemma change_insert_empty id p m st z ot n id' : ~ U id ->
    change (OInsert id p [] m st z ot n) id' (view_of d id')
      (view_of (set_sub (delete id) (set_comp (insert id (CompRow p 0 m n "{}" None)) (inserted id p [] m st z ot d))) id').
  Proof.
    intros HU. destruct (inv_insertable _ _ _ HI HU) as [(H1 & H2 & H3) H4].
    destruct (decide (id' = id)) as [->|Hne].
    - pose proof (view_unused id HU) as Hv. rewrite Hv. injection Hv as V1 V2 V3 V4 V5 V6 V7 V8.
      unfold view_of, inserted; simpl. rewrite lookup_insert, lookup_delete, V3, V4, V7, V8.
      rewrite !rows_of_union_l by done. rewrite rows_chunk_table, rows_meta_table. constructor.
    - replace (view_of (set_sub _ _) id') with (view_of d id'); [constructor|].
      apply view_eq; simpl; try done.
      + by rewrite lookup_delete_ne, lookup_insert_ne.
      + by rewrite lookup_insert_ne.
      + intros k. rewrite lookup_union, lookup_meta_table, decide_False by done. by destruct (t_meta d !! _).
      + intros k. rewrite lookup_union, lookup_chunk_table, decide_False by done. by destruct (t_chunk d !! _).
  Qed.

  Lemma change_complete cid out n1 n2 id' :
    change (OComplete cid out n1 n2) id' (view_of d id') (view_of (snd (exec (complete_chunk_tx cid out n1 n2) d [])) id').
  Proof.
    rewrite exec_complete_chunk_tx.
    destruct (t_chunk d !! cid) as [c|] eqn:Ec; [|constructor].
    destruct (t_cdone d !! cid) as [r|] eqn:Ed; [constructor|].
    destruct (t_sub d !! cid.1) as [s|] eqn:Es; [|constructor].
    destruct cid as [id ix]; simpl in Es |- *.
    pose proof (inv_waiting_pos _ _ _ _ _ _ HI Ec Es) as Hpos.
    pose proof (inv_count _ _ HI _ _ Es) as Hcnt. pose proof (size_delete_row _ _ _ _ Ec) as Hsz.
    pose proof (inv_chunk _ _ HI _ _ _ Ec) as (s' & Es' & Hix). rewrite Es in Es'. injection Es' as <-.
    pose proof (inv_sub _ _ HI _ _ Es) as (HU & E1 & E2 & E3).
    pose proof (view_in_progress _ _ Es) as Hv.
    destruct (sr_done s + 1 =? sr_total s) eqn:Eq.
    - apply N.eqb_eq in Eq. rewrite E1. simpl.
      assert (Hdel : rows_of (delete (id, ix) (t_chunk d)) id = ∅).
      { apply map_size_empty_inv. lia. }
      destruct (decide (id' = id)) as [->|Hne].
      + rewrite Hv. unfold view_of; simpl. rewrite lookup_delete, lookup_insert, E2, E3, Hdel.
        rewrite rows_of_insert. injection Hv as V1 V2 V3 V4 V8. rewrite V8.
        apply (CAckLast id ix out n1 n2 s c); [|done|by rewrite lookup_rows_of|done].
        rewrite rows_of_delete in Hdel. apply (f_equal (insert ix c)) in Hdel.
        rewrite insert_delete in Hdel by (by rewrite lookup_rows_of). by rewrite Hdel.
      + replace (view_of (set_sub _ _) id') with (view_of d id'); [constructor|].
        apply view_eq; simpl; try done.
        * by rewrite lookup_delete_ne, lookup_insert_ne.
        * by rewrite lookup_insert_ne.
        * intros k. by rewrite lookup_delete_ne by congruence.
        * intros k. by rewrite lookup_insert_ne by congruence.
    - apply N.eqb_neq in Eq. simpl. destruct (decide (id' = id)) as [->|Hne].
      + rewrite Hv. unfold view_of; simpl. rewrite lookup_insert, E1, E2, E3.
        rewrite rows_of_insert, rows_of_delete. injection Hv as V1 V2 V3 V4 V8. rewrite V8.
        apply (CAck id ix out n1 n2 s c); [by rewrite lookup_rows_of|done|by rewrite lookup_rows_of|lia].
      + replace (view_of (after_chunk _ _ _ _ _) id') with (view_of d id'); [constructor|].
        apply view_eq; simpl; try done.
        * by rewrite lookup_insert_ne.
        * intros k. by rewrite lookup_delete_ne by congruence.
        * intros k. by rewrite lookup_insert_ne by congruence.
  Qed.

  (** The permanent failure of a chunk with row [c] (possibly with updated retries). *)
  Lemma view_failed d1 id ix f n1 n2 n3 s u :
    t_sub d !! id = Some s ->
    (d1 = d \/ exists c c', t_chunk d !! (id, ix) = Some c /\ ch_input c' = ch_input c /\ d1 = set_chunk (insert (id, ix) c') d) ->
    fst (exec (fail_submission_notx id ix f n1 n2 n3) d1 []) = Ok u ->
    exists c, t_chunk d !! (id, ix) = Some c /\
    view_of (snd (exec (fail_submission_notx id ix f n1 n2 n3) d1 [])) id =
      View None None (Some (fail_row_of s ix n1)) None (rows_of (t_meta d) id) ∅ (rows_of (t_cdone d) id)
         (<[ix := ChunkFailRow (ch_input c) f n2 false]> (skipped n3 (delete ix (rows_of (t_chunk d) id)))) /\
    (forall id', id' <> id -> view_of (snd (exec (fail_submission_notx id ix f n1 n2 n3) d1 [])) id' = view_of d id').
  Proof.
    intros Es Hd1 Hok. destruct (exec_fail_notx id ix f n1 n2 n3 d1) as (_ & Hspec & _).
    destruct (Hspec u Hok) as (s1 & c1 & m & Es1 & Ef1 & Ec1 & Ecf1 & Hins & ->).
    assert (Hsame : t_sub d1 = t_sub d /\ t_comp d1 = t_comp d /\ t_fail d1 = t_fail d /\ t_canc d1 = t_canc d /\
      t_meta d1 = t_meta d /\ t_cdone d1 = t_cdone d /\ t_cfail d1 = t_cfail d).
    { destruct Hd1 as [->|(c & c' & _ & _ & ->)]; done. }
    destruct Hsame as (S1 & S2 & S3 & S4 & S5 & S6 & S7). rewrite S1, Es in Es1. injection Es1 as <-.
    rewrite S3 in *. rewrite S7 in *.
    pose proof (inv_sub _ _ HI _ _ Es) as (HU & E1 & E2 & E3).
    pose proof (view_in_progress _ _ Es) as Hv. injection Hv as V1 V2 V3 V4 V8.
    assert (Hcd : exists c, t_chunk d !! (id, ix) = Some c /\ ch_input c1 = ch_input c /\
              delete (id, ix) (t_chunk d1) = delete (id, ix) (t_chunk d) /\
              (forall id' i, id' <> id -> t_chunk d1 !! (id', i) = t_chunk d !! (id', i))).
    { destruct Hd1 as [->|(c & c' & Hc & Hc' & ->)]; [by exists c1|]. simpl in *.
      rewrite lookup_insert in Ec1. injection Ec1 as ->. exists c. repeat split; try done.
      - apply delete_insert_delete.
      - intros id' i Hne. by rewrite lookup_insert_ne by congruence. }
    destruct Hcd as (c & Ec & Hin & Hdel & Hother). exists c. split; [done|].
    rewrite Hdel, Hin in Hins. split.
    - unfold view_of; simpl. rewrite S1, S2, S4, S5, S6, lookup_delete, lookup_insert, E1, E3. f_equal.
      + apply rows_of_none. intros k. by rewrite lookup_not_of_submission, decide_True.
      + apply map_eq. intros k. rewrite lookup_rows_of, (ins_rows_lookup _ _ _ _ Hins), lookup_skipped. simpl.
        rewrite decide_True by done.
        pose proof (f_equal (fun x => x !! k) V8) as V8k. simpl in V8k. rewrite lookup_rows_of, lookup_empty in V8k.
        destruct (decide (k = ix)) as [->|Hne].
        * rewrite lookup_delete. simpl. by rewrite !lookup_insert.
        * rewrite lookup_delete_ne by congruence. rewrite !lookup_insert_ne by congruence. rewrite V8k.
          unfold skipped. rewrite lookup_fmap, lookup_delete_ne, lookup_rows_of by congruence.
          by destruct (t_chunk d !! (id, k)).
    - intros id' Hne. rewrite S1, S2, S4, S5, S6. apply view_eq; simpl; try done.
      + by rewrite lookup_delete_ne.
      + by rewrite lookup_insert_ne.
      + intros k. rewrite lookup_not_of_submission, decide_False by done. by apply Hother.
      + intros k. rewrite (ins_rows_lookup _ _ _ _ Hins), lookup_skipped. simpl.
        rewrite decide_False by done. by rewrite lookup_insert_ne by congruence.
  Qed.

  Lemma change_fail cid f mx n1 n2 n3 id' :
    change (OFail cid f mx n1 n2 n3) id' (view_of d id') (view_of (snd (exec (retry_or_fail_chunk cid f mx n1 n2 n3) d [])) id').
  Proof.
    rewrite exec_retry_or_fail. destruct (t_chunk d !! cid) as [c|] eqn:Ec; [|constructor]. cbv zeta.
    destruct cid as [id ix]. simpl.
    pose proof (inv_chunk _ _ HI _ _ _ Ec) as (s & Es & Hix).
    pose proof (view_in_progress _ _ Es) as Hv.
    destruct (mx <=? _) eqn:Emx.
    - apply N.leb_le in Emx.
      destruct (exec (fail_submission_notx _ _ _ _ _ _) _ []) as [[u| |] d2] eqn:Ex; [|constructor|constructor].
      pose proof (view_failed (set_chunk (insert (id, ix) (ChunkRow (ch_input c) (ch_retries c + 1))) d) id ix f n1 n2 n3 s u Es) as Hvf.
      rewrite Ex in Hvf. feed specialize Hvf; [right; exists c, (ChunkRow (ch_input c) (ch_retries c + 1)); done|done|].
      destruct Hvf as (c' & Ec' & Hvf1 & Hvf2). rewrite Ec in Ec'. injection Ec' as <-. simpl in *.
      destruct (decide (id' = id)) as [->|Hne].
      + rewrite Hvf1, Hv. apply (CFail id ix f mx n1 n2 n3 s c); [by rewrite lookup_rows_of|done|done].
      + rewrite Hvf2 by done. constructor.
    - apply N.leb_gt in Emx. simpl. destruct (decide (id' = id)) as [->|Hne].
      + rewrite Hv. unfold view_of; simpl. injection Hv as V1 V2 V3 V4 V8. rewrite Es, V2, V3, V4, V8.
        rewrite rows_of_insert. apply (CRetry id ix f mx n1 n2 n3 s c); [by rewrite lookup_rows_of|done|done].
      + replace (view_of (set_chunk _ _) id') with (view_of d id'); [constructor|].
        apply view_eq; simpl; try done. intros k. by rewrite lookup_insert_ne by congruence.
  Qed.

  Lemma change_fail_submission id ix f n1 n2 n3 id' :
    change (OFailSubmission id ix f n1 n2 n3) id' (view_of d id') (view_of (snd (exec (fail_submission id ix f n1 n2 n3) d [])) id').
  Proof.
    unfold fail_submission. rewrite exec_tx by solve_good.
    destruct (exec (fail_submission_notx _ _ _ _ _ _) _ []) as [[u| |] d2] eqn:Ex; [|constructor|constructor].
    pose proof (exec_fail_notx id ix f n1 n2 n3 d) as (_ & Hspec & _). rewrite Ex in Hspec.
    destruct (Hspec u eq_refl) as (s & _ & _ & Es & _).
    pose proof (view_failed d id ix f n1 n2 n3 s u Es) as Hvf. rewrite Ex in Hvf.
    feed specialize Hvf; [by left|done|]. destruct Hvf as (c & Ec & Hvf1 & Hvf2). simpl in *.
    pose proof (inv_chunk _ _ HI _ _ _ Ec) as (s' & Es' & Hix). rewrite Es in Es'. injection Es' as <-.
    destruct (decide (id' = id)) as [->|Hne].
    - rewrite Hvf1, (view_in_progress _ _ Es).
      apply (CFailSub id ix f n1 n2 n3 s c); [by rewrite lookup_rows_of|done].
    - rewrite Hvf2 by done. constructor.
  Qed.

  Lemma change_cancel id n1 n2 id' :
    change (OCancel id n1 n2) id' (view_of d id') (view_of (snd (exec (cancel_submission id n1 n2) d [])) id').
  Proof.
    rewrite exec_cancel. destruct (t_sub d !! id) as [s|] eqn:Es; [|constructor].
    destruct (t_canc d !! id) eqn:Ec; [constructor|].
    destruct (ins_rows _ _) as [m|] eqn:Ei; [|constructor]. simpl.
    pose proof (view_in_progress _ _ Es) as Hv.
    destruct (decide (id' = id)) as [->|Hne].
    - rewrite Hv. injection Hv as V1 V2 V3 V4 V8. unfold view_of; simpl. rewrite lookup_delete, lookup_insert, V2, V3.
      replace (rows_of (not_of_submission id (t_chunk d)) id) with (∅ : gmap N chunk_row).
      2:{ symmetry. apply rows_of_none. intros k. by rewrite lookup_not_of_submission, decide_True. }
      replace (rows_of m id) with (skipped n2 (rows_of (t_chunk d) id)); [constructor|].
      apply map_eq. intros k. rewrite lookup_rows_of, (ins_rows_lookup _ _ _ _ Ei), lookup_skipped. simpl.
      rewrite decide_True by done. unfold skipped. rewrite lookup_fmap, lookup_rows_of.
      pose proof (f_equal (fun x => x !! k) V8) as V8k. simpl in V8k. rewrite lookup_rows_of, lookup_empty in V8k.
      rewrite V8k. by destruct (t_chunk d !! (id, k)).
    - replace (view_of (Db _ _ _ _ _ _ _ _) id') with (view_of d id'); [constructor|].
      apply view_eq; simpl; try done.
      + by rewrite lookup_delete_ne.
      + by rewrite lookup_insert_ne.
      + intros k. by rewrite lookup_not_of_submission, decide_False.
      + intros k. rewrite (ins_rows_lookup _ _ _ _ Ei), lookup_skipped. simpl. by rewrite decide_False by done.
  Qed.

  Lemma lookup_drop_old {A} (at_ : A -> time) cutoff (m : gmap sub_id A) id :
    filter (fun p : sub_id * A => (at_ p.2 <? cutoff)%Z = false) m !! id = drop_old at_ cutoff (m !! id).
  Proof.
    rewrite map_filter_lookup. destruct (m !! id) as [x|]; [|done]. simpl.
    destruct (at_ x <? cutoff)%Z; done.
  Qed.

  Lemma view_cleaned cutoff id' : view_of (cleaned cutoff d) id' =
    View (v_sub (view_of d id')) (drop_old cr_at cutoff (v_comp (view_of d id'))) (drop_old fr_at cutoff (v_fail (view_of d id')))
      (drop_old xr_at cutoff (v_canc (view_of d id')))
      (if older cr_at cutoff (v_comp (view_of d id')) || older fr_at cutoff (v_fail (view_of d id')) || older xr_at cutoff (v_canc (view_of d id'))
       then ∅ else v_meta (view_of d id'))
      (v_chunks (view_of d id'))
      (filter (fun p => (cc_at p.2 <? cutoff)%Z = false) (v_cdone (view_of d id')))
      (filter (fun p => (cf_at p.2 <? cutoff)%Z = false) (v_cfail (view_of d id'))).
  Proof.
    unfold view_of, cleaned; simpl. f_equal.
    - apply lookup_drop_old.
    - apply lookup_drop_old.
    - apply lookup_drop_old.
    - apply map_eq. intros k. rewrite lookup_rows_of, !map_filter_lookup. simpl.
      destruct (older cr_at _ _), (older fr_at _ _), (older xr_at _ _); simpl;
        rewrite ?lookup_empty, ?lookup_rows_of; destruct (t_meta d !! (id', k)); simpl; done.
    - apply map_eq. intros k. rewrite lookup_rows_of, !map_filter_lookup, lookup_rows_of. done.
    - apply map_eq. intros k. rewrite lookup_rows_of, !map_filter_lookup, lookup_rows_of. done.
  Qed.
  Lemma change_cleanup cutoff id' :
    change (OCleanup cutoff) id' (view_of d id') (view_of (cleaned cutoff d) id').
  Proof. rewrite view_cleaned. constructor. Qed.

  Lemma exec_change o id' : (forall id, op_ids o id -> ~ U id) ->
    change o id' (view_of d id') (view_of (snd (exec (op_prog o) d [])) id').
  Proof.
    intros Hf. destruct o; simpl op_prog; rewrite exec_map; cbn [snd].
    - specialize (Hf id eq_refl). destruct (inv_insertable _ _ _ HI Hf) as [Hi Hc].
      rewrite exec_insert_from_chunks by done. cbn [snd]. destruct contents.
      + by apply change_insert_empty.
      + by apply change_inserted.
    - rewrite complete_chunk_exec. apply change_complete.
    - apply change_fail.
    - apply change_cancel.
    - apply change_fail_submission.
    - rewrite exec_cleanup. apply change_cleanup.
  Qed.

  Lemma step_change e id' : (forall id, op_ids (e_op e) id -> ~ U id) ->
    change (e_op e) id' (view_of d id') (view_of (step d e) id').
  Proof.
    intros Hf. destruct (step_cases d e (inv_ready _ _ _ HI Hf)) as [E|[E|E]]; rewrite E.
    - constructor.
    - destruct (e_op e); simpl; try constructor. apply change_inserted. by apply Hf.
    - by apply exec_change.
  Qed.
End changes.
