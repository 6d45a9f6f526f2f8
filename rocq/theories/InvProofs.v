(** The database invariant and its preservation by every event. *)
From Verif Require Export StepProofs.
Local Open Scope N_scope.

(** *** The invariant *)
Record inv (U : sub_id -> Prop) (d : db) : Prop := Inv {
  inv_chunk : forall id i c, t_chunk d !! (id, i) = Some c -> exists s, t_sub d !! id = Some s /\ i < sr_total s;
  inv_count : forall id s, t_sub d !! id = Some s ->
    sr_done s + N.of_nat (size (rows_of (t_chunk d) id)) = sr_total s;
  inv_open : forall id s, t_sub d !! id = Some s -> sr_done s < sr_total s \/ sr_total s = 0;
  inv_sub : forall id s, t_sub d !! id = Some s ->
    U id /\ t_comp d !! id = None /\ t_fail d !! id = None /\ t_canc d !! id = None;
  inv_comp : forall id r, t_comp d !! id = Some r -> U id /\ t_fail d !! id = None /\ t_canc d !! id = None;
  inv_fail : forall id r, t_fail d !! id = Some r -> U id /\ t_canc d !! id = None;
  inv_canc : forall id r, t_canc d !! id = Some r -> U id;
  inv_meta : forall id k v, t_meta d !! (id, k) = Some v -> U id;
  inv_cdone : forall id i r, t_cdone d !! (id, i) = Some r ->
    U id /\ t_chunk d !! (id, i) = None /\ t_cfail d !! (id, i) = None;
  inv_cfail : forall id i r, t_cfail d !! (id, i) = Some r -> U id /\ t_sub d !! id = None }.

Lemma inv_empty : inv (fun _ => False) db_empty.
Proof. split; intros *; simpl; rewrite lookup_empty; done. Qed.

Lemma inv_mono (U V : sub_id -> Prop) d : (forall id, U id -> V id) -> inv U d -> inv V d.
Proof. intros HUV []. split; intros; naive_solver. Qed.

Lemma inv_insertable U d id : inv U d -> ~ U id -> insertable id d /\ t_comp d !! id = None.
Proof.
  intros [] HU. repeat split.
  - destruct (t_sub d !! id) eqn:E; [|done]. naive_solver.
  - intros k. destruct (t_meta d !! (id, k)) eqn:E; [|done]. naive_solver.
  - intros k. destruct (t_chunk d !! (id, k)) eqn:E; [|done]. naive_solver.
  - destruct (t_comp d !! id) eqn:E; [|done]. naive_solver.
Qed.

Lemma rows_of_chunk_table (id : sub_id) (contents : list content) (m : gmap chunk_id chunk_row) :
  (forall i, m !! (id, i) = None) ->
  rows_of (chunk_table id contents ∪ m) id = rows_of (chunk_table id contents) id.
Proof.
  intros Hm. apply rows_of_eq. intros k. rewrite lookup_union, Hm. by destruct (_ !! _).
Qed.
Lemma rows_of_chunk_table_ne (id id' : sub_id) (contents : list content) (m : gmap chunk_id chunk_row) : id' <> id ->
  rows_of (chunk_table id contents ∪ m) id' = rows_of m id'.
Proof.
  intros Hne. apply rows_of_eq. intros k. rewrite lookup_union, lookup_chunk_table.
  rewrite decide_False by done. by destruct (m !! _).
Qed.
Lemma size_chunk_table id contents : size (rows_of (chunk_table id contents) id) = length contents.
Proof.
  assert (E : rows_of (chunk_table id contents) id =
    list_to_map (imap (fun i x => (N.of_nat i, ChunkRow x 0)) contents)).
  { assert (Hk : (imap (fun i x => (N.of_nat i, ChunkRow x 0)) contents).*1 = N.of_nat <$> seq 0 (length contents)).
    { pose proof (numbered_keys id contents) as Hk. apply (f_equal (fmap snd)) in Hk.
      unfold numbered_rows in Hk. rewrite fmap_imap, <- !list_fmap_compose in Hk. unfold compose in Hk; simpl in Hk.
      rewrite fmap_imap in Hk. rewrite fmap_imap. unfold compose in *. simpl in *. exact Hk. }
    assert (Hn : NoDup (imap (fun i x => (N.of_nat i, ChunkRow x 0)) contents).*1).
    { rewrite Hk. apply NoDup_fmap_2; [|apply NoDup_seq]. intros i j. lia. }
    apply map_eq. intros k. rewrite lookup_rows_of, lookup_chunk_table, decide_True by done.
    symmetry. destruct (contents !! N.to_nat k) as [x|] eqn:E; simpl.
    - apply elem_of_list_to_map; [done|]. apply elem_of_list_lookup. exists (N.to_nat k).
      rewrite list_lookup_imap, E. simpl. by rewrite N2Nat.id.
    - apply not_elem_of_list_to_map. rewrite Hk. intros Hin. apply elem_of_list_fmap in Hin as [j [-> Hj]].
      apply elem_of_seq in Hj. rewrite Nat2N.id in E. apply lookup_ge_None in E. lia. }
  rewrite E. unfold size, map_size. rewrite map_to_list_to_map.
  - by rewrite imap_length.
  - pose proof (numbered_nodup id contents) as Hn. unfold numbered_rows in Hn. rewrite fmap_imap in Hn.
    rewrite fmap_imap. unfold compose in *; simpl in *.
    apply (NoDup_fmap_1 (fun j => (id, j))). rewrite fmap_imap. exact Hn.
Qed.

Lemma inv_inserted U d id p l m s z ot : inv U d -> ~ U id ->
  inv (fun x => U x \/ x = id) (inserted id p l m s z ot d).
Proof.
  intros HI HU. destruct (inv_insertable _ _ _ HI HU) as [(Hs & Hm & Hc) Hcomp].
  assert (HnU : forall x, U x -> x <> id) by (intros x Hx ->; done).
  destruct HI. split; simpl.
  - intros id' i c. rewrite lookup_union_Some_raw, lookup_chunk_table. intros [E|[_ E]].
    + destruct (decide (id' = id)) as [->|]; [|done]. rewrite lookup_insert. eexists. split; [done|]. simpl.
      destruct (l !! N.to_nat i) eqn:El; [|done]. apply lookup_lt_Some in El. lia.
    + destruct (inv_chunk0 _ _ _ E) as [s' [Es Hi]].
      rewrite lookup_insert_ne; [by exists s'|]. intros <-. congruence.
  - intros id' s'. destruct (decide (id' = id)) as [->|Hne].
    + rewrite lookup_insert. intros [= <-]. simpl. rewrite rows_of_chunk_table by done.
      rewrite size_chunk_table. lia.
    + rewrite lookup_insert_ne by done. rewrite rows_of_chunk_table_ne by done. apply inv_count0.
  - intros id' s'. destruct (decide (id' = id)) as [->|Hne].
    + rewrite lookup_insert. intros [= <-]. simpl. lia.
    + rewrite lookup_insert_ne by done. apply inv_open0.
  - intros id' s'. destruct (decide (id' = id)) as [->|Hne].
    + intros _. split; [by right|]. split; [done|].
      split; [destruct (t_fail d !! id) eqn:E; [|done] | destruct (t_canc d !! id) eqn:E; [|done]]; naive_solver.
    + rewrite lookup_insert_ne by done. intros E. naive_solver.
  - intros id' r E. naive_solver.
  - intros id' r E. naive_solver.
  - intros id' r E. naive_solver.
  - intros id' k v. rewrite lookup_union_Some_raw, lookup_meta_table. intros [E|[_ E]]; [|naive_solver].
    destruct (decide _); [by right|done].
  - intros id' i r E. destruct (inv_cdone0 _ _ _ E) as (H1 & H2 & H3). split; [by left|]. split; [|done].
    rewrite lookup_union_None. split; [|done]. rewrite lookup_chunk_table, decide_False by naive_solver. done.
  - intros id' i r E. destruct (inv_cfail0 _ _ _ E) as (H1 & H2). split; [by left|].
    rewrite lookup_insert_ne by (intros <-; done). done.
Qed.

(** A submission without waiting chunks may be moved to the completed table. *)
Lemma inv_complete_sub U d id s r : inv U d -> t_sub d !! id = Some s ->
  (forall i, t_chunk d !! (id, i) = None) ->
  inv U (set_sub (delete id) (set_comp (insert id r) d)).
Proof.
  intros HI Es Hc. destruct HI. destruct (inv_sub0 _ _ Es) as (HU & E1 & E2 & E3). split; simpl.
  - intros id' i c E. destruct (inv_chunk0 _ _ _ E) as [s' [Es' Hi]].
    rewrite lookup_delete_ne; [by exists s'|]. intros <-. congruence.
  - intros id' s'. rewrite lookup_delete_Some. intros [_ E]. by eapply inv_count0.
  - intros id' s'. rewrite lookup_delete_Some. intros [_ E]. by eapply inv_open0.
  - intros id' s'. rewrite lookup_delete_Some. intros [Hne E]. rewrite lookup_insert_ne by done. by eapply inv_sub0.
  - intros id' r'. destruct (decide (id' = id)) as [->|Hne]; [done|]. rewrite lookup_insert_ne by done. apply inv_comp0.
  - intros id' r' E. naive_solver.
  - intros id' r' E. naive_solver.
  - done.
  - done.
  - intros id' i r' E. destruct (inv_cfail0 _ _ _ E) as [H1 H2]. split; [done|]. rewrite lookup_delete_None. by right.
Qed.

(** Facts about the counts used below. *)
Lemma inv_waiting_pos U d id i c s : inv U d -> t_chunk d !! (id, i) = Some c -> t_sub d !! id = Some s ->
  sr_done s < sr_total s.
Proof.
  intros HI Ec Es. pose proof (inv_count _ _ HI _ _ Es) as H.
  assert (size (rows_of (t_chunk d) id) <> 0)%nat; [|lia].
  apply map_size_non_empty_iff. intros E. pose proof (lookup_rows_of (t_chunk d) id i) as Hl.
  rewrite E, lookup_empty in Hl. congruence.
Qed.

Lemma size_delete_row (m : gmap chunk_id chunk_row) (id i : N) (c : chunk_row) : m !! (id, i) = Some c ->
  N.of_nat (size (rows_of (delete (id, i) m) id)) + 1 = N.of_nat (size (rows_of m id)).
Proof.
  intros E. rewrite rows_of_delete. rewrite <- lookup_rows_of in E.
  rewrite (map_size_delete_Some i (rows_of m id)) by (by eexists).
  assert (size (rows_of m id) <> 0)%nat; [|lia].
  apply map_size_non_empty_iff. intros E'. rewrite E', lookup_empty in E. done.
Qed.

Lemma inv_complete_chunk U d cid out n1 n2 : inv U d ->
  inv U (snd (exec (complete_chunk_tx cid out n1 n2) d [])).
Proof.
  intros HI. rewrite exec_complete_chunk_tx.
  destruct (t_chunk d !! cid) as [c|] eqn:Ec; [|done].
  destruct (t_cdone d !! cid) as [r|] eqn:Ed; [done|].
  destruct (t_sub d !! cid.1) as [s|] eqn:Es; [|done].
  destruct cid as [id ix]; simpl in *.
  pose proof (inv_waiting_pos _ _ _ _ _ _ HI Ec Es) as Hpos.
  pose proof (inv_count _ _ HI _ _ Es) as Hcnt. pose proof (size_delete_row _ _ _ _ Ec) as Hsz.
  assert (Hrows : sr_done s + 1 = sr_total s -> forall i, delete (id, ix) (t_chunk d) !! (id, i) = None).
  { intros Heq i. assert (size (rows_of (delete (id, ix) (t_chunk d)) id) = 0)%nat as H0 by lia.
    apply map_size_empty_inv in H0. by rewrite <- lookup_rows_of, H0, lookup_empty. }
  (* the invariant after the chunk was recorded, except for [inv_open] of this submission *)
  assert (Hbase : (sr_done s + 1 <> sr_total s -> inv U (after_chunk (id, ix) out n1 s d)) /\
    (sr_done s + 1 = sr_total s -> t_comp d !! id = None -> forall r,
       inv U (set_sub (delete id) (set_comp (insert id r) (after_chunk (id, ix) out n1 s d))))).
  { destruct HI. destruct (inv_sub0 _ _ Es) as (HU & E1 & E2 & E3). split.
    - intros Hne. split; simpl.
      + intros id' i c'. rewrite lookup_delete_Some. intros [_ E]. destruct (inv_chunk0 _ _ _ E) as [s' [Es' Hi]].
        destruct (decide (id' = id)) as [->|Hid].
        * rewrite lookup_insert. eexists. split; [done|]. simpl. congruence.
        * rewrite lookup_insert_ne by done. by exists s'.
      + intros id' s'. destruct (decide (id' = id)) as [->|Hid].
        * rewrite lookup_insert. intros [= <-]. simpl. lia.
        * rewrite lookup_insert_ne by done. rewrite rows_of_delete_ne by done. apply inv_count0.
      + intros id' s'. destruct (decide (id' = id)) as [->|Hid].
        * rewrite lookup_insert. intros [= <-]. simpl. lia.
        * rewrite lookup_insert_ne by done. apply inv_open0.
      + intros id' s'. destruct (decide (id' = id)) as [->|Hid]; [done|].
        rewrite lookup_insert_ne by done. apply inv_sub0.
      + done.
      + done.
      + done.
      + done.
      + intros id' i r. destruct (decide ((id', i) = (id, ix))) as [E|Hid].
        * injection E as -> ->. rewrite lookup_delete. intros _. split; [done|]. split; [done|].
          destruct (t_cfail d !! (id, ix)) eqn:Ef; [|done]. naive_solver.
        * rewrite lookup_insert_ne, lookup_delete_ne by done. apply inv_cdone0.
      + intros id' i r E. destruct (inv_cfail0 _ _ _ E) as [H1 H2]. split; [done|].
        rewrite lookup_insert_ne by (intros <-; congruence). done.
    - intros Heq Hcomp r. specialize (Hrows Heq). split; simpl.
      + intros id' i c'. intros E. assert (id' <> id) as Hid by (intros ->; rewrite Hrows in E; done).
        rewrite lookup_delete_Some in E. destruct E as [_ E]. destruct (inv_chunk0 _ _ _ E) as [s' [Es' Hi]].
        rewrite lookup_delete_ne, lookup_insert_ne by done. by exists s'.
      + intros id' s'. rewrite lookup_delete_Some. intros [Hid E]. rewrite lookup_insert_ne in E by done.
        rewrite rows_of_delete_ne by done. by eapply inv_count0.
      + intros id' s'. rewrite lookup_delete_Some. intros [Hid E]. rewrite lookup_insert_ne in E by done. by eapply inv_open0.
      + intros id' s'. rewrite lookup_delete_Some. intros [Hid E]. rewrite lookup_insert_ne in E by done.
        rewrite lookup_insert_ne by done. by eapply inv_sub0.
      + intros id' r'. destruct (decide (id' = id)) as [->|Hid]; [done|]. rewrite lookup_insert_ne by done. apply inv_comp0.
      + intros id' r' E. naive_solver.
      + done.
      + done.
      + intros id' i r'. destruct (decide ((id', i) = (id, ix))) as [E|Hid].
        * injection E as -> ->. rewrite lookup_delete. intros _. split; [done|]. split; [done|].
          destruct (t_cfail d !! (id, ix)) eqn:Ef; [|done]. naive_solver.
        * rewrite lookup_insert_ne, lookup_delete_ne by done. apply inv_cdone0.
      + intros id' i r' E. destruct (inv_cfail0 _ _ _ E) as [H1 H2]. split; [done|].
        rewrite lookup_delete_None. destruct (decide (id = id')); [by left|right]. by rewrite lookup_insert_ne. }
  destruct (sr_done s + 1 =? sr_total s) eqn:Eq.
  - apply N.eqb_eq in Eq. destruct (t_comp d !! id) eqn:Ecomp; [done|]. simpl. by apply Hbase.
  - apply N.eqb_neq in Eq. simpl. by apply Hbase.
Qed.

Lemma lookup_skipped (id : sub_id) (n : time) (m : gmap chunk_id chunk_row) (cid : chunk_id) :
  skipped_rows id n m !! cid =
  if decide (cid.1 = id) then (fun c => ChunkFailRow (ch_input c) "" n true) <$> m !! cid else None.
Proof. unfold skipped_rows. rewrite lookup_fmap, lookup_of_submission. destruct (decide _); done. Qed.

Lemma ins_rows_lookup {K : Type} `{Countable K} {A} (news m m' : gmap K A) k :
  ins_rows news m = SOk m' -> m' !! k = match news !! k with Some x => Some x | None => m !! k end.
Proof.
  unfold ins_rows. destruct (decide _); [|done]. intros [= <-].
  rewrite lookup_union. destruct (news !! k), (m !! k); done.
Qed.
Lemma ins_rows_ok {K : Type} `{Countable K} {A} (news m : gmap K A) :
  (forall k x, news !! k = Some x -> m !! k = None) -> exists m', ins_rows news m = SOk m'.
Proof.
  intros Hd. unfold ins_rows. rewrite decide_True by (intros k x; apply Hd). eauto.
Qed.

(** Removing a submission from the in-progress table together with its waiting chunks, which
    become failed-chunk rows. *)
Lemma inv_drop_sub U d id s m (fl : gmap sub_id fail_row) (cl : gmap sub_id canc_row) :
  inv U d -> t_sub d !! id = Some s ->
  (forall id' i, id' <> id -> m !! (id', i) = t_cfail d !! (id', i)) ->
  (forall i, is_Some (m !! (id, i)) -> is_Some (t_cfail d !! (id, i)) \/ is_Some (t_chunk d !! (id, i))) ->
  ((exists r, fl = <[id := r]> (t_fail d)) /\ cl = t_canc d \/
   fl = t_fail d /\ (exists r, cl = <[id := r]> (t_canc d))) ->
  inv U (Db (delete id (t_sub d)) (t_comp d) fl cl (t_meta d) (not_of_submission id (t_chunk d)) (t_cdone d) m).
Proof.
  intros HI Es Hm1 Hm2 Hfl. destruct HI. destruct (inv_sub0 _ _ Es) as (HU & E1 & E2 & E3).
  assert (Hrows : forall id', id' <> id -> rows_of (not_of_submission id (t_chunk d)) id' = rows_of (t_chunk d) id').
  { intros id' Hne. apply rows_of_eq. intros k. by rewrite lookup_not_of_submission, decide_False. }
  assert (Hfne : forall id', id' <> id -> fl !! id' = t_fail d !! id').
  { intros id' Hne. destruct Hfl as [[[r ->] _]|[-> _]]; [by rewrite lookup_insert_ne|done]. }
  assert (Hcne : forall id', id' <> id -> cl !! id' = t_canc d !! id').
  { intros id' Hne. destruct Hfl as [[_ ->]|[_ [r ->]]]; [done|by rewrite lookup_insert_ne]. }
  split; simpl.
  - intros id' i c. rewrite lookup_not_of_submission. simpl. destruct (decide _) as [|Hne]; [done|]. intros E.
    destruct (inv_chunk0 _ _ _ E) as [s' [Es' Hi]]. rewrite lookup_delete_ne by done. by exists s'.
  - intros id' s'. rewrite lookup_delete_Some. intros [Hne E]. rewrite Hrows by done. by eapply inv_count0.
  - intros id' s'. rewrite lookup_delete_Some. intros [Hne E]. by eapply inv_open0.
  - intros id' s'. rewrite lookup_delete_Some. intros [Hne E]. rewrite Hfne, Hcne by done. by eapply inv_sub0.
  - intros id' r' E. destruct (decide (id' = id)) as [->|Hne]; [congruence|].
    rewrite Hfne, Hcne by done. by eapply inv_comp0.
  - intros id' r' E. destruct (decide (id' = id)) as [->|Hne].
    + split; [done|]. destruct Hfl as [[_ ->]|[-> _]]; [done|congruence].
    + rewrite Hfne in E by done. rewrite Hcne by done. by eapply inv_fail0.
  - intros id' r' E. destruct (decide (id' = id)) as [->|Hne]; [done|]. rewrite Hcne in E by done. by eapply inv_canc0.
  - done.
  - intros id' i r' E. destruct (inv_cdone0 _ _ _ E) as (H1 & H2 & H3). split; [done|].
    rewrite lookup_not_of_submission. simpl. destruct (decide (id' = id)) as [->|Hne].
    + split; [done|]. destruct (m !! (id, i)) eqn:Em; [|done].
      destruct (Hm2 i) as [[x Hx]|[x Hx]]; [by eexists|congruence|congruence].
    + by rewrite Hm1.
  - intros id' i r' E. destruct (decide (id' = id)) as [->|Hne].
    + split; [done|]. by rewrite lookup_delete.
    + rewrite Hm1 in E by done. destruct (inv_cfail0 _ _ _ E). split; [done|]. by rewrite lookup_delete_ne.
Qed.

Lemma inv_fail_notx U d id ix f n1 n2 n3 : inv U d ->
  forall u, fst (exec (fail_submission_notx id ix f n1 n2 n3) d []) = Ok u ->
  inv U (snd (exec (fail_submission_notx id ix f n1 n2 n3) d [])).
Proof.
  intros HI u Hok. destruct (exec_fail_notx id ix f n1 n2 n3 d) as (_ & Hspec & _).
  destruct (Hspec u Hok) as (s & c & m & Es & Ef & Ec & Ecf & Hins & ->).
  eapply inv_drop_sub; [done|done| | |].
  - intros id' i Hne. rewrite (ins_rows_lookup _ _ _ _ Hins), lookup_skipped. simpl.
    rewrite decide_False by done. by rewrite lookup_insert_ne by congruence.
  - intros i [x Hx]. rewrite (ins_rows_lookup _ _ _ _ Hins), lookup_skipped in Hx. simpl in Hx.
    rewrite decide_True in Hx by done. destruct (decide (i = ix)) as [->|Hne]; [right; by eexists|].
    rewrite lookup_delete_ne in Hx by congruence. destruct (t_chunk d !! (id, i)) eqn:E; [right; by eexists|].
    simpl in Hx. rewrite lookup_insert_ne in Hx by congruence. left. by eexists.
  - left. split; [by eexists|done].
Qed.

(** Changing the retry counter of a waiting chunk. *)
Lemma inv_retry U d cid c c' : inv U d -> t_chunk d !! cid = Some c -> inv U (set_chunk (insert cid c') d).
Proof.
  intros HI Ec. destruct cid as [id ix]. destruct HI.
  assert (Hin : forall id' i x, <[(id, ix) := c']> (t_chunk d) !! (id', i) = Some x -> exists y, t_chunk d !! (id', i) = Some y).
  { intros id' i x. destruct (decide ((id, ix) = (id', i))) as [E|Hne].
    - injection E as <- <-. eauto.
    - rewrite lookup_insert_ne by done. eauto. }
  split; simpl; try done.
  - intros id' i x E. destruct (Hin _ _ _ E) as [y Ey]. by eapply inv_chunk0.
  - intros id' s E. rewrite <- (inv_count0 _ _ E). do 2 f_equal.
    destruct (decide (id = id')) as [<-|Hne].
    + rewrite rows_of_insert. apply map_size_insert_Some. exists c. by rewrite lookup_rows_of.
    + by rewrite rows_of_insert_ne.
  - intros id' i r E. destruct (inv_cdone0 _ _ _ E) as (H1 & H2 & H3). split; [done|]. split; [|done].
    rewrite lookup_insert_ne; [done|]. intros [= <- <-]. congruence.
Qed.

Lemma exec_retry_or_fail cid f mx n1 n2 n3 d :
  exec (retry_or_fail_chunk cid f mx n1 n2 n3) d [] =
  match t_chunk d !! cid with
  | None => (Err (EDb RowNotFound), d)
  | Some c =>
      let d1 := set_chunk (insert cid (ChunkRow (ch_input c) (ch_retries c + 1))) d in
      if mx <=? ch_retries c + 1 then
        match exec (fail_submission_notx cid.1 cid.2 f n1 n2 n3) d1 [] with
        | (Ok _, d2) => (Ok true, d2)
        | (Err e, _) => (Err e, d)
        | (Panicked, _) => (Panicked, d)
        end
      else (Ok false, d1)
  end.
Proof.
  unfold retry_or_fail_chunk. rewrite exec_tx by solve_good. rewrite exec_tryb by solve_good. rewrite exec_sql.
  destruct (t_chunk d !! cid) as [c|]; [|done]. cbv zeta. destruct (mx <=? _); [|done].
  rewrite exec_tryb by solve_good. destruct (exec (fail_submission_notx _ _ _ _ _ _) _ []) as [[]]; done.
Qed.

Lemma inv_retry_or_fail U d cid f mx n1 n2 n3 : inv U d ->
  inv U (snd (exec (retry_or_fail_chunk cid f mx n1 n2 n3) d [])).
Proof.
  intros HI. rewrite exec_retry_or_fail. destruct (t_chunk d !! cid) as [c|] eqn:Ec; [|done]. cbv zeta.
  pose proof (inv_retry _ _ cid c (ChunkRow (ch_input c) (ch_retries c + 1)) HI Ec) as HI1.
  destruct (mx <=? _); [|done].
  pose proof (inv_fail_notx U _ cid.1 cid.2 f n1 n2 n3 HI1) as H.
  destruct (exec (fail_submission_notx _ _ _ _ _ _) _ []) as [[u| |] d2]; [|done|done].
  simpl in *. by eapply H.
Qed.

Lemma inv_fail_submission U d id ix f n1 n2 n3 : inv U d ->
  inv U (snd (exec (fail_submission id ix f n1 n2 n3) d [])).
Proof.
  intros HI. unfold fail_submission. rewrite exec_tx by solve_good.
  pose proof (inv_fail_notx U _ id ix f n1 n2 n3 HI) as H.
  destruct (exec (fail_submission_notx _ _ _ _ _ _) _ []) as [[u| |] d2]; [|done|done].
  simpl in *. by eapply H.
Qed.

Lemma inv_cancel U d id n1 n2 : inv U d -> inv U (snd (exec (cancel_submission id n1 n2) d [])).
Proof.
  intros HI. rewrite exec_cancel. destruct (t_sub d !! id) as [s|] eqn:Es; [|done].
  destruct (t_canc d !! id) eqn:Ec; [done|].
  destruct (ins_rows _ _) as [m|] eqn:Ei; [|done]. simpl.
  eapply inv_drop_sub; [done|done| | |].
  - intros id' i Hne. rewrite (ins_rows_lookup _ _ _ _ Ei), lookup_skipped. simpl. by rewrite decide_False by done.
  - intros i [x Hx]. rewrite (ins_rows_lookup _ _ _ _ Ei), lookup_skipped in Hx. simpl in Hx.
    rewrite decide_True in Hx by done. destruct (t_chunk d !! (id, i)) eqn:E; [right; by eexists|].
    left. by eexists.
  - right. split; [done|]. by eexists.
Qed.

Lemma inv_cleaned U d cutoff : inv U d -> inv U (cleaned cutoff d).
Proof.
  assert (Hf : forall (K : Type) (EqK : EqDecision K) (CK : Countable K) (A : Type) (P : K * A -> Prop)
    (HP : forall x, Decision (P x)) (m : gmap K A) (k : K) x, filter P m !! k = Some x -> m !! k = Some x).
  { intros *. rewrite map_filter_lookup_Some. tauto. }
  assert (Hn : forall (K : Type) (EqK : EqDecision K) (CK : Countable K) (A : Type) (P : K * A -> Prop)
    (HP : forall x, Decision (P x)) (m : gmap K A) (k : K), m !! k = None -> filter P m !! k = None).
  { intros * E. apply map_filter_lookup_None. by left. }
  intros []. split; simpl; try done.
  - intros id s E. destruct (inv_sub0 _ _ E) as (H1 & H2 & H3 & H4). repeat split; auto.
  - intros id r E. apply Hf in E. destruct (inv_comp0 _ _ E) as (H1 & H2 & H3). repeat split; auto.
  - intros id r E. apply Hf in E. destruct (inv_fail0 _ _ E) as (H1 & H2). repeat split; auto.
  - intros id r E. apply Hf in E. eauto.
  - intros id k v E. do 3 apply Hf in E. eauto.
  - intros id i r E. apply Hf in E. destruct (inv_cdone0 _ _ _ E) as (H1 & H2 & H3). repeat split; auto.
  - intros id i r E. apply Hf in E. destruct (inv_cfail0 _ _ _ E) as (H1 & H2). repeat split; auto.
Qed.

(** *** Preservation by events and histories *)
Definition op_ids (o : op) (id : sub_id) : Prop :=
  match o with OInsert id' _ _ _ _ _ _ _ => id = id' | _ => False end.

Lemma inv_ready U d o : inv U d -> (forall id, op_ids o id -> ~ U id) -> op_ready o d.
Proof. intros HI Hf. destruct o; simpl; try done. eapply inv_insertable; [done|]. apply Hf. done. Qed.

Lemma inv_exec U d o : inv U d -> (forall id, op_ids o id -> ~ U id) ->
  inv (fun id => U id \/ op_ids o id) (snd (exec (op_prog o) d [])).
Proof.
  intros HI Hf. destruct o; simpl op_prog; rewrite exec_map; cbn [snd].
  - specialize (Hf id eq_refl). destruct (inv_insertable _ _ _ HI Hf) as [Hi Hc].
    rewrite exec_insert_from_chunks by done. cbn [snd].
    pose proof (inv_inserted U d id prefix contents meta strat size otel HI Hf) as HI2. destruct contents; [|done].
    eapply inv_complete_sub; [done|simpl; apply lookup_insert|].
    intros i. simpl. rewrite lookup_union, lookup_chunk_table. rewrite decide_True by done.
    rewrite lookup_nil. destruct Hi as (_ & _ & ->). done.
  - rewrite complete_chunk_exec. simpl. eapply inv_mono; [|by apply inv_complete_chunk]. tauto.
  - eapply inv_mono; [|by apply inv_retry_or_fail]. tauto.
  - eapply inv_mono; [|by apply inv_cancel]. tauto.
  - eapply inv_mono; [|by apply inv_fail_submission]. tauto.
  - rewrite exec_cleanup. simpl. eapply inv_mono; [|by apply inv_cleaned]. tauto.
Qed.

Lemma inv_step U d e : inv U d -> (forall id, op_ids (e_op e) id -> ~ U id) ->
  inv (fun id => U id \/ op_ids (e_op e) id) (step d e).
Proof.
  intros HI Hf. destruct (step_cases d e (inv_ready _ _ _ HI Hf)) as [E|[E|E]]; rewrite E.
  - eapply inv_mono; [|done]. tauto.
  - destruct (e_op e) eqn:Eo; simpl; try (eapply inv_mono; [|done]; simpl; tauto).
    apply inv_inserted; [done|]. by apply Hf.
  - by apply inv_exec.
Qed.

Lemma insert_id_ops e id : insert_id e = Some id <-> op_ids (e_op e) id.
Proof. unfold insert_id. destruct (e_op e); simpl; naive_solver. Qed.

Lemma inserted_ids_app h1 h2 : inserted_ids (h1 ++ h2) = inserted_ids h1 ++ inserted_ids h2.
Proof. apply omap_app. Qed.
Lemma fresh_ids_app h e : fresh_ids (h ++ [e]) ->
  fresh_ids h /\ (forall id, op_ids (e_op e) id -> id ∉ inserted_ids h).
Proof.
  unfold fresh_ids. rewrite inserted_ids_app, NoDup_app. intros (H1 & H2 & _). split; [done|].
  intros id Hid Hin. apply insert_id_ops in Hid. apply (H2 _ Hin).
  unfold inserted_ids. simpl. rewrite Hid. left.
Qed.
Lemma after_snoc h e : after (h ++ [e]) = step (after h) e.
Proof. unfold after, run_from. by rewrite fold_left_app. Qed.
Lemma after_app h1 h2 : after (h1 ++ h2) = run_from (after h1) h2.
Proof. unfold after, run_from. by rewrite fold_left_app. Qed.

Lemma inv_after h : fresh_ids h -> inv (fun id => id ∈ inserted_ids h) (after h).
Proof.
  induction h as [|e h IH] using rev_ind; intros Hf.
  - eapply inv_mono; [|apply inv_empty]. done.
  - apply fresh_ids_app in Hf as [Hf He]. rewrite after_snoc.
    eapply inv_mono; [|apply (inv_step _ _ e (IH Hf) He)].
    intros id. simpl. rewrite inserted_ids_app, elem_of_app. intros [H|H]; [by left|right].
    unfold inserted_ids. simpl. apply insert_id_ops in H. rewrite H. left.
Qed.
