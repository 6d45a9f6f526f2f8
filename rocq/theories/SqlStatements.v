(** Each statement of SqlText.v against the statement of ChunkDb.v or SubmissionDb.v. *)
From Verif Require Export SqlProofs.
From Verif Require Import DbProofs.
Local Open Scope string_scope.
Local Open Scope list_scope.

(** *** The eight tables *)
Record table (K : Type) `{Countable K} (A : Set) : Type := Table {
  tb_enc : K * A -> list value; tb_head : header; tb_keyv : K -> list (option value);
  tb_get : db -> gmap K A; tb_put : gmap K A -> db -> db; tb_name : string;
  tb_key : forall k a, key_of tb_head (tb_enc (k, a)) = tb_keyv k;
  tb_inj : forall k k', tb_keyv k = tb_keyv k' -> k = k';
  tb_nn : forall x, nulls_ok tb_head (tb_enc x) = true;
  tb_heads : heads !! tb_name = Some tb_head;
  tb_rows : forall D d, stands_for D d -> table_of tb_enc (rows_in D tb_name) (tb_get d);
  tb_puts : forall D d l m, stands_for D d -> table_of tb_enc l m -> stands_for (put_rows tb_name l D) (tb_put m d);
  tb_same : forall D d l, stands_for D d -> table_of tb_enc l (tb_get d) -> stands_for (put_rows tb_name l D) d }.
Global Arguments Table {K _ _ A}.
Global Arguments tb_enc {K _ _ A}. Global Arguments tb_head {K _ _ A}. Global Arguments tb_keyv {K _ _ A}. Global Arguments tb_get {K _ _ A}.
Global Arguments tb_put {K _ _ A}. Global Arguments tb_name {K _ _ A}. Global Arguments tb_key {K _ _ A}. Global Arguments tb_inj {K _ _ A}.
Global Arguments tb_nn {K _ _ A}. Global Arguments tb_heads {K _ _ A}. Global Arguments tb_rows {K _ _ A}. Global Arguments tb_puts {K _ _ A}.
Global Arguments tb_same {K _ _ A}.

Ltac law_put := intros D d l; intros; match goal with H : stands_for _ _ |- _ => put_goal H assumption end.
Definition tb_sub : table sub_id sub_row.
Proof. refine (Table enc_sub h_submissions key1 t_sub (fun m => set_sub (fun _ => m)) "submissions" sub_key key1_inj sub_nn heads_subs sf_subs _ _); abstract law_put. Defined.
Definition tb_comp : table sub_id comp_row.
Proof. refine (Table enc_comp h_completed key1 t_comp (fun m => set_comp (fun _ => m)) "submissions_completed" comp_key key1_inj comp_nn heads_comps sf_comps _ _); abstract law_put. Defined.
Definition tb_fail : table sub_id fail_row.
Proof. refine (Table enc_fail h_failed key1 t_fail (fun m => set_fail (fun _ => m)) "submissions_failed" fail_key key1_inj fail_nn heads_fails sf_fails _ _); abstract law_put. Defined.
Definition tb_canc : table sub_id canc_row.
Proof. refine (Table enc_canc h_cancelled key1 t_canc (fun m => set_canc (fun _ => m)) "submissions_cancelled" canc_key key1_inj canc_nn heads_cancs sf_cancs _ _); abstract law_put. Defined.
Definition tb_meta : table (sub_id * string) Z.
Proof. refine (Table enc_meta h_metadata keym t_meta (fun m => set_meta (fun _ => m)) "submissions_metadata" meta_key keym_inj meta_nn heads_metas sf_metas _ _); abstract law_put. Defined.
Definition tb_chunk : table chunk_id chunk_row.
Proof. refine (Table enc_chunk h_chunks key2 t_chunk (fun m => set_chunk (fun _ => m)) "chunks" chunk_key key2_inj chunk_nn heads_chunks sf_chunks _ _); abstract law_put. Defined.
Definition tb_cdone : table chunk_id chunk_comp_row.
Proof. refine (Table enc_cdone h_chunks_completed key2 t_cdone (fun m => set_cdone (fun _ => m)) "chunks_completed" cdone_key key2_inj cdone_nn heads_cdones sf_cdones _ _); abstract law_put. Defined.
Definition tb_cfail : table chunk_id chunk_fail_row.
Proof. refine (Table enc_cfail h_chunks_failed key2 t_cfail (fun m => set_cfail (fun _ => m)) "chunks_failed" cfail_key key2_inj cfail_nn heads_cfails sf_cfails _ _); abstract law_put. Defined.

(** What a condition or an expression is on a row of table [tb]. *)
Definition ev {K : Type} `{Countable K} {A : Set} (tb : table K A) (ps : list value) (D : sdb) (r : srow) : expr -> value :=
  eval no_callback ps heads (rows_in D) [(tb_name tb, (tb_head tb, r))].
Definition by_key {K : Type} `{Countable K} {A : Set} (tb : table K A) (ps : list value) (w : expr) (k : K) : Prop :=
  forall D x, holds (ev tb ps D (tb_enc tb x) w) = bool_decide (x.1 = k).

Section stmts.
Context {K : Type} `{Countable K} {A : Set} (tb : table K A).
(** INSERT ... VALUES. *)
Lemma stmt_insert cols vals ps (news : list (K * A)) (f : gmap K A -> sqlres (gmap K A)) :
  stmt_ok heads (TInsert (tb_name tb) cols vals) = true ->
  (forall D, (fun v => make_row (tb_head tb) cols (eval no_callback ps heads (rows_in D) [] <$> v)) <$> vals = tb_enc tb <$> news) ->
  (forall m, f m = ins_many news m) ->
  sims eq (sql (fun d => match f (tb_get tb d) with SOk m => SOk (tt, tb_put tb m d) | SErr e => SErr e end)) (execute (TInsert (tb_name tb) cols vals) ps).
Proof.
  intros Hok Hrows Hf. apply sims_one; [done|]. intros d D HD. unfold sql_next, tsql_next.
  rewrite (do_insert (tb_name tb) (tb_head tb) cols vals ps D (sf_heads _ _ HD) (tb_heads tb) Hok). rewrite Hrows, Hf.
  pose proof (table_ins_many _ _ _ (tb_key tb) (tb_inj tb) (tb_nn tb) news _ _ (tb_rows tb _ _ HD)) as Hm.
  destruct (ins_many news (tb_get tb d)) as [m|e].
  - destruct Hm as (l' & -> & Hl'). cbn. split; [by apply (tb_puts tb)|done].
  - rewrite Hm. cbn. done.
Qed.
(** DELETE ... WHERE, nothing returned. *)
Lemma stmt_delete w ps (P : db -> K * A -> Prop) `{forall d x, Decision (P d x)} :
  stmt_ok heads (TDelete (tb_name tb) w []) = true ->
  (forall D d x, stands_for D d -> negb (holds (ev tb ps D (tb_enc tb x) w)) = bool_decide (P d x)) ->
  sims eq (sql (fun d => SOk (tt, tb_put tb (filter (P d) (tb_get tb d)) d))) (execute (TDelete (tb_name tb) w []) ps).
Proof.
  intros Hok HP. apply sims_one; [done|]. intros d D HD. unfold sql_next, tsql_next.
  rewrite (do_delete (tb_name tb) (tb_head tb) w [] ps D (sf_heads _ _ HD) (tb_heads tb) Hok). cbn [fst snd]. split; [|done].
  apply (tb_puts tb); [done|]. apply (table_filter _ _ (P d)); [|by apply (tb_rows tb)]. intros x. exact (HP D d x HD).
Qed.
Definition selects (ps : list value) (w : expr) (D : sdb) (r : srow) : bool := holds (ev tb ps D r w).
(** DELETE ... WHERE key = ... RETURNING, [fetch_one] and [fetch_optional]. *)
Lemma stmt_delete_one w ret ps k :
  stmt_ok heads (TDelete (tb_name tb) w ret) = true -> by_key tb ps w k ->
  sims eq (sql (fun d => match del_one k (tb_get tb d) with SOk (_, m) => SOk (tt, tb_put tb m d) | SErr e => SErr e end))
    (fetch_one ignored (TDelete (tb_name tb) w ret) ps).
Proof.
  intros Hok Hq. apply sims_one; [done|]. intros d D HD. unfold sql_next, tsql_next.
  rewrite (do_delete (tb_name tb) (tb_head tb) w ret ps D (sf_heads _ _ HD) (tb_heads tb) Hok).
  pose proof (table_not_key _ (selects ps w D) k _ _ (Hq D) (tb_rows tb _ _ HD)) as Hn.
  pose proof (table_key _ (selects ps w D) k _ _ (Hq D) (tb_rows tb _ _ HD)) as Hk. unfold selects, ev in Hn, Hk. rewrite Hk.
  unfold del_one. destruct (tb_get tb d !! k) as [a|] eqn:E; cbn [fst snd fmap list_fmap].
  - split; [by apply (tb_puts tb)|done].
  - split; [|done]. apply (tb_same tb); [done|]. by rewrite delete_notin in Hn.
Qed.
Lemma stmt_delete_optional w ret ps k :
  stmt_ok heads (TDelete (tb_name tb) w ret) = true -> by_key tb ps w k ->
  sims (fun a b => match a, b with Ok a, Ok b => (a = None <-> b = None) | Err e, Err e' => e = e' | Panicked, Panicked => True | _, _ => False end)
    (sql (fun d => SOk (tb_get tb d !! k, tb_put tb (delete k (tb_get tb d)) d))) (fetch_optional ignored (TDelete (tb_name tb) w ret) ps).
Proof.
  intros Hok Hq. apply sims_one; [done|]. intros d D HD. unfold sql_next, tsql_next.
  rewrite (do_delete (tb_name tb) (tb_head tb) w ret ps D (sf_heads _ _ HD) (tb_heads tb) Hok).
  pose proof (table_not_key _ (selects ps w D) k _ _ (Hq D) (tb_rows tb _ _ HD)) as Hn.
  pose proof (table_key _ (selects ps w D) k _ _ (Hq D) (tb_rows tb _ _ HD)) as Hk. unfold selects, ev in Hn, Hk. rewrite Hk.
  cbn [fst snd]. split; [by apply (tb_puts tb)|]. by destruct (tb_get tb d !! k) as [a|] eqn:E.
Qed.
(** SELECT ... WHERE key = ..., [fetch_one] and [fetch_optional]. *)
Lemma stmt_select_one {R : Set} (dec : srow -> option R) outs w ps k (f : db -> A -> R) :
  stmt_ok heads (TSelect outs (tb_name tb) w) = true -> by_key tb ps w k ->
  (forall D d a, stands_for D d -> tb_get tb d !! k = Some a -> dec (ev tb ps D (tb_enc tb (k, a)) <$> outs) = Some (f d a)) ->
  sims eq (sql (fun d => match tb_get tb d !! k with Some a => SOk (f d a, d) | None => SErr RowNotFound end)) (fetch_one dec (TSelect outs (tb_name tb) w) ps).
Proof.
  intros Hok Hq Hdec. apply sims_one; [done|]. intros d D HD. unfold sql_next, tsql_next.
  rewrite (do_select outs (tb_name tb) (tb_head tb) w ps D (sf_heads _ _ HD) (tb_heads tb) Hok).
  pose proof (table_key _ (selects ps w D) k _ _ (Hq D) (tb_rows tb _ _ HD)) as Hk. unfold selects, ev in Hk. rewrite Hk.
  destruct (tb_get tb d !! k) as [a|] eqn:E; cbn [fst snd fmap list_fmap]; (split; [done|]); [|done].
  specialize (Hdec D d a HD E). unfold ev in Hdec. by rewrite Hdec.
Qed.
Lemma stmt_select_optional {R : Set} (dec : srow -> option R) outs w ps k (f : db -> A -> R) :
  stmt_ok heads (TSelect outs (tb_name tb) w) = true -> by_key tb ps w k ->
  (forall D d a, stands_for D d -> tb_get tb d !! k = Some a -> dec (ev tb ps D (tb_enc tb (k, a)) <$> outs) = Some (f d a)) ->
  sims eq (read (R := option R) (fun d => f d <$> tb_get tb d !! k)) (fetch_optional dec (TSelect outs (tb_name tb) w) ps).
Proof.
  intros Hok Hq Hdec. apply sims_one; [done|]. intros d D HD. unfold sql_next, tsql_next.
  rewrite (do_select outs (tb_name tb) (tb_head tb) w ps D (sf_heads _ _ HD) (tb_heads tb) Hok).
  pose proof (table_key _ (selects ps w D) k _ _ (Hq D) (tb_rows tb _ _ HD)) as Hk. unfold selects, ev in Hk. rewrite Hk.
  destruct (tb_get tb d !! k) as [a|] eqn:E; cbn [fst snd fmap list_fmap]; (split; [done|]); [|done].
  specialize (Hdec D d a HD E). unfold ev in Hdec. cbn. by rewrite Hdec.
Qed.
(** UPDATE ... WHERE key = ... RETURNING, [fetch_one]. *)
Lemma stmt_update {R : Set} (dec : srow -> option R) c e w ret ps k (u : A -> A) (f : A -> R) :
  stmt_ok heads (TUpdate (tb_name tb) c e w ret) = true -> by_key tb ps w k ->
  (forall D a, set_cell (tb_head tb) c (ev tb ps D (tb_enc tb (k, a)) e) (tb_enc tb (k, a)) = tb_enc tb (k, u a)) ->
  (forall D a, dec (ev tb ps D (tb_enc tb (k, u a)) <$> ret) = Some (f a)) ->
  sims eq (sql (fun d => match tb_get tb d !! k with
                 | Some a => SOk (f a, tb_put tb (<[k := u a]> (tb_get tb d)) d) | None => SErr RowNotFound end))
    (fetch_one dec (TUpdate (tb_name tb) c e w ret) ps).
Proof.
  intros Hok Hq Hu Hdec. apply sims_one; [done|]. intros d D HD. unfold sql_next, tsql_next.
  rewrite (do_update (tb_name tb) (tb_head tb) c e w ret ps D (sf_heads _ _ HD) (tb_heads tb) Hok).
  pose proof (table_key _ (selects ps w D) k _ _ (Hq D) (tb_rows tb _ _ HD)) as Hk. unfold selects, ev in Hk. rewrite Hk.
  destruct (tb_get tb d !! k) as [a|] eqn:E; cbn [fst snd fmap list_fmap].
  - split.
    + apply (tb_puts tb); [done|]. exact (table_update _ (selects ps w D) (fun r => set_cell (tb_head tb) c (ev tb ps D r e) r) k a (u a) _ _ (Hq D) (tb_rows tb _ _ HD) E (Hu D a)).
    + specialize (Hu D a). specialize (Hdec D a). unfold ev in Hu, Hdec. rewrite Hu, Hdec. done.
  - split; [|done]. apply (tb_same tb); [done|].
    exact (table_update_none _ (selects ps w D) (fun r => set_cell (tb_head tb) c (ev tb ps D r e) r) k _ _ (Hq D) (tb_rows tb _ _ HD) E).
Qed.
Lemma stmt_count : sims eq (read (fun d => N.of_nat (size (tb_get tb d)))) (t_count (tb_name tb)).
Proof.
  apply sims_one; [done|]. intros d D HD. unfold sql_next, tsql_next. rewrite (do_count (tb_name tb) (tb_head tb) [] D (sf_heads _ _ HD) (tb_heads tb)).
  split; [done|]. cbn [fst]. rewrite (table_length _ _ _ (tb_rows tb _ _ HD)).
  change (VInt (Z.of_nat (size (tb_get tb d)))) with (VInt (Z.of_nat (size (tb_get tb d)))).
  rewrite <- nat_N_Z. fold (v_n (N.of_nat (size (tb_get tb d)))). by rewrite as_v_n.
Qed.
(** INSERT ... SELECT. *)
Lemma stmt_insert_select {K' : Type} `{Countable K'} {B : Set} (tf : table K' B) cols outs w ps (news : db -> gmap K A) :
  stmt_ok heads (TInsertSelect (tb_name tb) cols outs (tb_name tf) w) = true ->
  (forall D d, stands_for D d -> table_of (tb_enc tb) ((fun r => make_row (tb_head tb) cols (ev tf ps D r <$> outs)) <$>
      List.filter (fun r => holds (ev tf ps D r w)) (rows_in D (tb_name tf))) (news d)) ->
  sims eq (sql (fun d => match ins_rows (news d) (tb_get tb d) with SOk m => SOk (tt, tb_put tb m d) | SErr e => SErr e end))
    (execute (TInsertSelect (tb_name tb) cols outs (tb_name tf) w) ps).
Proof.
  intros Hok Hrows. apply sims_one; [done|]. intros d D HD. unfold sql_next, tsql_next.
  rewrite (do_insert_select (tb_name tb) (tb_head tb) cols outs (tb_name tf) (tb_head tf) w ps D (sf_heads _ _ HD) (tb_heads tb) (tb_heads tf) Hok).
  pose proof (table_ins_rows _ _ _ (tb_key tb) (tb_inj tb) (tb_nn tb) _ (news d) (rows_in D (tb_name tb)) (tb_get tb d) (Hrows D d HD) (tb_rows tb _ _ HD)) as Hm.
  unfold ev in Hm. destruct (ins_rows (news d) (tb_get tb d)) as [m|e].
  - destruct Hm as (l' & -> & Hl'). cbn. split; [by apply (tb_puts tb)|done].
  - rewrite Hm. cbn. done.
Qed.
End stmts.
