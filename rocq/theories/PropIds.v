(** C22, C45, C46, C57: the metadata migration, identifiers, and the limit of lookups.
    Vocabulary: Ids.v. *)
From Verif Require Import IdsProofs.
Local Open Scope N_scope.

(** ** C22 *)
Theorem C22_migration : forall (old : gset (sub_id * string * Z)) id key v,
  migrate_up old !! (id, key) = Some v <-> (id, key, v) ∈ old /\ forall v', (id, key, v') ∈ old -> (v' <= v)%Z.
Proof. intros. apply migrate_up_spec. Qed.
Print Assumptions C22_migration.
(** No key is lost or added. *)
Theorem C22_same_keys : forall (old : gset (sub_id * string * Z)) id key,
  is_Some (migrate_up old !! (id, key)) <-> exists v, (id, key, v) ∈ old.
Proof.
  intros old id key. split; [intros [v Hv]; apply migrate_up_spec in Hv; exists v; tauto|]. intros [v Hv].
  destruct (sql_max_spec (values_of old (id, key))) as [H1 H2].
  - apply elem_values_of in Hv. intros E. rewrite E in Hv. by apply elem_of_nil in Hv.
  - exists (sql_max (values_of old (id, key))). apply migrate_up_spec. split; [by apply elem_values_of|].
    intros v' Hv'. apply H2. by apply elem_values_of.
Qed.
Print Assumptions C22_same_keys.
(** Going back and forth again changes nothing. *)
Theorem C22_down_up : forall new, migrate_up (migrate_down new) = new.
Proof. exact migrate_up_down. Qed.
Print Assumptions C22_down_up.
Example C22_example :
  let old : gset (sub_id * string * Z) := {[ (1, "k"%string, 3%Z); (1, "k"%string, (-2)%Z); (2, "k"%string, (-7)%Z) ]} in
  migrate_up old !! (1, "k"%string) = Some 3%Z /\ migrate_up old !! (2, "k"%string) = Some (-7)%Z.
Proof. by vm_compute. Qed.

(** ** C45 *)
Theorem C45_conversions :
  (forall z, in_i64 z -> match try_from_i64 z with COk n => in_u63 n /\ Z.of_N n = z /\ to_i64 n = z | CErr => (z < 0)%Z | CPanic => False end) /\
  (forall n, in_u64 n -> match try_from_u64 n with COk m => in_u63 m /\ m = n /\ to_u64 m = n | CErr => 2 ^ 63 - 1 < n | CPanic => False end) /\
  (forall n, in_u63 n -> try_from_i64 (to_i64 n) = COk n /\ try_from_u64 (to_u64 n) = COk n /\ try_from_usize (to_u64 n) = COk n /\
     de (ser n) = COk n /\ in_i64 (to_i64 n) /\ in_u64 (to_u64 n)).
Proof.
  split; [|split].
  - intros z Hz. rewrite try_from_i64_spec by done. destruct (Z.ltb_spec z 0); [done|].
    assert (in_u63 (Z.to_N z)) as Hu by (unfold in_u63, in_i64 in *; lia). split; [done|]. rewrite to_i64_spec by done. lia.
  - intros n Hn. rewrite try_from_u64_spec. destruct (N.ltb_spec n (2 ^ 63)); [done|lia].
  - intros n Hn. unfold try_from_usize, de, ser, to_u64. rewrite to_i64_spec, try_from_u64_spec by done. unfold in_u63, in_i64, in_u64 in *.
    destruct (N.ltb_spec n (2 ^ 63)); [|lia]. rewrite try_from_i64_spec by (unfold in_i64; lia).
    destruct (Z.ltb_spec (Z.of_N n) 0); [lia|]. rewrite N2Z.id. repeat (split; [done|]). split; lia.
Qed.
Print Assumptions C45_conversions.
(** Until the clock reaches 2^41 ms: ids are strictly increasing and carry their time. *)
Theorem C45_generated : forall clock l,
  new_ids clock (Gen 0 0) = Some l -> Forall (fun t => t < 2 ^ 41) clock ->
  exists ids, l = COk <$> ids /\ StronglySorted N.lt ids /\ system_time <$> ids = clock /\ Forall in_u63 ids.
Proof.
  intros clock l Hl Hc. destruct (new_ids_spec clock (Gen 0 0) l ltac:(done) Hl) as [H _]. destruct (H Hc) as (ids & ? & Hs & ? & ?).
  exists ids. split; [done|]. split; [by apply StronglySorted_inv in Hs as [Hs _]|done].
Qed.
Print Assumptions C45_generated.
Example C45_example : new_ids [1700000000000; 1700000000000; 1700000000001] (Gen 0 0) =
  Some [COk 7130316800000000000; COk 7130316800000000001; COk 7130316800004194304].
Proof. by vm_compute. Qed.

(** ** C57 *)
(** Full statement: the theorem below without the hypothesis on the date. Before 2^41 ms after the
    epoch (September 2039), however many submissions come: whenever the clock does not go back and
    shows no millisecond more than 4096 times (the generator waits for the next one then), every one
    of them gets an identifier, all different, in increasing order. *)
Theorem C57_any_date_partial : forall clock,
  StronglySorted N.le clock -> (forall t, (shown t clock <= 4096)%nat) -> Forall (fun t => 0 < t < 2 ^ 41) clock ->
  exists ids, new_ids clock (Gen 0 0) = Some (COk <$> ids) /\ length ids = length clock /\ StronglySorted N.lt ids /\ Forall in_u63 ids.
Proof.
  intros clock Hs Ht Hc. destruct (new_ids_total clock (Gen 0 0)) as [l Hl].
  - constructor; [done|]. eapply Forall_impl; [exact Hc|]. cbn. intros. lia.
  - cbn [g_ts g_seq]. rewrite shown_not_in; [lia|]. intros Hin. rewrite Forall_forall in Hc. specialize (Hc _ Hin). lia.
  - exact Ht.
  - assert (Hc' : Forall (fun t => t < 2 ^ 41) clock). { eapply Forall_impl; [exact Hc|]. cbn. intros. lia. }
    destruct (new_ids_spec clock (Gen 0 0) l ltac:(done) Hl) as [H _]. destruct (H Hc') as (ids & -> & Hids & Htime & Hfit).
    exists ids. split; [done|]. split; [by rewrite <- Htime, fmap_length|]. split; [by apply StronglySorted_inv in Hids as [Hids _]|done].
Qed.
Print Assumptions C57_any_date_partial.
(** From 2^41 ms after the epoch (September 2039) on, no id can be made: the conversion panics. *)
Theorem C57_any_date_refuted : forall clock l i t,
  new_ids clock (Gen 0 0) = Some l -> clock !! i = Some t -> 2 ^ 41 <= t -> l !! i = Some CPanic.
Proof. intros clock l i t Hl. apply (new_ids_spec clock (Gen 0 0) l ltac:(done) Hl). Qed.
Print Assumptions C57_any_date_refuted.
Example C57_partial_example : let clock := [1700000000000; 1700000000000; 1700000000001] in
  StronglySorted N.le clock /\ (forall t, (shown t clock <= 4096)%nat) /\ Forall (fun t => 0 < t < 2 ^ 41) clock.
Proof.
  intros clock. split; [|split].
  - repeat constructor; lia.
  - intros t. unfold shown. transitivity (length clock); [apply filter_length|]. cbn. lia.
  - repeat constructor; lia.
Qed.
Example C57_example : new_ids [1700000000000; 2200000000000] (Gen 0 0) = Some [COk 7130316800000000000; CPanic].
Proof. by vm_compute. Qed.

(** ** C46 *)
(** What is accepted fits with room for one more, what is refused does not; the documentation
    (common/mod.rs:18) promises [max + 1 < i64::MAX]. *)
Theorem C46_limit_partial : forall n, 0 < n -> in_u64 n ->
  match max_submissions_new n with
  | Some m => m = n /\ 0 < m /\ query_limit m = (Z.of_N m + 1)%Z /\ in_i64 (query_limit m)
  | None => i64_max < n + 1
  end.
Proof.
  intros n Hn Hu. unfold max_submissions_new, i64_max. destruct (N.ltb_spec n (2 ^ 63 - 1)); [|lia].
  split; [done|]. split; [done|]. unfold query_limit, cast_signed, in_i64. rewrite N.mod_small by lia.
  destruct (N.ltb_spec (n + 1) (2 ^ 63)); lia.
Qed.
Print Assumptions C46_limit_partial.
Theorem C46_documented_bound_refuted : exists n m, 0 < n /\ in_u64 n /\ max_submissions_new n = Some m /\ ~ m + 1 < i64_max.
Proof. exists (2 ^ 63 - 2), (2 ^ 63 - 2). split; [done|]. split; [done|]. split; [done|]. by vm_compute. Qed.
Print Assumptions C46_documented_bound_refuted.
Example C46_example : max_submissions_new 100000 = Some 100000 /\ max_submissions_new (2 ^ 63 - 1) = None.
Proof. by vm_compute. Qed.
