(** Proofs about identifiers, limits and the metadata migration. *)
From Verif Require Export Ids.
Local Open Scope N_scope.

Lemma cast_unsigned_nonneg z : in_i64 z -> (0 <= z)%Z -> cast_unsigned z = Z.to_N z.
Proof. unfold in_i64, cast_unsigned. intros H H0. rewrite Z.mod_small by lia. done. Qed.
Lemma cast_roundtrip n : in_u64 n -> cast_unsigned (cast_signed n) = n.
Proof.
  unfold in_u64, cast_unsigned, cast_signed. intros H. destruct (N.ltb_spec n (2 ^ 63)).
  - rewrite Z.mod_small by lia. lia.
  - replace (Z.of_N n - 2 ^ 64)%Z with (Z.of_N n + (-1) * 2 ^ 64)%Z by lia. rewrite Z.mod_add by lia. rewrite Z.mod_small by lia. lia.
Qed.
Lemma u63_new_ok n : in_u63 n -> u63_new n = COk n.
Proof. unfold in_u63, u63_new, u63_max. intros H. destruct (N.leb_spec n (2 ^ 63 - 1)); [done|lia]. Qed.
Lemma try_from_i64_spec z : in_i64 z -> try_from_i64 z = if (z <? 0)%Z then CErr else COk (Z.to_N z).
Proof.
  intros H. unfold try_from_i64. destruct (Z.ltb_spec z 0); [done|]. rewrite cast_unsigned_nonneg by done. apply u63_new_ok.
  unfold in_u63, in_i64 in *. lia.
Qed.
Lemma try_from_u64_spec n : try_from_u64 n = if n <? 2 ^ 63 then COk n else CErr.
Proof.
  unfold try_from_u64, u63_max. destruct (N.ltb_spec (2 ^ 63 - 1) n), (N.ltb_spec n (2 ^ 63)); try lia; [done|]. by apply u63_new_ok.
Qed.
Lemma to_i64_spec n : in_u63 n -> to_i64 n = Z.of_N n.
Proof. unfold in_u63, to_i64, cast_signed. intros H. destruct (N.ltb_spec n (2 ^ 63)); [done|lia]. Qed.

Lemma generate_spec now g g' : generate now g = Some g' -> g_ts g' = now /\ (g_seq g <= 4095 -> g_seq g' <= 4095) /\
  (g_seq g <= 4095 -> snowflake g < snowflake g').
Proof.
  unfold generate, snowflake. rewrite !N.shiftl_mul_pow2. destruct (N.ltb_spec (g_ts g) now).
  - intros [= <-]. cbn [g_ts g_seq]. split; [done|]. split; lia.
  - destruct (N.eqb_spec now (g_ts g)); [|done]. destruct (N.ltb_spec (g_seq g) 4095); [|done]. intros [= <-]. cbn [g_ts g_seq].
    split; [done|]. subst now. split; lia.
Qed.
Lemma snowflake_time g : g_seq g <= 4095 -> snowflake_ts (snowflake g) = g_ts g.
Proof.
  intros H. unfold snowflake_ts, snowflake. rewrite N.shiftl_mul_pow2, N.shiftr_div_pow2. rewrite N.add_comm, N.div_add by done.
  rewrite N.div_small by lia. lia.
Qed.
Lemma snowflake_fits g : g_seq g <= 4095 -> in_u63 (snowflake g) <-> g_ts g < 2 ^ 41.
Proof.
  intros H. unfold in_u63, snowflake. rewrite N.shiftl_mul_pow2. change (2 ^ 63) with (2 ^ 41 * 2 ^ 22).
  change (2 ^ 22) with 4194304. nia.
Qed.
Lemma new_ids_spec clock : forall g l, g_seq g <= 4095 -> new_ids clock g = Some l ->
  (Forall (fun t => t < 2 ^ 41) clock -> exists ids, l = COk <$> ids /\ StronglySorted N.lt (snowflake g :: ids) /\ system_time <$> ids = clock /\ Forall in_u63 ids) /\
  (forall i t, clock !! i = Some t -> 2 ^ 41 <= t -> l !! i = Some CPanic).
Proof.
  induction clock as [|now clock IH]; intros g l Hg Hl.
  - injection Hl as <-. split; [|done]. intros _. exists []. split; [done|]. split; [|done]. repeat constructor.
  - cbn [new_ids] in Hl. unfold submission_id_new in Hl. destruct (generate now g) as [g'|] eqn:Eg; [|done]. cbn [mbind option_bind] in Hl.
    destruct (new_ids clock g') as [l'|] eqn:El; [|done]. injection Hl as <-.
    destruct (generate_spec _ _ _ Eg) as (Ht & Hs & Hlt). specialize (Hs Hg). specialize (Hlt Hg). destruct (IH g' l' Hs El) as [IH1 IH2]. split.
    + intros [Hn Hc]%Forall_cons. destruct (IH1 Hc) as (ids & -> & Hsort & Htime & Hfit).
      assert (Hf : in_u63 (snowflake g')) by (apply snowflake_fits; [done|by rewrite Ht]).
      exists (snowflake g' :: ids). split; [cbn; by rewrite u63_new_ok|]. split; [|split].
      * constructor; [done|]. apply StronglySorted_inv in Hsort as [_ Hall]. apply Forall_cons. split; [done|].
        eapply Forall_impl; [exact Hall|]. cbn. intros. lia.
      * rewrite fmap_cons, Htime. unfold system_time, to_u64. by rewrite snowflake_time, Ht.
      * by apply Forall_cons.
    + intros [|i] t Hi Hbig; [|exact (IH2 i t Hi Hbig)]. injection Hi as <-. cbn. f_equal. unfold u63_new, u63_max.
      destruct (N.leb_spec (snowflake g') (2 ^ 63 - 1)); [|done]. assert (in_u63 (snowflake g')) as Hx by (unfold in_u63; lia).
      apply snowflake_fits in Hx; [|done]. lia.
Qed.

(** How often the clock shows [t]. *)
Definition shown (t : N) (clock : list N) : nat := length (filter (fun x => x = t) clock).
Lemma shown_cons t x clock : shown t (x :: clock) = ((if decide (x = t) then 1 else 0) + shown t clock)%nat.
Proof. unfold shown. rewrite filter_cons. by destruct (decide (x = t)). Qed.
Lemma shown_not_in t clock : t ∉ clock -> shown t clock = 0%nat.
Proof.
  induction clock as [|x clock IH]; intros H; [done|]. apply not_elem_of_cons in H as [H1 H2]. rewrite shown_cons, decide_False by congruence. auto.
Qed.
Lemma new_ids_total clock : forall g, StronglySorted N.le (g_ts g :: clock) ->
  (shown (g_ts g) clock + N.to_nat (g_seq g) <= 4095)%nat -> (forall t, (shown t clock <= 4096)%nat) ->
  exists l, new_ids clock g = Some l.
Proof.
  induction clock as [|now clock IH]; intros g Hs Hg Ht; [by eexists|]. cbn [new_ids]. unfold submission_id_new, generate.
  apply StronglySorted_inv in Hs as [Hs Hall]. apply Forall_cons in Hall as [Hle Hall].
  assert (Ht' : forall t, (shown t clock <= 4096)%nat).
  { intros t. specialize (Ht t). rewrite shown_cons in Ht. destruct (decide _); lia. }
  rewrite shown_cons in Hg.
  destruct (N.ltb_spec (g_ts g) now) as [Hlt|Hge].
  - destruct (IH (Gen now 0)) as [l E]; [done| |done|].
    + cbn [g_ts g_seq]. specialize (Ht now). rewrite shown_cons, decide_True in Ht by done. lia.
    + cbn [mbind option_bind]. rewrite E. by eexists.
  - assert (now = g_ts g) as -> by lia. rewrite decide_True in Hg by done.
    rewrite N.eqb_refl. destruct (N.ltb_spec (g_seq g) 4095) as [H4|H4]; [|exfalso; lia]. cbn [andb mbind option_bind].
    destruct (IH (Gen (g_ts g) (g_seq g + 1))) as [l E]; [done| |done|].
    + cbn [g_ts g_seq]. lia.
    + rewrite E. by eexists.
Qed.

Lemma sql_max_spec l : l <> [] -> sql_max l ∈ l /\ forall v, v ∈ l -> (v <= sql_max l)%Z.
Proof.
  destruct l as [|x l]; [done|]. intros _. cbn [sql_max].
  assert (H : forall l x, foldr Z.max x l ∈ x :: l /\ forall v, v ∈ x :: l -> (v <= foldr Z.max x l)%Z).
  2: { apply H. }
  clear. induction l as [|y l IH]; intros x.
  - split; [left|]. intros v ->%elem_of_list_singleton. simpl. lia.
  - simpl. destruct (IH x) as [H1 H2]. split.
    + destruct (Z.max_spec y (foldr Z.max x l)) as [[_ ->]|[_ ->]]; [|right; left].
      apply elem_of_cons in H1 as [H1|H1]; [rewrite H1; left|right; by right].
    + intros v [->|[->|Hv]%elem_of_cons]%elem_of_cons; [specialize (H2 x ltac:(left)); lia|lia|].
      specialize (H2 v ltac:(by right)). lia.
Qed.
Lemma elem_values_of old ik v : v ∈ values_of old ik <-> (ik, v) ∈ old.
Proof.
  unfold values_of. rewrite elem_of_list_fmap. split.
  - intros ([ik' v'] & -> & [E H]%elem_of_list_filter). cbn in *. subst ik'. by apply elem_of_elements.
  - intros H. exists (ik, v). split; [done|]. apply elem_of_list_filter. split; [done|]. by apply elem_of_elements.
Qed.
Lemma migrate_up_spec old ik v : migrate_up old !! ik = Some v <-> (ik, v) ∈ old /\ forall v', (ik, v') ∈ old -> (v' <= v)%Z.
Proof.
  unfold migrate_up. set (f := fun ik => (ik, sql_max (values_of old ik))).
  assert (Hn : NoDup (f <$> remove_dups (elements old).*1).*1).
  { rewrite <- list_fmap_compose. rewrite (list_fmap_ext _ id); [|done]. rewrite list_fmap_id. apply NoDup_remove_dups. }
  assert (Hmax : forall w, (ik, w) ∈ old -> (ik, sql_max (values_of old ik)) ∈ old /\ forall v', (ik, v') ∈ old -> (v' <= sql_max (values_of old ik))%Z).
  { intros w Hw. destruct (sql_max_spec (values_of old ik)) as [H1 H2].
    - apply elem_values_of in Hw. intros E. rewrite E in Hw. by apply elem_of_nil in Hw.
    - split; [by apply elem_values_of|]. intros v' Hv'. apply H2. by apply elem_values_of. }
  split.
  - intros H. apply elem_of_list_to_map_2 in H. apply elem_of_list_fmap in H as (ik' & [= <- ->] & Hin).
    rewrite elem_of_remove_dups, elem_of_list_fmap in Hin. destruct Hin as ([ik' w] & -> & Hin). apply elem_of_elements in Hin. cbn.
    by apply (Hmax w).
  - intros [Hin Hle]. destruct (Hmax v Hin) as [H1 H2]. assert (v = sql_max (values_of old ik)) as ->.
    { apply Z.le_antisymm; [by apply H2|by apply Hle]. }
    apply elem_of_list_to_map_1; [done|]. apply elem_of_list_fmap. exists ik. split; [done|]. rewrite elem_of_remove_dups.
    apply elem_of_list_fmap. exists (ik, sql_max (values_of old ik)). split; [done|]. by apply elem_of_elements.
Qed.
Lemma elem_migrate_down new ik v : (ik, v) ∈ migrate_down new <-> new !! ik = Some v.
Proof. unfold migrate_down. rewrite elem_of_list_to_set. apply elem_of_map_to_list. Qed.
Lemma migrate_up_down new : migrate_up (migrate_down new) = new.
Proof.
  apply map_eq. intros ik. apply option_eq. intros v. rewrite migrate_up_spec, elem_migrate_down. split; [tauto|].
  intros H. split; [done|]. intros v'. rewrite elem_migrate_down, H. intros [= ->]. lia.
Qed.
