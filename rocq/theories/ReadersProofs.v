(** Proofs about the pool of reader connections (Readers.v). *)
From Verif Require Import SqliteProofs StrategyProofs FetchProofs ServerProofs ServerFacts PropDispatch.
From Verif Require Export Readers.
Local Open Scope N_scope.

(** *** Sums over maps *)
Definition total {A} (f : A -> nat) (m : gmap N A) : nat := sum_list_with (fun p => f p.2) (map_to_list m).
Lemma sum_perm {A} (f : A -> nat) l l' : l ≡ₚ l' -> sum_list_with f l = sum_list_with f l'.
Proof. induction 1; simpl; lia. Qed.
Lemma total_empty {A} (f : A -> nat) : total f ∅ = 0%nat.
Proof. unfold total. by rewrite map_to_list_empty. Qed.
Lemma total_delete {A} (f : A -> nat) m c x : m !! c = Some x -> total f m = (f x + total f (delete c m))%nat.
Proof. intros H. unfold total. rewrite <- (sum_perm _ _ _ (map_to_list_delete m c x H)). done. Qed.
Lemma total_insert {A} (f : A -> nat) m c y : total f (<[c := y]> m) = (f y + total f (delete c m))%nat.
Proof.
  rewrite <- insert_delete_insert. unfold total. rewrite (sum_perm _ _ _ (map_to_list_insert (delete c m) c y (lookup_delete _ _))). done.
Qed.
Lemma total_absent {A} (f : A -> nat) m c : m !! c = None -> total f (delete c m) = total f m.
Proof. intros H. by rewrite delete_notin. Qed.
Lemma total_le {A} (f g : A -> nat) (m : gmap N A) : (forall c x, m !! c = Some x -> (f x <= g x)%nat) -> (total f m <= total g m)%nat.
Proof.
  induction m as [|c x m Hc IH] using map_ind; intros H; [by rewrite !total_empty|].
  rewrite !total_insert, !(total_absent _ _ _ Hc). pose proof (H c x (lookup_insert _ _ _)). assert (total f m <= total g m)%nat; [|lia].
  apply IH. intros c' x' Hx. apply (H c'). rewrite lookup_insert_ne; [done|congruence].
Qed.
Lemma total_one {A} (m : gmap N A) : total (fun _ => 1%nat) m = size m.
Proof.
  induction m as [|c x m Hc IH] using map_ind; [by rewrite total_empty, map_size_empty|].
  rewrite total_insert, (total_absent _ _ _ Hc), IH, map_size_insert_None by done. done.
Qed.
Lemma total_filter {A} (f : A -> bool) (m : gmap N A) : total (fun x => if f x then 1 else 0)%nat m = size (filter (fun p => f p.2 = true) m).
Proof.
  induction m as [|c x m Hc IH] using map_ind; [by rewrite total_empty, map_filter_empty, map_size_empty|].
  rewrite total_insert, (total_absent _ _ _ Hc), IH. destruct (f x) eqn:E.
  - rewrite map_filter_insert_True by done. rewrite map_size_insert_None; [done|]. apply map_filter_lookup_None. by left.
  - rewrite map_filter_insert_False by (cbn; congruence). by rewrite delete_notin.
Qed.
Lemma total_plus {A} (f g : A -> nat) (m : gmap N A) : total (fun x => f x + g x)%nat m = (total f m + total g m)%nat.
Proof. unfold total. induction (map_to_list m) as [|p l IH]; [done|]. cbn. rewrite IH. lia. Qed.
Lemma total_ext {A} (f g : A -> nat) (m : gmap N A) : (forall x, f x = g x) -> total f m = total g m.
Proof. intros H. unfold total. induction (map_to_list m) as [|p l IH]; [done|]. cbn. by rewrite IH, H. Qed.
Lemma in_use_counts s : in_use s =
  (size (filter (fun p => has_one p.2 = true) (rd_stage s)) + size (filter (fun p => has_second p.2 = true) (rd_stage s)) +
   size (filter (fun p => runs p.2 = true) (rd_queries s)))%nat.
Proof.
  rewrite <- !total_filter, <- total_plus. unfold in_use. f_equal.
  - apply total_ext. by intros [].
  - apply total_ext. by intros [].
Qed.
Lemma in_use_total s : in_use s = (total takes (rd_stage s) + total holds (rd_queries s))%nat.
Proof. done. Qed.

(** *** What a step of the server does to the other connections *)
Definition gist (x : peer) : bool * option (option chunk) := (c_open x, f_join <$> c_fetch x).
Definition akin (x y : peer) : Prop := gist y = gist x /\ c_retry x `prefix_of` c_retry y /\ (match c_fetch x, c_fetch y with Some f, Some g => (length (f_rows g) <= length (f_rows f))%nat /\ f_got g = f_got f | _, _ => True end).
Definition alike (m m' : gmap N peer) (c : N) : Prop := option_Forall2 akin (m !! c) (m' !! c).
Lemma akin_refl x : akin x x.
Proof. split; [done|]. split; [done|]. by destruct (c_fetch x). Qed.
Lemma akin_same x y : c_open y = c_open x -> c_fetch y = c_fetch x -> c_retry x `prefix_of` c_retry y -> akin x y.
Proof. intros H1 H2 H3. unfold akin, gist. rewrite H1, H2. split; [done|]. split; [done|]. by destruct (c_fetch x). Qed.
Lemma alike_refl m c : alike m m c.
Proof. unfold alike. destruct (m !! c); constructor. apply akin_refl. Qed.
Lemma akin_trans x y z : akin x y -> akin y z -> akin x z.
Proof.
  intros (H1 & H2 & H3) (H4 & H5 & H6). split; [congruence|]. split; [by etrans|]. unfold gist in *. injection H1 as H1 H1'. injection H4 as H4 H4'.
  destruct (c_fetch x), (c_fetch y), (c_fetch z); try done. destruct H3, H6. split; [lia|congruence].
Qed.
Lemma alike_trans m1 m2 m3 c : alike m1 m2 c -> alike m2 m3 c -> alike m1 m3 c.
Proof.
  unfold alike. intros H1 H2. inversion H1 as [x y Hxy E1 E2|E1 E2]; rewrite <- E2 in H2; inversion H2; constructor. by eapply akin_trans.
Qed.
Lemma alike_deliver ns m c : alike m (foldl deliver m ns) c.
Proof.
  unfold alike. destruct (m !! c) as [x|] eqn:E.
  - destruct (deliver_fwd ns _ _ _ E) as [rx ->]. constructor. by apply akin_same.
  - destruct (foldl deliver m ns !! c) as [y|] eqn:E'; [|constructor]. apply deliver_some in E' as (x & Ex & _). congruence.
Qed.
Lemma alike_insert m c c' x y : m !! c = Some x -> akin x y -> alike m (<[c := y]> m) c'.
Proof.
  intros Hx Ha. unfold alike. destruct (decide (c = c')) as [<-|Hne]; [rewrite Hx, lookup_insert; by constructor|].
  rewrite lookup_insert_ne by done. apply alike_refl.
Qed.
Lemma alike_other m c c' y : c <> c' -> alike m (<[c := y]> m) c'.
Proof. intros Hne. unfold alike. rewrite lookup_insert_ne by done. apply alike_refl. Qed.

(** The connection whose request a step changes. *)
Definition touches (l : label) (c : N) : Prop :=
  match l with
  | LConnect c' | LDisconnect c' | LReserve c' _ _ _ | LRetry c' _ _ | LRow c' | LJoin c' _ | LFetchError c' | LReply c' => c' = c
  | LCrash _ => True
  | _ => False
  end.
Lemma next_alike cfg l s s' o c : next cfg l s = Some (s', o) -> ~ touches l c -> alike (s_conns s) (s_conns s') c.
Proof.
  intros H Ht. destruct l; cbn [next touches] in *; repeat case_match; simplify_eq; cbn -[deliver];
    try apply alike_refl; try done; try (by apply alike_other); try (eapply alike_insert; [eassumption|by apply akin_same; try (simpl; congruence)]).
  all: try (match goal with |- alike _ (foldl deliver _ _) _ => eapply alike_trans; [|apply alike_deliver] end; try apply alike_refl; try (by apply alike_other)).
  all: try (unfold close; cbn -[deliver]; eapply alike_trans; [|by apply alike_other]; eapply alike_trans; [|apply alike_deliver]; by apply alike_other).
  - unfold alike. rewrite lookup_fmap. destruct (s_conns s !! c) as [x|]; simpl; constructor. apply akin_same; simpl; [done..|]. by eexists.
  - eapply alike_insert; [eassumption|]. unfold akin, gist. cbn. match goal with H : c_fetch _ = Some _ |- _ => rewrite H end. cbn. split; [done|]. split; [done|].
    split; [|done]. rewrite length_delete by eauto. lia.
  - unfold alike. destruct (decide (m_conn m = c)) as [<-|Hne].
    + rewrite lookup_alter. destruct (s_conns s !! m_conn m) as [x|]; simpl; constructor. by apply akin_same.
    + rewrite lookup_alter_ne by done. apply alike_refl.
Qed.

(** *** The stages fit the connections *)
Definition fits (st : option stage) (ox : option peer) : Prop :=
  match st with
  | None => forall x, ox = Some x -> c_fetch x = None
  | Some (WaitsFirst oq _) => exists x q, ox = Some x /\ gist x = (true, None) /\ q_max q <> 0 /\ match oq with Some q' => q' = q | None => exists rest, c_retry x = q :: rest end
  | Some HasFirst => exists x, ox = Some x /\ snd (gist x) = Some None
  | Some (WaitsSecond _) | Some HasBoth => exists x r, ox = Some x /\ snd (gist x) = Some (Some r)
  end.
Record rinv (cap : N) (s : readers) : Prop := {
  ri_cap : (N.of_nat (in_use s) <= cap)%N;
  ri_fits : forall c, fits (rd_stage s !! c) (s_conns (rd_server s) !! c) }.

Lemma fits_alike st ox oy : fits st ox -> option_Forall2 akin ox oy -> fits st oy.
Proof.
  intros Hf Ha. destruct Ha as [x y (Hg & Hr & _)|]; [|done]. unfold gist in Hg. injection Hg as Ho Hj. destruct st as [[oq t| |t|]|]; cbn in *.
  - destruct Hf as (x' & q & [= <-] & Hg & Hp & Hq). exists y, q. split; [done|]. split; [unfold gist in *; congruence|]. split; [done|].
    destruct oq; [done|]. destruct Hq as [rest Hq]. rewrite Hq in Hr. destruct Hr as [l ->]. by eexists.
  - destruct Hf as (x' & [= <-] & Hg). exists y. split; [done|congruence].
  - destruct Hf as (x' & r & [= <-] & Hg). exists y, r. split; [done|congruence].
  - destruct Hf as (x' & r & [= <-] & Hg). exists y, r. split; [done|congruence].
  - intros x' [= <-]. specialize (Hf x eq_refl). rewrite Hf in Hj. by destruct (c_fetch y).
Qed.
Lemma fits_stage_of s c : fits (stage_of s c) (s_conns s !! c).
Proof.
  unfold stage_of, fetch_of. destruct (s_conns s !! c) as [x|] eqn:E; simpl; [|by intros x [=]]. destruct (c_fetch x) as [f|] eqn:Ef; simpl.
  - destruct (f_join f) as [r|] eqn:Er; simpl; [exists x, r|exists x]; unfold gist; simpl; rewrite Ef; simpl; by rewrite Er.
  - by intros x' [= <-].
Qed.
Lemma takes_stage_of s c : (match stage_of s c with Some st => takes st | None => 0 end <= 1)%nat.
Proof. unfold stage_of. destruct (fetch_of s c) as [f|]; simpl; [destruct (f_join f); simpl|]; lia. Qed.
Lemma lookup_set_stage c st m : set_stage c st m !! c = st.
Proof. destruct st; simpl; [apply lookup_insert|apply lookup_delete]. Qed.
Lemma lookup_set_stage_ne c c' st m : c <> c' -> set_stage c st m !! c' = m !! c'.
Proof. intros H. destruct st; simpl; [by apply lookup_insert_ne|by apply lookup_delete_ne]. Qed.
Lemma total_set_stage c st m f : total f (set_stage c st m) = (match st with Some x => f x | None => 0 end + total f (delete c m))%nat.
Proof. destruct st; simpl; [apply total_insert|done]. Qed.

(** The labels of the server that belong to a request of [c]. *)
Definition request_label (l : label) (c : N) : Prop :=
  (exists q off rows, l = LReserve c q off rows) \/ (exists off rows, l = LRetry c off rows) \/ l = LRow c \/ (exists b, l = LJoin c b) \/
  l = LFetchError c \/ l = LReply c.
Lemma request_rinv cfg cap l c s s' o : rinv cap s -> request_label l c -> request_step cfg l c s = Some (s', o) ->
  (N.of_nat (in_use s) < cap \/ match rd_stage s !! c with Some st => (1 <= takes st)%nat | None => False end) -> rinv cap s'.
Proof.
  intros [Hc Hf] Hl H Hcap. unfold request_step in H. destruct (next cfg l (rd_server s)) as [[srv o1]|] eqn:E; [|done]. simplify_eq. constructor.
  - rewrite in_use_total in *. cbn [rd_stage rd_queries] in *. rewrite total_set_stage. pose proof (takes_stage_of srv c).
    destruct (rd_stage s !! c) as [st|] eqn:Es.
    + rewrite (total_delete takes _ _ _ Es) in *. destruct Hcap; lia.
    + rewrite (total_absent takes _ _ Es). destruct Hcap as [|[]]. lia.
  - intros c'. cbn. destruct (decide (c = c')) as [<-|Hne]; [rewrite lookup_set_stage; apply fits_stage_of|].
    rewrite lookup_set_stage_ne by done. eapply fits_alike; [apply Hf|]. eapply next_alike; [exact E|].
    destruct Hl as [(?&?&?&->)|[(?&?&->)|[->|[[? ->]|[->| ->]]]]]; done.
Qed.
Lemma rinv_start cap h now : rinv cap (readers_start h now).
Proof.
  constructor; [rewrite in_use_total; simpl; rewrite !total_empty; lia|]. intros c. cbn. rewrite !lookup_empty. by intros x [=].
Qed.
Lemma fails_rinv cfg cap c s s' o : rinv cap s -> fails cfg c s = Some (s', o) -> rinv cap s'.
Proof.
  intros HI H. pose proof HI as [Hc Hf]. unfold fails in H. destruct (rd_stage s !! c) as [[[q|] t| |t|]|] eqn:Es; try done.
  - simplify_eq. constructor.
    + rewrite in_use_total in *. cbn in *. rewrite (total_delete takes _ _ _ Es) in Hc. cbn in *. lia.
    + intros c'. cbn. destruct (decide (c = c')) as [<-|Hne]; [|by rewrite lookup_delete_ne].
      rewrite lookup_delete. specialize (Hf c). rewrite Es in Hf. destruct Hf as (x & q0 & -> & Hg & _). intros x' [= <-]. unfold gist in Hg. by destruct (c_fetch x).
  - destruct (s_conns (rd_server s) !! c) as [[[] set rx [] sp w [|q rest]]|] eqn:Ex; try done. simplify_eq. constructor.
    + rewrite in_use_total in *. cbn in *. rewrite (total_delete takes _ _ _ Es) in Hc. cbn in *. lia.
    + intros c'. cbn. destruct (decide (c = c')) as [<-|Hne].
      * rewrite lookup_delete, lookup_insert. by intros x [= <-].
      * by rewrite lookup_delete_ne, lookup_insert_ne.
  - eapply request_rinv; [exact HI| |exact H|]; [unfold request_label; tauto|]. right. rewrite Es. simpl. lia.
  - eapply request_rinv; [exact HI| |exact H|]; [unfold request_label; tauto|]. right. rewrite Es. simpl. lia.
Qed.
Lemma plain_fits cfg l s srv' o st : next cfg l (rd_server s) = Some (srv', o) -> plain l s = true -> (forall e, l <> LCrash e) ->
  (forall c, fits (rd_stage s !! c) (s_conns (rd_server s) !! c)) -> st = rd_stage s -> forall c, fits (st !! c) (s_conns srv' !! c).
Proof.
  intros H Hp Hc Hf -> c. assert (Hd : touches l c \/ ~ touches l c).
  { destruct l as [| |a|a|a|a|a| |a|a|a| | | | | | | | | | |]; cbn; first [by left|right; tauto|destruct (decide (a = c)); by auto]. }
  destruct Hd as [Ht|Ht]; [|eapply fits_alike; [apply Hf|by eapply next_alike]].
  destruct l; cbn in Ht; try done; try (rewrite Ht in *; clear Ht); cbn in Hp; try done; [| |by destruct (Hc e)].
  - cbn in H. specialize (Hf c). destruct (s_conns (rd_server s) !! c) eqn:E; [done|]. simplify_eq. cbn. rewrite lookup_insert.
    destruct (rd_stage s !! c) as [[oq t| |t|]|]; cbn in Hf; try (by destruct Hf as (x & [=] & _)); try (by destruct Hf as (x & ? & [=] & _)).
    by intros x [= <-].
  - destruct (rd_stage s !! c) eqn:Es; [done|]. apply disconnects in H as (x & Hx & _ & _ & -> & _). rewrite close_conn. by intros y [= <-].
Qed.
Lemma rstep_rinv cfg cap l s s' o : rinv cap s -> rnext cfg cap l s = Some (s', o) -> rinv cap s'.
Proof.
  intros HI H. pose proof HI as [Hc Hf]. destruct s as [srv st qs]. destruct l; cbn -[in_use request_step fails] in H.
  - destruct (s_conns srv !! c) as [x|] eqn:Ex; [|done]. destruct (st !! c) eqn:Es; [done|]. destruct (c_open x) eqn:Eo; [|done].
    destruct (q_max q =? 0) eqn:Eq; simplify_eq; [done|]. apply N.eqb_neq in Eq. constructor.
    + rewrite in_use_total in *. cbn in *. rewrite total_insert, (total_absent _ _ _ Es). cbn. lia.
    + intros c'. cbn. destruct (decide (c = c')) as [<-|Hne]; [|rewrite lookup_insert_ne by done; apply (Hf c')].
      rewrite lookup_insert. exists x, q. split; [done|]. split; [|done]. specialize (Hf c). cbn in Hf. rewrite Es in Hf. unfold gist. by rewrite Eo, (Hf x Ex).
  - destruct (s_conns srv !! c) as [x|] eqn:Ex; [|done]. destruct (st !! c) eqn:Es; [done|]. destruct (c_open x) eqn:Eo; [|done].
    destruct (c_retry x) as [|q rest] eqn:Er; [done|]. destruct (q_max q =? 0) eqn:Eq; simplify_eq.
    { constructor; [done|]. intros c'. cbn. destruct (decide (c = c')) as [<-|Hne]; [|rewrite lookup_insert_ne by done; apply (Hf c')].
      rewrite lookup_insert, Es. by intros y [= <-]. }
    apply N.eqb_neq in Eq. constructor.
    + rewrite in_use_total in *. cbn in *. rewrite total_insert, (total_absent _ _ _ Es). cbn. lia.
    + intros c'. cbn. destruct (decide (c = c')) as [<-|Hne]; [|rewrite lookup_insert_ne by done; apply (Hf c')].
      rewrite lookup_insert. exists x, q. split; [done|]. split; [|by eauto]. specialize (Hf c). cbn in Hf. rewrite Es in Hf. unfold gist. by rewrite Eo, (Hf x Ex).
  - destruct (st !! c) as [[oq t| |t|]|] eqn:Es; try done. destruct (N.of_nat _ <? cap) eqn:Eu; [|done]. apply N.ltb_lt in Eu.
    eapply request_rinv; [exact HI| |exact H|by left]. destruct oq; unfold request_label; eauto 10.
  - destruct (st !! c) as [[oq t| |t|]|] eqn:Es; try done.
    eapply request_rinv; [exact HI| |exact H|]; [unfold request_label; tauto|]. right. cbn. rewrite Es. simpl. lia.
  - destruct (st !! c) as [[oq t| |t|]|] eqn:Es; try done. destruct (N.of_nat _ <? cap) eqn:Eu; [|done]. apply N.ltb_lt in Eu. simplify_eq. constructor.
    + rewrite in_use_total in *. cbn in *. rewrite total_insert. rewrite (total_delete takes _ _ _ Es) in Eu. cbn in *. lia.
    + intros c'. cbn. destruct (decide (c = c')) as [<-|Hne]; [|rewrite lookup_insert_ne by done; apply (Hf c')].
      rewrite lookup_insert. specialize (Hf c). cbn in Hf. by rewrite Es in Hf.
  - destruct (st !! c) as [[oq t| |t|]|] eqn:Es; try done.
    eapply request_rinv; [exact HI| |exact H|]; [unfold request_label; eauto 10|]. right. cbn. rewrite Es. simpl. lia.
  - destruct (st !! c) as [[oq t| |t|]|] eqn:Es; try done.
    eapply request_rinv; [exact HI| |exact H|]; [unfold request_label; tauto|]. right. cbn. rewrite Es. simpl. lia.
  - by eapply fails_rinv.
  - destruct (st !! c ≫= waits_since); [|done]. case_match; [|done]. by eapply fails_rinv.
  - destruct (qs !! t) eqn:Eq; [done|]. simplify_eq. constructor; [|done]. rewrite in_use_total in *. cbn in *. rewrite total_insert, (total_absent _ _ _ Eq). cbn. lia.
  - destruct (qs !! t) as [[w|]|] eqn:Eq; try done. destruct (N.of_nat _ <? cap) eqn:Eu; [|done]. apply N.ltb_lt in Eu. simplify_eq. constructor; [|done].
    rewrite in_use_total in *. cbn in *. rewrite total_insert. rewrite (total_delete holds _ _ _ Eq) in Eu. cbn in *. lia.
  - destruct (qs !! t) as [[w|]|] eqn:Eq; try done. simplify_eq. constructor; [|done].
    rewrite in_use_total in *. cbn in *. rewrite (total_delete holds _ _ _ Eq) in Hc. lia.
  - destruct (qs !! t) as [[w|]|] eqn:Eq; try done. case_match; [|done]. simplify_eq. constructor; [|done].
    rewrite in_use_total in *. cbn in *. rewrite (total_delete holds _ _ _ Eq) in Hc. lia.
  - destruct (qs !! t) as [w|] eqn:Eq; try done. simplify_eq. constructor; [|done].
    rewrite in_use_total in *. cbn in *. rewrite (total_delete holds _ _ _ Eq) in Hc. lia.
  - case_bool_decide; [|done]. simplify_eq. by constructor.
  - destruct (plain l _) eqn:Ep; [|done]. destruct (next cfg l srv) as [[srv' o1]|] eqn:En; [|done].
    assert (Hx : (exists e, l = LCrash e) \/ forall e, l <> LCrash e) by (destruct l; eauto).
    destruct Hx as [[e ->]|Hx].
    + cbn in En. simplify_eq. constructor; [rewrite in_use_total; cbn; rewrite !total_empty; lia|]. intros c. cbn. rewrite !lookup_empty. by intros x [=].
    + assert (E : s' = Readers srv' st qs) by (destruct l; simplify_eq; try done; by destruct (Hx e)). subst s'. constructor; [done|].
      eapply (plain_fits cfg l (Readers srv st qs)); eauto.
Qed.
Lemma rrun_rinv cfg cap ok s tr s' : rinv cap s -> rrun cfg cap ok s tr s' -> rinv cap s'.
Proof. intros Hs. induction 1 as [|tr s1 l s2 o _ IH _ [_ Hst]]; [done|]. by eapply rstep_rinv. Qed.

(** *** The run of the server in a run *)
Lemma run_one cfg s l s' o : step_to cfg s l s' o -> run_to cfg anything s [(l, o)] s'.
Proof. intros H. apply (run_snoc cfg anything s [] s l s' o); [constructor|done|done]. Qed.
Lemma run_two cfg s l s1 o l' s' o' : step_to cfg s l s1 o -> step_to cfg s1 l' s' o' -> run_to cfg anything s [(l, o); (l', o')] s'.
Proof. intros H H'. apply (run_snoc cfg anything s [(l, o)] s1 l' s' o'); [by apply run_one|done|done]. Qed.
Lemma run_trans cfg s tr s1 tr' s2 : run_to cfg anything s tr s1 -> run_to cfg anything s1 tr' s2 -> run_to cfg anything s (tr ++ tr') s2.
Proof.
  intros H. induction 1 as [|tr' s1' l s2 o _ IH Hok Hst]; [by rewrite app_nil_r|]. rewrite app_assoc. by eapply run_snoc.
Qed.
Lemma sent_Sent o : sent (Sent <$> o) = o.
Proof. unfold sent. induction o as [|x o IH]; [done|]. cbn. by rewrite IH. Qed.
Lemma set_conn_same c x s : s_conns s !! c = Some x -> set_conn c x s = s.
Proof. intros H. destruct s. unfold set_conn. cbn in *. by rewrite insert_id. Qed.
Lemma set_conn_twice c x y s : set_conn c x (set_conn c y s) = set_conn c x s.
Proof. destruct s. unfold set_conn. cbn. by rewrite insert_insert. Qed.
Lemma fails_server cfg cap c s s' o : rinv cap s -> fails cfg c s = Some (s', o) ->
  exists tr, run_to cfg anything (rd_server s) tr (rd_server s') /\ concat tr.*2 = sent o.
Proof.
  intros [_ Hf] H. specialize (Hf c). unfold fails in H. destruct (rd_stage s !! c) as [[[q|] t| |t|]|] eqn:Es; try done.
  - simplify_eq. destruct Hf as (x & q' & Hx & Hg & Hq & <-). unfold gist in Hg. injection Hg as Ho Hj. destruct (c_fetch x) eqn:Ef; [done|].
    destruct (C23_every_strategy_answers (q_strategy q) 0 (s_db (rd_server s)) (s_counts (rd_server s)) (fun _ => false)) as [rows Hrows].
    apply N.eqb_neq in Hq. destruct (can_ask (q_strategy q)) eqn:Ea;
      [|eexists [(LReserve c q 0 rows, [Given c (q_nonce q) []])]; split; [|done]; apply run_one; split; [exact Hrows|]; cbn; by rewrite Hx, Ho, Ef, Hq, Ea].
    eexists [(LReserve c q 0 rows, []); (LFetchError c, [Given c (q_nonce q) []])]. split; [|done]. cbn. eapply run_two.
    + split; [exact Hrows|]. cbn. by rewrite Hx, Ho, Ef, Hq, Ea.
    + split; [done|]. cbn. rewrite lookup_insert. cbn. rewrite set_conn_twice. rewrite set_conn_same; [done|]. rewrite Hx. f_equal.
      unfold with_fetch. cbn. rewrite <- Ef. by destruct x.
  - destruct Hf as (x & q & Hx & Hg & Hq & rest & Hr). destruct (s_conns (rd_server s) !! c) as [[[] set rx [] sp w [|q' rest']]|] eqn:Ex; try done. simplify_eq. cbn in Hr. simplify_eq.
    destruct (C23_every_strategy_answers (q_strategy q) 0 (s_db (rd_server s)) (s_counts (rd_server s)) (fun _ => false)) as [rows Hrows].
    apply N.eqb_neq in Hq. destruct (can_ask (q_strategy q)) eqn:Ea;
      [|eexists [(LRetry c 0 rows, [Given c (q_nonce q) []])]; split; [|done]; apply run_one; split; [cbn; by eexists _, _, _|]; cbn; rewrite Ex; cbn; by rewrite Hq, Ea].
    eexists [(LRetry c 0 rows, []); (LFetchError c, [Given c (q_nonce q) []])]. split; [|done]. cbn. eapply run_two.
    + split; [cbn; by eexists _, _, _|]. cbn. rewrite Ex. cbn. by rewrite Hq, Ea.
    + split; [done|]. cbn. rewrite lookup_insert. cbn. by rewrite set_conn_twice.
  - unfold request_step in H. destruct (next cfg (LFetchError c) (rd_server s)) as [[srv o1]|] eqn:E; [|done]. simplify_eq.
    eexists [(_, _)]. split; [apply run_one; split; [|exact E]; done|]. cbn. by rewrite app_nil_r, sent_Sent.
  - unfold request_step in H. destruct (next cfg (LFetchError c) (rd_server s)) as [[srv o1]|] eqn:E; [|done]. simplify_eq.
    eexists [(_, _)]. split; [apply run_one; split; [|exact E]; done|]. cbn. by rewrite app_nil_r, sent_Sent.
Qed.
Lemma request_server cfg l c s s' o : allowed cfg l (rd_server s) -> request_step cfg l c s = Some (s', o) ->
  exists tr, run_to cfg anything (rd_server s) tr (rd_server s') /\ concat tr.*2 = sent o.
Proof.
  intros Ha H. unfold request_step in H. destruct (next cfg l (rd_server s)) as [[srv o1]|] eqn:E; [|done]. simplify_eq.
  eexists [(_, _)]. split; [apply run_one; split; [|exact E]; done|]. cbn. by rewrite app_nil_r, sent_Sent.
Qed.
Lemma rstep_server cfg cap s l s' o : rinv cap s -> rstep_to cfg cap s l s' o ->
  exists tr, run_to cfg anything (rd_server s) tr (rd_server s') /\ concat tr.*2 = sent o.
Proof.
  intros HI [Ha H]. pose proof HI as [_ Hf]. destruct s as [srv st qs].
  assert (Hnil : forall s0, run_to cfg anything s0 [] s0 /\ concat (([] : list (label * list out)).*2) = []) by (split; [constructor|done]).
  destruct l; cbn -[in_use request_step fails] in H.
  - destruct (s_conns srv !! c) as [x|] eqn:Ex; [|done]. destruct (st !! c) eqn:Es; [done|]. destruct (c_open x) eqn:Eo; [|done].
    destruct (q_max q =? 0) eqn:Eq; simplify_eq; [|by eexists].
    destruct (C23_every_strategy_answers (q_strategy q) 0 (s_db srv) (s_counts srv) (fun _ => false)) as [rows Hrows].
    eexists [(LReserve c q 0 rows, [Refused c (q_nonce q)])]. split; [|done]. apply run_one. split; [exact Hrows|]. cbn. rewrite Ex, Eo.
    specialize (Hf c). cbn in Hf. rewrite Es in Hf. by rewrite (Hf x Ex), Eq.
  - destruct (s_conns srv !! c) as [x|] eqn:Ex; [|done]. destruct (st !! c) eqn:Es; [done|]. destruct (c_open x) eqn:Eo; [|done].
    destruct (c_retry x) as [|q rest] eqn:Er; [done|]. destruct (q_max q =? 0) eqn:Eq; simplify_eq; [|by eexists].
    destruct (C23_every_strategy_answers (q_strategy q) 0 (s_db srv) (s_counts srv) (fun _ => false)) as [rows Hrows].
    eexists [(LRetry c 0 rows, [Refused c (q_nonce q)])]. split; [|done]. apply run_one. split; [cbn; by eexists _, _, _|]. cbn. rewrite Ex, Eo.
    specialize (Hf c). cbn in Hf. rewrite Es in Hf. by rewrite (Hf x Ex), Er, Eq.
  - destruct (st !! c) as [[oq t| |t|]|] eqn:Es; try done. destruct (N.of_nat _ <? cap) eqn:Eu; [|done].
    eapply request_server; [|exact H]. cbn -[allowed] in Ha. rewrite Es in Ha. by destruct oq.
  - destruct (st !! c) as [[oq t| |t|]|] eqn:Es; try done. eapply request_server; [|exact H]. done.
  - destruct (st !! c) as [[oq t| |t|]|] eqn:Es; try done. destruct (N.of_nat _ <? cap); [|done]. simplify_eq. by eexists.
  - destruct (st !! c) as [[oq t| |t|]|] eqn:Es; try done. eapply request_server; [|exact H]. done.
  - destruct (st !! c) as [[oq t| |t|]|] eqn:Es; try done. eapply request_server; [|exact H]. done.
  - by eapply fails_server.
  - destruct (st !! c ≫= waits_since); [|done]. case_match; [|done]. by eapply fails_server.
  - destruct (qs !! t) eqn:Eq; [done|]. simplify_eq. by eexists.
  - destruct (qs !! t) as [[w|]|] eqn:Eq; try done. destruct (N.of_nat _ <? cap); [|done]. simplify_eq. by eexists.
  - destruct (qs !! t) as [[w|]|] eqn:Eq; try done. simplify_eq. by eexists.
  - destruct (qs !! t) as [[w|]|] eqn:Eq; try done. case_match; [|done]. simplify_eq. by eexists.
  - destruct (qs !! t) as [w|] eqn:Eq; try done. simplify_eq. by eexists.
  - case_bool_decide; [|done]. simplify_eq. eexists [(LTime dt, [])]. split; [by apply run_one|done].
  - destruct (plain l _) eqn:Ep; [|done]. destruct (next cfg l srv) as [[srv' o1]|] eqn:En; [|done]. simplify_eq.
    eexists [(l, o1)]. split; [|cbn; by rewrite app_nil_r, sent_Sent]. apply run_one. split; [done|]. change (rd_server (Readers srv st qs)) with srv. rewrite En. by destruct l.
Qed.
Lemma rrun_server cfg cap ok s tr s' : rinv cap s -> rrun cfg cap ok s tr s' ->
  exists tr', run_to cfg anything (rd_server s) tr' (rd_server s') /\ concat tr'.*2 = sent (rsent tr).
Proof.
  intros Hs. induction 1 as [|tr s1 l s2 o Hr IH _ Hst]; [exists []; split; [constructor|done]|].
  destruct IH as (tr1 & H1 & E1). destruct (rstep_server cfg cap s1 l s2 o) as (tr2 & H2 & E2); [by eapply rrun_rinv|done|].
  exists (tr1 ++ tr2). split; [by eapply run_trans|]. rewrite fmap_app, concat_app, E1, E2. unfold rsent, sent.
  rewrite fmap_app, concat_app. cbn. rewrite app_nil_r. by rewrite omap_app.
Qed.

(** *** Somebody can go on *)
Lemma total_zero {A} (f : A -> nat) (m : gmap N A) : (forall c x, m !! c = Some x -> f x = 0%nat) -> total f m = 0%nat.
Proof.
  intros H. assert (total f m <= total (fun _ => 0) m)%nat as Hle by (apply total_le; intros c x Hx; rewrite (H c x Hx); lia).
  assert (E : total (fun _ : A => 0%nat) m = 0%nat); [|lia]. unfold total. generalize (map_to_list m). induction l; simpl; lia.
Qed.
Lemma find_stage (P : stage -> bool) (m : gmap N stage) : (exists c st, m !! c = Some st /\ P st = true) \/ forall c st, m !! c = Some st -> P st = false.
Proof.
  destruct (decide (map_Forall (fun _ st => P st = false) m)) as [H|H]; [right; exact H|left].
  apply map_not_Forall in H as (c & st & Hc & Hn); [|apply _]. exists c, st. split; [done|]. by destruct (P st).
Qed.
Lemma first_step cfg cap s c oq t : rinv cap s -> rd_stage s !! c = Some (WaitsFirst oq t) -> N.of_nat (in_use s) < cap ->
  exists off rows s' o, rstep_to cfg cap s (PFirst c off rows) s' o.
Proof.
  intros [_ Hf] Hs Hu. specialize (Hf c). rewrite Hs in Hf. destruct Hf as (x & q & Hx & Hg & Hq & Hoq). unfold gist in Hg. injection Hg as Ho Hj. destruct (c_fetch x) eqn:Ef; [done|].
  destruct s as [srv st qs]. cbn in Hs, Hx.
  destruct (C23_every_strategy_answers (q_strategy q) 0 (s_db srv) (s_counts srv) (fun _ => false)) as [rows Hrows].
  apply N.eqb_neq in Hq. apply N.ltb_lt in Hu. exists 0, rows.
  destruct oq as [q'|]; [subst q'|destruct Hoq as [rest Hr]]; destruct (can_ask (q_strategy q)) eqn:Ea.
  - eexists _, _. split; [cbn; rewrite Hs; exact Hrows|]. cbn -[in_use next]. rewrite Hs, Hu. unfold request_step. cbn. rewrite Hx, Ho, Ef, Hq, Ea. done.
  - eexists _, _. split; [cbn; rewrite Hs; exact Hrows|]. cbn -[in_use next]. rewrite Hs, Hu. unfold request_step. cbn. rewrite Hx, Ho, Ef, Hq, Ea. done.
  - eexists _, _. split; [cbn; rewrite Hs; by eexists _, _, _|]. cbn -[in_use next]. rewrite Hs, Hu. unfold request_step. cbn. rewrite Hx, Ho, Ef, Hr, Hq, Ea. done.
  - eexists _, _. split; [cbn; rewrite Hs; by eexists _, _, _|]. cbn -[in_use next]. rewrite Hs, Hu. unfold request_step. cbn. rewrite Hx, Ho, Ef, Hr, Hq, Ea. done.
Qed.
Lemma progress cfg cap s : rinv cap s -> N.of_nat (size (rd_stage s)) < cap -> ~ settled s -> exists l s' o, goes_on l /\ rstep_to cfg cap s l s' o.
Proof.
  intros HI Hsz Hns. pose proof HI as [Hcap Hf]. destruct (find_stage (fun st => match st with HasBoth => true | _ => false end) (rd_stage s)) as [(c & st & Hc & E)|Hno2].
  { destruct st; try done. specialize (Hf c). rewrite Hc in Hf. destruct Hf as (x & r & Hx & Hg). unfold gist in Hg. cbn in Hg. destruct (c_fetch x) as [[q rows got j]|] eqn:Ef; [|done].
    injection Hg as Hg. cbn in Hg. subst j. destruct s as [srv stg qs]. cbn in Hc, Hx.
    exists (PJoin c false). destruct (joined_submission (s_db srv) r) as [sub|] eqn:Ej; (eexists _, _; split; [done|]; split; [done|]; cbn -[close]; rewrite Hc; unfold request_step; cbn -[close]; rewrite Hx, Ef, Ej; reflexivity). }
  destruct (find_stage (fun st => match st with HasFirst => true | _ => false end) (rd_stage s)) as [(c & st & Hc & E)|Hno1].
  { destruct st; try done. specialize (Hf c). rewrite Hc in Hf. destruct Hf as (x & Hx & Hg). unfold gist in Hg. cbn in Hg. destruct (c_fetch x) as [[q rows got j]|] eqn:Ef; [|done].
    injection Hg as Hg. cbn in Hg. subst j. destruct s as [srv stg qs]. cbn in Hc, Hx.
    destruct (bool_decide (rows = []) || (q_max q <=? N.of_nat (length got))) eqn:Er.
    - exists (PReply c). destruct got as [|g got]; (eexists _, _; split; [done|]; split; [done|]; cbn; rewrite Hc; unfold request_step; cbn -[N.of_nat]; rewrite Hx, Ef, Er; reflexivity).
    - apply orb_false_iff in Er as [Er1 Er2]. apply bool_decide_eq_false in Er1. destruct rows as [|r rows]; [done|]. apply N.leb_gt, N.ltb_lt in Er2.
      exists (PRow c). destruct (try_reserve (cf_ttl cfg) (s_now srv) (c_sub r, c_index r) c (s_res srv)) as [[ok res] ns] eqn:Et.
      eexists _, _. split; [done|]. split; [done|]. cbn. rewrite Hc. unfold request_step. cbn. rewrite Hx, Ef, Er2, Et. reflexivity. }
  destruct (decide (map_Forall (fun _ w => w <> None) (rd_queries s))) as [Hq|Hq]; cycle 1.
  { apply map_not_Forall in Hq as (t & w & Ht & Hw); [|apply _]. destruct w; [by destruct Hw|]. exists (PAnswer t). destruct s as [srv st qs]. cbn in Ht.
    eexists _, _. split; [done|]. split; [done|]. cbn. by rewrite Ht. }
  assert (Hu : N.of_nat (in_use s) < cap).
  { rewrite in_use_total. rewrite (total_zero holds).
    - assert (total takes (rd_stage s) <= total (fun _ => 1) (rd_stage s))%nat as Hle.
      { apply total_le. intros c st Hc. specialize (Hno2 c st Hc). destruct st; simpl; try done; lia. }
      rewrite total_one in Hle. lia.
    - intros t w Ht. specialize (Hq t w Ht). by destruct w. }
  destruct (decide (rd_stage s = ∅)) as [E0|E0].
  - destruct (decide (rd_queries s = ∅)) as [E1|E1]; [by destruct Hns|]. apply map_choose in E1 as (t & w & Ht). pose proof (Hq t w Ht) as Hw. cbn in Hw. destruct w as [w|]; [|done].
    exists (PGet t). destruct s as [srv st qs]. apply N.ltb_lt in Hu. cbn in Ht. eexists _, _. split; [done|]. split; [done|]. cbn -[in_use]. by rewrite Ht, Hu.
  - apply map_choose in E0 as (c & st & Hc). destruct st as [oq t| |t|].
    + destruct (first_step cfg cap s c oq t HI Hc Hu) as (off & rows & s' & o & Hst). exists (PFirst c off rows), s', o. done.
    + by specialize (Hno1 c _ Hc).
    + exists (PSecond c). destruct s as [srv st qs]. apply N.ltb_lt in Hu. cbn in Hc. eexists _, _. split; [done|]. split; [done|]. cbn -[in_use]. by rewrite Hc, Hu.
    + by specialize (Hno2 c _ Hc).
Qed.

(** *** The requests come to an end *)
Definition totk {A} (f : N -> A -> nat) (m : gmap N A) : nat := sum_list_with (fun p => f p.1 p.2) (map_to_list m).
Lemma totk_delete {A} (f : N -> A -> nat) m c x : m !! c = Some x -> totk f m = (f c x + totk f (delete c m))%nat.
Proof. intros H. unfold totk. rewrite <- (sum_perm _ _ _ (map_to_list_delete m c x H)). done. Qed.
Lemma totk_insert {A} (f : N -> A -> nat) m c y : totk f (<[c := y]> m) = (f c y + totk f (delete c m))%nat.
Proof.
  rewrite <- insert_delete_insert. unfold totk. rewrite (sum_perm _ _ _ (map_to_list_insert (delete c m) c y (lookup_delete _ _))). done.
Qed.
Lemma totk_le {A} (f g : N -> A -> nat) (m : gmap N A) : (forall c x, m !! c = Some x -> (f c x <= g c x)%nat) -> (totk f m <= totk g m)%nat.
Proof.
  intros H. unfold totk. assert (Hl : forall p, p ∈ map_to_list m -> (f p.1 p.2 <= g p.1 p.2)%nat) by (intros [c x] Hp; apply elem_of_map_to_list in Hp; by apply H).
  induction (map_to_list m) as [|p l IH]; simpl; [lia|]. pose proof (Hl p (elem_of_list_here _ _)).
  assert (sum_list_with (fun p => f p.1 p.2) l <= sum_list_with (fun p => g p.1 p.2) l)%nat; [|lia]. apply IH. intros p' Hp'. apply Hl. by right.
Qed.
Lemma totk_set_stage c st m f : totk f (set_stage c st m) = (match st with Some x => f c x | None => 0 end + totk f (delete c m))%nat.
Proof. destruct st; simpl; [apply totk_insert|done]. Qed.

Definition rows_left (srv : state) (c : N) : nat := match fetch_of srv c with Some f => length (f_rows f) | None => 0 end.
Definition weight (srv : state) (R : nat) (c : N) (st : stage) : nat :=
  match st with
  | WaitsFirst _ _ => 3 * R + 2
  | HasFirst => 3 * rows_left srv c + 1
  | WaitsSecond _ => 3 * rows_left srv c + 3
  | HasBoth => 3 * rows_left srv c + 2
  end%nat.
Definition pending (w : option N) : nat := match w with Some _ => 2 | None => 1 end.
Definition measure (R : nat) (s : readers) : nat := (totk (weight (rd_server s) R) (rd_stage s) + total pending (rd_queries s))%nat.

Lemma rows_alike srv srv' c : alike (s_conns srv) (s_conns srv') c -> (rows_left srv' c <= rows_left srv c)%nat.
Proof.
  unfold alike, rows_left, fetch_of. intros H. inversion H as [x y (Hg & _ & Hr) E1 E2|E1 E2]; simpl; [|lia].
  unfold gist in Hg. injection Hg as _ Hg. destruct (c_fetch x), (c_fetch y); simpl in *; try done; lia.
Qed.
Lemma got_alike srv srv' c f' : alike (s_conns srv) (s_conns srv') c -> fetch_of srv' c = Some f' -> exists f, fetch_of srv c = Some f /\ f_got f' = f_got f.
Proof.
  unfold alike, fetch_of. intros H. inversion H as [x y (Hg & _ & Hr) E1 E2|E1 E2]; simpl; [|done].
  unfold gist in Hg. injection Hg as _ Hg. intros Hy. rewrite Hy in *. destruct (c_fetch x) as [f|]; [|done]. exists f. split; [done|]. apply Hr.
Qed.
Lemma request_measure cfg R l c s s' o old : request_label l c -> request_step cfg l c s = Some (s', o) -> rd_stage s !! c = Some old ->
  (match stage_of (rd_server s') c with Some st => weight (rd_server s') R c st | None => 0 end < weight (rd_server s) R c old)%nat -> (measure R s' < measure R s)%nat.
Proof.
  intros Hl H Ho Hw. unfold request_step in H. destruct (next cfg l (rd_server s)) as [[srv o1]|] eqn:E; [|done]. simplify_eq. cbn in Hw.
  unfold measure. cbn. rewrite totk_set_stage, (totk_delete _ _ _ _ Ho).
  assert (totk (weight srv R) (delete c (rd_stage s)) <= totk (weight (rd_server s) R) (delete c (rd_stage s)))%nat; [|lia].
  apply totk_le. intros c' st Hst. apply lookup_delete_Some in Hst as [Hne _].
  assert (Ha : alike (s_conns (rd_server s)) (s_conns srv) c').
  { eapply next_alike; [exact E|]. destruct Hl as [(?&?&?&->)|[(?&?&->)|[->|[[? ->]|[->| ->]]]]]; done. }
  apply rows_alike in Ha. destruct st; simpl; lia.
Qed.
Lemma request_hist cfg l c s s' o : request_label l c -> request_step cfg l c s = Some (s', o) -> s_hist (rd_server s') = s_hist (rd_server s).
Proof.
  intros Hl H. unfold request_step in H. destruct (next cfg l (rd_server s)) as [[srv o1]|] eqn:E; [|done]. simplify_eq. cbn.
  destruct Hl as [(?&?&?&->)|[(?&?&->)|[->|[[? ->]|[->| ->]]]]]; cbn -[deliver] in E; repeat case_match; simplify_eq; done.
Qed.
Lemma offers_length h st off m l : fresh_ids h -> offers st off (after h) m (fun _ => false) l -> (length l <= length (all_chunks (after h)))%nat.
Proof.
  intros Hf Ho. destruct (offers_exact _ _ _ _ _ _ Hf Ho) as [Hnd Hel]. apply submseteq_length, NoDup_submseteq.
  - by apply NoDup_fmap_1 in Hnd.
  - intros c Hc. apply elem_all_chunks. by apply Hel.
Qed.
Definition too_many (s : readers) (c n : N) : Prop := exists q, asks s c q /\ q_nonce q = n /\ can_ask (q_strategy q) = false.
Lemma request_asks cfg cap l a s s' o c q : rinv cap s -> request_label l a -> request_step cfg l a s = Some (s', o) -> asks s' c q -> asks s c q.
Proof.
  intros [_ Hf] Hl H (t & Ha). unfold request_step in H. destruct (next cfg l (rd_server s)) as [[srv o1]|] eqn:E; [|done]. simplify_eq. cbn [rd_stage rd_server] in Ha.
  destruct (decide (a = c)) as [->|Hne].
  - exfalso. rewrite lookup_set_stage in Ha. unfold stage_of in Ha. destruct (fetch_of srv c) as [f|]; [|by destruct Ha as [|[? _]]].
    destruct (f_join f); destruct Ha as [|[? _]]; discriminate.
  - rewrite lookup_set_stage_ne in Ha by done. exists t. destruct Ha as [Ha|[Ha (x & rest & Hx & Hr)]]; [by left|right]. split; [done|].
    assert (Hal : alike (s_conns (rd_server s)) (s_conns srv) c).
    { eapply next_alike; [exact E|]. destruct Hl as [(?&?&?&->)|[(?&?&->)|[->|[[? ->]|[->| ->]]]]]; done. }
    specialize (Hf c). rewrite Ha in Hf. destruct Hf as (y & q' & Hy & _ & _ & rest' & Hr'). unfold alike in Hal. rewrite Hy, Hx in Hal. inversion Hal as [? ? (_ & [r Hp] & _)|]; subst.
    rewrite Hr, Hr' in Hp. cbn in Hp. injection Hp as -> _. by exists y, rest'.
Qed.
Lemma goes_on_asks cfg cap s l s' o c q : rinv cap s -> goes_on l -> rstep_to cfg cap s l s' o -> asks s' c q -> asks s c q.
Proof.
  intros HI Hg [_ H] Ha. destruct s as [srv st qs]. destruct l; try done; cbn -[in_use request_step fails] in H.
  - destruct (st !! c0) as [[oq t| |t|]|] eqn:Es; try done. destruct (N.of_nat _ <? cap); [|done]. eapply request_asks; [exact HI| |exact H|exact Ha].
    destruct oq; unfold request_label; eauto 10.
  - destruct (st !! c0) as [[oq t| |t|]|] eqn:Es; try done. eapply request_asks; [exact HI| |exact H|exact Ha]. unfold request_label; eauto 10.
  - destruct (st !! c0) as [[oq t| |t|]|] eqn:Es; try done. destruct (N.of_nat _ <? cap); [|done]. simplify_eq. destruct Ha as (t' & Ha). exists t'. cbn [rd_stage rd_server] in *.
    destruct (decide (c0 = c)) as [->|Hne]; [rewrite lookup_insert in Ha; by destruct Ha as [|[? _]]|]. by rewrite lookup_insert_ne in Ha.
  - destruct (st !! c0) as [[oq t| |t|]|] eqn:Es; try done. eapply request_asks; [exact HI| |exact H|exact Ha]. unfold request_label; eauto 10.
  - destruct (st !! c0) as [[oq t| |t|]|] eqn:Es; try done. eapply request_asks; [exact HI| |exact H|exact Ha]. unfold request_label; eauto 10.
  - destruct (qs !! t) as [[w|]|] eqn:Eq; try done. destruct (N.of_nat _ <? cap); [|done]. by simplify_eq.
  - destruct (qs !! t) as [[w|]|] eqn:Eq; try done. by simplify_eq.
Qed.
Lemma goes_on_step cfg cap s l s' o : rinv cap s -> fresh_ids (s_hist (rd_server s)) -> goes_on l -> rstep_to cfg cap s l s' o ->
  let R := length (all_chunks (s_db (rd_server s))) in
  (measure R s' < measure R s)%nat /\ s_hist (rd_server s') = s_hist (rd_server s) /\ (size (rd_stage s') <= size (rd_stage s))%nat /\
  (forall t, is_Some (rd_queries s !! t) -> is_Some (rd_queries s' !! t) \/ QueryAnswered t ∈ o) /\
  (forall c n l, Sent (Given c n l) ∈ o -> l <> [] \/ too_many s c n).
Proof.
  intros HI Hfr Hg [Ha H] R. pose proof HI as [_ Hf]. destruct s as [srv st qs].
  assert (Hset : forall c x s1, st !! c = Some x -> (size (set_stage c s1 st) <= size st)%nat).
  { intros c x s1 Hx. destruct s1; simpl; [rewrite map_size_insert_Some by eauto; lia|]. rewrite map_size_delete_Some by eauto. lia. }
  assert (Hreq : forall l0 c x, request_label l0 c -> request_step cfg l0 c (Readers srv st qs) = Some (s', o) -> st !! c = Some x ->
     (match stage_of (rd_server s') c with Some st => weight (rd_server s') R c st | None => 0 end < weight srv R c x)%nat -> (forall c n l, Sent (Given c n l) ∈ o -> l <> [] \/ too_many (Readers srv st qs) c n) ->
     (measure R s' < measure R (Readers srv st qs))%nat /\ s_hist (rd_server s') = s_hist srv /\ (size (rd_stage s') <= size st)%nat /\
     (forall t, is_Some (qs !! t) -> is_Some (rd_queries s' !! t) \/ QueryAnswered t ∈ o) /\
     (forall c n l, Sent (Given c n l) ∈ o -> l <> [] \/ too_many (Readers srv st qs) c n)).
  { intros l0 c x Hl Hs Hx Hw Hgv. split; [by eapply request_measure|]. split; [by eapply (request_hist _ _ _ (Readers srv st qs))|]. unfold request_step in Hs. cbn -[next] in Hs.
    destruct (next cfg l0 srv) as [[srv' o1]|]; [|done]. simplify_eq. cbn. split; [by eapply Hset|]. split; [by left|done]. }
  destruct l; try done; cbn -[in_use request_step fails] in H.
  - destruct (st !! c) as [[oq t| |t|]|] eqn:Es; try done. destruct (N.of_nat _ <? cap) eqn:Eu; [|done].
    specialize (Hf c). cbn in Hf. rewrite Es in Hf. destruct Hf as (x & q & Hx & Hgi & Hq & Hoq). unfold gist in Hgi. injection Hgi as Ho Hj. destruct (c_fetch x) eqn:Ef; [done|].
    apply N.eqb_neq in Hq. cbn -[allowed] in Ha. rewrite Es in Ha.
    eapply Hreq; [|exact H|exact Es| |]; [destruct oq; unfold request_label; eauto 10| |].
    + destruct oq as [q'|]; [subst q'|destruct Hoq as [rest Hr]]; (destruct (can_ask (q_strategy q)) eqn:Eask;
        unfold request_step in H; cbn in H; rewrite Hx, Ho, Ef in H; rewrite ?Hr in H; rewrite Hq, Eask in H; cbn in H; simplify_eq; cbn; unfold stage_of, fetch_of; cbn; rewrite ?Hx, ?lookup_insert; cbn; rewrite ?Ef).
      * unfold rows_left, fetch_of. cbn. rewrite ?lookup_insert. cbn.
        pose proof (offers_length _ _ _ _ _ Hfr Ha) as Hlen. change (length rows <= R)%nat in Hlen. lia.
      * lia.
      * unfold rows_left, fetch_of. cbn. rewrite ?lookup_insert. cbn.
        destruct Ha as (x' & q' & rest' & Hx' & Hr' & Ha). assert (q' = q) as -> by congruence. pose proof (offers_length _ _ _ _ _ Hfr Ha) as Hlen. change (length rows <= R)%nat in Hlen. lia.
      * lia.
    + destruct (can_ask (q_strategy q)) eqn:Eask.
      * destruct oq as [q'|]; [subst q'|destruct Hoq as [rest Hr]]; unfold request_step in H; cbn in H; rewrite Hx, Ho, Ef in H; [|rewrite Hr in H]; rewrite Hq, Eask in H; cbn in H; simplify_eq; intros ? ? ? Hin; cbn in Hin; by apply elem_of_nil in Hin.
      * assert (Hin : forall c' n' l', Sent (Given c' n' l') ∈ o -> c' = c /\ n' = q_nonce q).
        { destruct oq as [q'|]; [subst q'|destruct Hoq as [rest Hr]]; unfold request_step in H; cbn in H; rewrite Hx, Ho, Ef in H; [|rewrite Hr in H]; rewrite Hq, Eask in H; cbn in H; simplify_eq;
            intros ? ? ? Hin; cbn in Hin; apply elem_of_list_singleton in Hin; by simplify_eq. }
        intros c' n' l' [-> ->]%Hin. right. exists q. split; [|done]. exists t. cbn. destruct oq as [q'|]; [subst q'; by left|right]. split; [done|]. destruct Hoq as [rest Hr]. by exists x, rest.
  - destruct (st !! c) as [[oq t| |t|]|] eqn:Es; try done. specialize (Hf c). cbn in Hf. rewrite Es in Hf. destruct Hf as (x & Hx & Hgi). unfold gist in Hgi. cbn in Hgi.
    destruct (c_fetch x) as [[q rows got j]|] eqn:Ef; [|done]. injection Hgi as Hgi. cbn in Hgi. subst j. pose proof H as H'.
    unfold request_step in H. cbn in H. rewrite Hx, Ef in H. destruct rows as [|r rows]; [done|]. destruct (_ <? _); [|done].
    destruct (try_reserve (cf_ttl cfg) (s_now srv) (c_sub r, c_index r) c (s_res srv)) as [[b res] ns]. simplify_eq.
    eapply Hreq; [|exact H'|exact Es| |]; [unfold request_label; eauto 10| |intros ? ? ? Hin; cbn in Hin; by apply elem_of_nil in Hin].
    cbn -[deliver]. unfold stage_of, weight, rows_left, fetch_of. cbn -[deliver]. rewrite Hx. cbn -[deliver]. rewrite Ef.
    edestruct (deliver_fwd ns (<[c := with_fetch (Some (Fetch q rows got (if b then Some r else None))) x]> (s_conns srv)) c) as [rx Hrx]; [apply lookup_insert|].
    rewrite Hrx. cbn -[deliver]. unfold fetch_of. cbn -[deliver]. destruct b; cbn -[deliver] in *; rewrite ?Hrx; cbn; lia.
  - destruct (st !! c) as [[oq t| |t|]|] eqn:Es; try done. destruct (N.of_nat _ <? cap); [|done]. simplify_eq. split_and!.
    + unfold measure. cbn. rewrite totk_insert, (totk_delete _ _ _ _ Es). cbn. lia.
    + done.
    + cbn. rewrite map_size_insert_Some by eauto. lia.
    + by left.
    + intros ? ? ? Hin. by apply elem_of_nil in Hin.
  - destruct fault; [done|]. destruct (st !! c) as [[oq t| |t|]|] eqn:Es; try done. specialize (Hf c). cbn in Hf. rewrite Es in Hf. destruct Hf as (x & r & Hx & Hgi). unfold gist in Hgi. cbn in Hgi.
    destruct (c_fetch x) as [[q rows got j]|] eqn:Ef; [|done]. injection Hgi as Hgi. cbn in Hgi. subst j. pose proof H as H'.
    unfold request_step in H. cbn -[close] in H. rewrite Hx, Ef in H. destruct (joined_submission (s_db srv) r) as [sub|] eqn:Ej; simplify_eq.
    + eapply Hreq; [|exact H'|exact Es| |]; [unfold request_label; eauto 10| |intros ? ? ? Hin; cbn in Hin; by apply elem_of_nil in Hin].
      cbn. unfold stage_of, weight, rows_left, fetch_of. cbn. rewrite Hx, lookup_insert. cbn. rewrite Ef. cbn. lia.
    + eapply Hreq; [|exact H'|exact Es| |]; [unfold request_label; eauto 10| |].
      * cbn -[close weight]. unfold stage_of, fetch_of. rewrite close_conn. cbn. lia.
      * intros ? ? ? Hin. cbn in Hin. by apply elem_of_list_singleton in Hin.
  - destruct (st !! c) as [[oq t| |t|]|] eqn:Es; try done. specialize (Hf c). cbn in Hf. rewrite Es in Hf. destruct Hf as (x & Hx & Hgi). unfold gist in Hgi. cbn in Hgi.
    destruct (c_fetch x) as [[q rows got j]|] eqn:Ef; [|done]. injection Hgi as Hgi. cbn in Hgi. subst j. pose proof H as H'.
    unfold request_step in H. cbn -[N.of_nat] in H. rewrite Hx, Ef in H. destruct (_ || _); [|done]. destruct got as [|g got]; simplify_eq.
    + eapply Hreq; [|exact H'|exact Es| |]; [unfold request_label; eauto 10| |intros ? ? ? Hin; cbn in Hin; by apply elem_of_nil in Hin].
      cbn -[weight]. unfold stage_of, fetch_of. cbn -[weight]. rewrite lookup_insert. cbn. lia.
    + eapply Hreq; [|exact H'|exact Es| |]; [unfold request_label; eauto 10| |].
      * cbn -[weight]. unfold stage_of, fetch_of. cbn -[weight]. rewrite lookup_insert. cbn. lia.
      * intros ? ? ? Hin. cbn in Hin. apply elem_of_list_singleton in Hin. simplify_eq. by left.
  - destruct (qs !! t) as [[w|]|] eqn:Eq; try done. destruct (N.of_nat _ <? cap); [|done]. simplify_eq. split_and!; try done.
    + unfold measure. cbn. rewrite total_insert, (total_delete _ _ _ _ Eq). cbn. lia.
    + intros t' Ht. left. cbn. destruct (decide (t = t')) as [<-|Hne]; [rewrite lookup_insert; by eexists|by rewrite lookup_insert_ne].
    + intros ? ? ? Hin. by apply elem_of_nil in Hin.
  - destruct (qs !! t) as [[w|]|] eqn:Eq; try done. simplify_eq. split_and!; try done.
    + unfold measure. cbn. rewrite (total_delete _ _ _ _ Eq). cbn. lia.
    + intros t' Ht. cbn. destruct (decide (t = t')) as [<-|Hne]; [right; by left|left; by rewrite lookup_delete_ne].
    + intros ? ? ? Hin. by apply elem_of_list_singleton in Hin.
Qed.
Lemma goes_on_run cfg cap s tr s' : rinv cap s -> fresh_ids (s_hist (rd_server s)) -> rrun cfg cap goes_on s tr s' ->
  (length tr + measure (length (all_chunks (s_db (rd_server s)))) s' <= measure (length (all_chunks (s_db (rd_server s)))) s)%nat /\
  s_hist (rd_server s') = s_hist (rd_server s) /\ (size (rd_stage s') <= size (rd_stage s))%nat /\
  (forall t, is_Some (rd_queries s !! t) -> is_Some (rd_queries s' !! t) \/ QueryAnswered t ∈ rsent tr) /\
  (forall c n l, Sent (Given c n l) ∈ rsent tr -> l <> [] \/ too_many s c n) /\
  (forall c q, asks s' c q -> asks s c q).
Proof.
  intros HI Hf. induction 1 as [|tr s1 l s2 o Hr IH Hok Hst].
  { split_and!; [simpl; lia|done|lia|by left| |done]. intros ? ? ? Hin. by apply elem_of_nil in Hin. }
  destruct IH as (H1 & H2 & H3 & H4 & H5 & H6). destruct (goes_on_step cfg cap s1 l s2 o) as (G1 & G2 & G3 & G4 & G5); [by eapply rrun_rinv|by rewrite H2|done|done|].
  unfold s_db in *. rewrite H2 in G1. assert (E : rsent (tr ++ [(l, o)]) = rsent tr ++ o) by (unfold rsent; rewrite fmap_app, concat_app; cbn; by rewrite app_nil_r).
  rewrite E. split_and!.
  - rewrite app_length. cbn. lia.
  - congruence.
  - lia.
  - intros t Ht. destruct (H4 t Ht) as [Ht'|Hin]; [|right; apply elem_of_app; by left]. destruct (G4 t Ht') as [|Hin]; [by left|right; apply elem_of_app; by right].
  - intros c n g Hin. apply elem_of_app in Hin as [Hin|Hin]; [eauto|]. destruct (G5 _ _ _ Hin) as [|(q & Hq & Hn & Hc)]; [by left|right]. exists q. split; [by apply H6|done].
  - intros c q Hq. apply H6. eapply goes_on_asks; [by eapply rrun_rinv|done|done|done].
Qed.

(** *** One connection is not enough *)
Lemma plain_no_given cfg l s srv' o c n g : next cfg l (rd_server s) = Some (srv', o) -> plain l s = true -> Given c n g ∉ o.
Proof.
  intros H Hp Hin. destruct l; cbn in Hp; try done; cbn -[close deliver] in H; repeat case_match; simplify_eq;
    try (by apply elem_of_nil in Hin); try (by apply elem_of_list_singleton in Hin).
Qed.
Definition nothing_got (s : readers) : Prop :=
  (forall c f, fetch_of (rd_server s) c = Some f -> f_got f = []) /\ (forall c, rd_stage s !! c <> Some HasBoth).
Lemma set_stage_both c st m c' : (forall c, m !! c <> Some HasBoth) -> st <> Some HasBoth -> set_stage c st m !! c' <> Some HasBoth.
Proof. intros H Hs. destruct (decide (c = c')) as [<-|Hne]; [by rewrite lookup_set_stage|by rewrite lookup_set_stage_ne]. Qed.
Lemma stage_of_both s c : stage_of s c <> Some HasBoth.
Proof. unfold stage_of. destruct (fetch_of s c) as [f|]; [destruct (f_join f)|]; done. Qed.
Lemma request_nothing cfg l c s s' o : nothing_got s -> request_label l c -> (forall b, l <> LJoin c b) -> request_step cfg l c s = Some (s', o) ->
  (forall d n g, Sent (Given d n g) ∈ o -> g = []) /\ nothing_got s'.
Proof.
  intros [Hg Hb] Hl Hj H. unfold request_step in H. destruct (next cfg l (rd_server s)) as [[srv o1]|] eqn:E; [|done]. simplify_eq.
  assert (Hoth : forall c' f, c' <> c -> fetch_of srv c' = Some f -> f_got f = []).
  { intros c' f Hne Hf. eapply (got_alike (rd_server s)) in Hf as (f0 & Hf0 & ->); [by eapply Hg|]. eapply next_alike; [exact E|].
    destruct Hl as [(?&?&?&->)|[(?&?&->)|[->|[[? ->]|[->| ->]]]]]; cbn; congruence. }
  assert (Hown : (forall d n g, Given d n g ∈ o1 -> g = []) /\ forall f, fetch_of srv c = Some f -> f_got f = []).
  { assert (Hc : forall x f, s_conns (rd_server s) !! c = Some x -> c_fetch x = Some f -> f_got f = []).
    { intros x f Hx Hf. apply (Hg c). unfold fetch_of. by rewrite Hx. }
    destruct Hl as [(?&?&?&->)|[(?&?&->)|[->|[[b ->]|[->| ->]]]]]; [| | |by destruct (Hj b)| |]; cbn -[deliver] in E.
    - repeat case_match; simplify_eq; (split; [intros d n g Hin; try (by apply elem_of_nil in Hin); apply elem_of_list_singleton in Hin; by simplify_eq|]);
        intros f Hf; unfold fetch_of in Hf; cbn in Hf;
        try (match goal with Hx : s_conns _ !! c = Some _ |- _ => rewrite Hx in Hf end; cbn in Hf; congruence).
      rewrite lookup_insert in Hf. cbn in Hf. by simplify_eq.
    - repeat case_match; simplify_eq; (split; [intros d n g Hin; try (by apply elem_of_nil in Hin); apply elem_of_list_singleton in Hin; by simplify_eq|]);
        intros f Hf; unfold fetch_of in Hf; cbn in Hf; rewrite lookup_insert in Hf; cbn in Hf; by simplify_eq.
    - destruct (s_conns (rd_server s) !! c) as [x|] eqn:Ex; [|done]. destruct (c_fetch x) as [[q rows got j]|] eqn:Ef; [|done]. destruct rows as [|r rows]; [done|]. destruct j; [done|].
      destruct (_ <? _); [|done]. destruct (try_reserve _ _ _ _ _) as [[b res] ns]. simplify_eq. split; [intros d n g Hin; by apply elem_of_nil in Hin|].
      intros f Hf. unfold fetch_of in Hf. cbn -[deliver] in Hf.
      edestruct (deliver_fwd ns (<[c := with_fetch (Some (Fetch q rows got (if b then Some r else None))) x]> (s_conns (rd_server s))) c) as [rx Hrx]; [apply lookup_insert|].
      rewrite Hrx in Hf. cbn in Hf. simplify_eq. cbn. exact (Hc x _ eq_refl Ef).
    - destruct (s_conns (rd_server s) !! c) as [x|] eqn:Ex; [|done]. destruct (c_fetch x) as [[q rows got j]|] eqn:Ef; [|done]. simplify_eq. split.
      + intros d n g Hin. apply elem_of_list_singleton in Hin. by simplify_eq.
      + intros f Hf. unfold fetch_of in Hf. cbn in Hf. rewrite lookup_insert in Hf. done.
    - destruct (s_conns (rd_server s) !! c) as [x|] eqn:Ex; [|done]. destruct (c_fetch x) as [[q rows got j]|] eqn:Ef; [|done]. destruct j; [done|]. destruct (_ || _); [|done].
      pose proof (Hc x _ eq_refl Ef) as Hgot. cbn in Hgot. subst got. simplify_eq. split; [intros d n g Hin; by apply elem_of_nil in Hin|].
      intros f Hf. unfold fetch_of in Hf. cbn in Hf. rewrite lookup_insert in Hf. done. }
  destruct Hown as [H1 H2]. split.
  - intros d n g Hin. apply elem_of_list_fmap in Hin as (o' & [= <-] & Hin). eauto.
  - split.
    + intros c' f Hf. cbn in Hf. destruct (decide (c' = c)) as [->|Hne]; eauto.
    + intros c'. cbn. apply set_stage_both; [done|apply stage_of_both].
Qed.
Lemma fails_nothing cfg cap c s s' o : rinv cap s -> nothing_got s -> fails cfg c s = Some (s', o) ->
  (forall d n g, Sent (Given d n g) ∈ o -> g = []) /\ nothing_got s'.
Proof.
  intros HI Hn H. pose proof Hn as [Hg Hb]. unfold fails in H. destruct (rd_stage s !! c) as [[[q|] t| |t|]|] eqn:Es; try done.
  - simplify_eq. split; [intros d n g Hin; apply elem_of_list_singleton in Hin; by simplify_eq|]. split; [done|]. intros c'. cbn.
    apply (set_stage_both c None _ c' Hb). done.
  - destruct (s_conns (rd_server s) !! c) as [[[] set rx [] sp w [|q rest]]|] eqn:Ex; try done. simplify_eq.
    split; [intros d n g Hin; apply elem_of_list_singleton in Hin; by simplify_eq|]. split; [|intros c'; cbn; by apply (set_stage_both c None _ c' Hb)].
    intros c' f Hf. unfold fetch_of in Hf. cbn in Hf. destruct (decide (c = c')) as [<-|Hne]; [by rewrite lookup_insert in Hf|]. rewrite lookup_insert_ne in Hf by done. eapply (Hg c'). exact Hf.
  - eapply request_nothing; [done| | |exact H]; [unfold request_label; tauto|done].
  - eapply request_nothing; [done| | |exact H]; [unfold request_label; tauto|done].
Qed.
Lemma step_nothing cfg s l s' o : rinv 1 s -> nothing_got s -> rnext cfg 1 l s = Some (s', o) ->
  (forall d n g, Sent (Given d n g) ∈ o -> g = []) /\ nothing_got s'.
Proof.
  intros HI Hn H. pose proof HI as [Hc Hf]. pose proof Hn as [Hg Hb]. destruct s as [srv st qs].
  assert (Hnil : forall d n g, Sent (Given d n g) ∈ ([] : list rout) -> g = []) by (intros d n g Hin; by apply elem_of_nil in Hin).
  destruct l; cbn -[in_use request_step fails] in H.
  - destruct (s_conns srv !! c) as [x|] eqn:Ex; [|done]. destruct (st !! c) eqn:Es; [done|]. destruct (c_open x) eqn:Eo; [|done].
    destruct (q_max q =? 0); simplify_eq; (split; [|split]); try done.
    + intros d n g Hin. by apply elem_of_list_singleton in Hin.
    + intros c'. cbn. apply (set_stage_both c (Some _) _ c' Hb). done.
  - destruct (s_conns srv !! c) as [x|] eqn:Ex; [|done]. destruct (st !! c) eqn:Es; [done|]. destruct (c_open x) eqn:Eo; [|done].
    destruct (c_retry x) as [|q rest] eqn:Er; [done|]. destruct (q_max q =? 0); simplify_eq; (split; [|split]); try done.
    + intros d n g Hin. by apply elem_of_list_singleton in Hin.
    + intros c' f Hf'. unfold fetch_of in Hf'. cbn in Hf'. destruct (decide (c = c')) as [<-|Hne]; [by rewrite lookup_insert in Hf'|]. rewrite lookup_insert_ne in Hf' by done. eapply (Hg c'). exact Hf'.
    + intros c'. cbn. apply (set_stage_both c (Some _) _ c' Hb). done.
  - destruct (st !! c) as [[oq t| |t|]|] eqn:Es; try done. destruct (N.of_nat _ <? 1); [|done].
    eapply request_nothing; [done| | |exact H]; [destruct oq; unfold request_label; eauto 10|by destruct oq].
  - destruct (st !! c) as [[oq t| |t|]|] eqn:Es; try done. eapply request_nothing; [done| | |exact H]; [unfold request_label; tauto|done].
  - destruct (st !! c) as [[oq t| |t|]|] eqn:Es; try done. destruct (N.of_nat _ <? 1) eqn:Eu; [|done]. apply N.ltb_lt in Eu. exfalso.
    rewrite in_use_total in Eu. cbn [rd_stage rd_queries] in Eu. rewrite (total_delete takes _ _ _ Es) in Eu. cbn [takes] in Eu. lia.
  - destruct (st !! c) as [[oq t| |t|]|] eqn:Es; try done. by destruct (Hb c).
  - destruct (st !! c) as [[oq t| |t|]|] eqn:Es; try done. eapply request_nothing; [done| | |exact H]; [unfold request_label; tauto|done].
  - by eapply fails_nothing.
  - destruct (st !! c ≫= waits_since); [|done]. case_match; [|done]. by eapply fails_nothing.
  - destruct (qs !! t) eqn:Eq; [done|]. by simplify_eq.
  - destruct (qs !! t) as [[w|]|] eqn:Eq; try done. destruct (N.of_nat _ <? 1); [|done]. by simplify_eq.
  - destruct (qs !! t) as [[w|]|] eqn:Eq; try done. simplify_eq. split; [|done]. intros d n g Hin. by apply elem_of_list_singleton in Hin.
  - destruct (qs !! t) as [[w|]|] eqn:Eq; try done. case_match; [|done]. simplify_eq. split; [|done]. intros d n g Hin. by apply elem_of_list_singleton in Hin.
  - destruct (qs !! t) as [w|] eqn:Eq; try done. by simplify_eq.
  - case_bool_decide; [|done]. by simplify_eq.
  - destruct (plain l _) eqn:Ep; [|done]. destruct (next cfg l srv) as [[srv' o1]|] eqn:En; [|done]. simplify_eq. split.
    { intros d n g Hin. apply elem_of_list_fmap in Hin as (o' & [= <-] & Hin). exfalso. by eapply (plain_no_given cfg l (Readers srv st qs)). }
    assert (Hx : (exists e, l = LCrash e) \/ forall e, l <> LCrash e) by (destruct l; eauto).
    destruct Hx as [[e ->]|Hx].
    + cbn in En. simplify_eq. split; [|intros c; cbn; by rewrite lookup_empty]. intros c f Hf'. unfold fetch_of in Hf'. cbn in Hf'. by rewrite lookup_empty in Hf'.
    + replace (match l with LCrash _ => _ | _ => _ end) with (Readers srv' st qs) by (destruct l; try done; by destruct (Hx e)). split; [|done].
      intros c f Hf'. cbn in Hf'. assert (Ht : (exists x, s_conns srv' !! c = Some x /\ c_fetch x = None) \/ ~ touches l c).
      { destruct l as [| |a|a|a|a|a| |a|a|a| | | | | | | | | | |]; cbn in Ep; try done; cbn [touches]; try (right; tauto); [| |by destruct (Hx e)].
        - cbn in En. destruct (s_conns srv !! a) eqn:E; [done|]. simplify_eq. destruct (decide (a = c)) as [->|]; [left|by right].
          exists peer_new. cbn. by rewrite lookup_insert.
        - apply disconnects in En as (x & Hx' & _ & _ & -> & _). destruct (decide (a = c)) as [->|]; [left|by right]. eexists. split; [apply close_conn|done]. }
      destruct Ht as [(x & Hx1 & Hx2)|Ht]; [unfold fetch_of in Hf'; rewrite Hx1 in Hf'; cbn in Hf'; congruence|].
      eapply (got_alike srv) in Hf' as (f0 & Hf0 & ->); [by eapply Hg|]. by eapply next_alike.
Qed.

Lemma rrun_nothing cfg ok s tr s' : rinv 1 s -> nothing_got s -> rrun cfg 1 ok s tr s' ->
  (forall d n g, Sent (Given d n g) ∈ rsent tr -> g = []) /\ nothing_got s'.
Proof.
  intros HI Hn. induction 1 as [|tr s1 l s2 o Hr IH Hok Hst]; [split; [|done]; intros d n g Hin; by apply elem_of_nil in Hin|].
  destruct IH as [IH1 IH2]. destruct Hst as [_ Hst]. destruct (step_nothing cfg s1 l s2 o) as [G1 G2]; [by eapply rrun_rinv|done|done|].
  split; [|done]. assert (E : rsent (tr ++ [(l, o)]) = rsent tr ++ o) by (unfold rsent; rewrite fmap_app, concat_app; cbn; by rewrite app_nil_r).
  rewrite E. intros d n g Hin. apply elem_of_app in Hin as [Hin|Hin]; eauto.
Qed.

(** *** As many requests as connections *)
Definition waits2 (st : stage) : nat := match st with WaitsSecond _ => 1 | _ => 0 end.
Record stuck (cap T : N) (s : readers) : Prop := {
  sk_all : cap <= N.of_nat (total waits2 (rd_stage s));
  sk_stage : map_Forall (fun _ st => match waits_since st with Some t => T <= t | None => True end) (rd_stage s);
  sk_query : map_Forall (fun _ w => match w with Some t => T <= t | None => True end) (rd_queries s);
  sk_now : T <= s_now (rd_server s) }.
Definition is_answer (o : rout) : Prop := match o with Sent (Given _ _ _) | QueryAnswered _ => True | _ => False end.
Lemma now_mono cfg cap l s s' o : rnext cfg cap l s = Some (s', o) -> s_now (rd_server s) <= s_now (rd_server s').
Proof.
  assert (Hn : forall l srv srv' o, next cfg l srv = Some (srv', o) -> s_now srv <= s_now srv').
  { clear. intros l srv srv' o H. destruct l; cbn -[close deliver] in H; repeat case_match; simplify_eq; cbn; lia. }
  assert (Hq : forall l c s s' o, request_step cfg l c s = Some (s', o) -> s_now (rd_server s) <= s_now (rd_server s')).
  { intros l' c x x' o' H. unfold request_step in H. destruct (next cfg l' (rd_server x)) as [[srv o1]|] eqn:E; [|done]. simplify_eq. by eapply Hn. }
  assert (Hf : forall c s s' o, fails cfg c s = Some (s', o) -> s_now (rd_server s) <= s_now (rd_server s')).
  { intros c x x' o' H. unfold fails in H. repeat case_match; simplify_eq; cbn; eauto; lia. }
  intros H. destruct s as [srv st qs]. destruct l; cbn -[in_use request_step fails next plain] in H; repeat case_match; simplify_eq; cbn; try lia; first [by eapply Hn|by eapply (Hq _ _ (Readers srv st qs))|by eapply (Hf _ (Readers srv st qs))].
Qed.
Lemma stuck_step cfg cap T l s s' o : rinv cap s -> stuck cap T s -> calm l -> rnext cfg cap l s = Some (s', o) ->
  s_now (rd_server s') < T + acquire_timeout -> stuck cap T s' /\ forall x, x ∈ o -> ~ is_answer x.
Proof.
  intros HI Hk Hcalm H Hnow'. pose proof (now_mono _ _ _ _ _ _ H) as Hmono. pose proof HI as [Hc _]. pose proof Hk as [K1 K2 K3 K4]. destruct s as [srv st qs].
  rewrite in_use_total in Hc. cbn [rd_stage rd_queries rd_server] in *.
  assert (Hle : (total waits2 st <= total takes st)%nat) by (apply total_le; intros c [] _; cbn; lia).
  assert (Hfree : N.of_nat (in_use (Readers srv st qs)) <? cap = false) by (apply N.ltb_ge; rewrite in_use_total; cbn [rd_stage rd_queries]; lia).
  assert (Hno : forall c x, st !! c = Some x -> (takes x <= waits2 x)%nat).
  { intros c x Hx. assert (Hle' : (total waits2 (delete c st) <= total takes (delete c st))%nat) by (apply total_le; intros ? [] _; cbn; lia).
    rewrite (total_delete takes _ _ _ Hx) in Hc. rewrite (total_delete waits2 _ _ _ Hx) in K1. lia. }
  assert (Hnoq : forall t, qs !! t <> Some None).
  { intros t Ht. rewrite (total_delete holds _ _ _ Ht) in Hc. cbn [holds] in Hc. lia. }
  assert (Hnil : forall x, x ∈ ([] : list rout) -> ~ is_answer x) by (intros x Hin; by apply elem_of_nil in Hin).
  assert (Hfresh : forall c x, st !! c = None -> (match waits_since x with Some t => T <= t | None => True end) -> stuck cap T (Readers srv (<[c := x]> st) qs)).
  { intros c x Hx Hx'. split; cbn [rd_stage rd_queries rd_server]; try done; [|by apply map_Forall_insert_2].
    rewrite total_insert, (total_absent waits2 _ _ Hx). lia. }
  destruct l; cbn -[in_use request_step fails] in H; rewrite ?Hfree in H.
  - destruct (s_conns srv !! c) as [x|] eqn:Ex; [|done]. destruct (st !! c) eqn:Es; [done|]. destruct (c_open x) eqn:Eo; [|done].
    destruct (q_max q =? 0); simplify_eq; split; try done.
    + intros y Hin. apply elem_of_list_singleton in Hin as ->. tauto.
    + by apply Hfresh.
  - destruct (s_conns srv !! c) as [x|] eqn:Ex; [|done]. destruct (st !! c) eqn:Es; [done|]. destruct (c_open x) eqn:Eo; [|done].
    destruct (c_retry x) as [|q rest] eqn:Er; [done|]. destruct (q_max q =? 0); simplify_eq; split; try done.
    + intros y Hin. apply elem_of_list_singleton in Hin as ->. tauto.
    + by apply Hfresh.
  - destruct (st !! c) as [[oq t| |t|]|] eqn:Es; done.
  - destruct (st !! c) as [[oq t| |t|]|] eqn:Es; try done. specialize (Hno _ _ Es). cbn in Hno. lia.
  - destruct (st !! c) as [[oq t| |t|]|] eqn:Es; done.
  - destruct (st !! c) as [[oq t| |t|]|] eqn:Es; try done. specialize (Hno _ _ Es). cbn in Hno. lia.
  - destruct (st !! c) as [[oq t| |t|]|] eqn:Es; try done. specialize (Hno _ _ Es). cbn in Hno. lia.
  - done.
  - destruct (st !! c) as [x|] eqn:Es; [|done]. cbn in H. destruct (waits_since x) as [t|] eqn:Et; [|done].
    specialize (K2 _ _ Es). cbn in K2. rewrite Et in K2. destruct (t + acquire_timeout <=? s_now srv) eqn:El; [|done]. apply N.leb_le in El. lia.
  - destruct (qs !! t) eqn:Eq; [done|]. simplify_eq. split; [|done]. split; cbn [rd_stage rd_queries rd_server]; try done. by apply map_Forall_insert_2.
  - destruct (qs !! t) as [[w|]|] eqn:Eq; done.
  - destruct (qs !! t) as [[w|]|] eqn:Eq; try done. by destruct (Hnoq t).
  - destruct (qs !! t) as [[w|]|] eqn:Eq; try done. specialize (K3 _ _ Eq). cbn in K3. destruct (w + acquire_timeout <=? s_now srv) eqn:El; [|done]. apply N.leb_le in El. lia.
  - destruct (qs !! t) as [w|] eqn:Eq; [|done]. simplify_eq. split; [|done]. split; cbn [rd_stage rd_queries rd_server]; try done. by apply map_Forall_delete.
  - case_bool_decide; [|done]. simplify_eq. split; [|done]. split; cbn [rd_stage rd_queries rd_server]; try done. cbn. lia.
  - destruct (plain l _) eqn:Ep; [|done]. destruct (next cfg l srv) as [[srv' o1]|] eqn:En; [|done].
    assert (Hs : s' = Readers srv' st qs /\ o = Sent <$> o1) by (destruct l; by simplify_eq). destruct Hs as [-> ->]. split.
    + split; cbn [rd_stage rd_queries rd_server] in *; try done. lia.
    + intros y Hin. apply elem_of_list_fmap in Hin as (o' & -> & Hin). destruct o'; try (cbn; tauto). intros _.
      by eapply (plain_no_given cfg l (Readers srv st qs)).
Qed.
Lemma stuck_run cfg cap T s tr s' : rinv cap s -> stuck cap T s -> rrun cfg cap calm s tr s' -> s_now (rd_server s') < T + acquire_timeout ->
  stuck cap T s' /\ forall x, x ∈ rsent tr -> ~ is_answer x.
Proof.
  intros HI Hk. induction 1 as [|tr s1 l s2 o Hr IH Hok Hst]; intros Hnow; [split; [done|]; intros x Hin; by apply elem_of_nil in Hin|].
  destruct Hst as [_ Hst]. pose proof (now_mono _ _ _ _ _ _ Hst). destruct IH as [IH1 IH2]; [lia|].
  destruct (stuck_step cfg cap T l s1 s2 o) as [G1 G2]; [by eapply rrun_rinv|done|done|done|done|].
  split; [done|]. assert (E : rsent (tr ++ [(l, o)]) = rsent tr ++ o) by (unfold rsent; rewrite fmap_app, concat_app; cbn; by rewrite app_nil_r).
  rewrite E. intros x Hin. apply elem_of_app in Hin as [Hin|Hin]; eauto.
Qed.

(** The run into it. *)
Definition one_chunk : req := Req 0 1 Oldest.
Lemma rrun_trans cfg cap ok s tr s1 tr' s2 : rrun cfg cap ok s tr s1 -> rrun cfg cap ok s1 tr' s2 -> rrun cfg cap ok s (tr ++ tr') s2.
Proof. intros H. induction 1; [by rewrite app_nil_r|]. rewrite app_assoc. econstructor; eauto. Qed.
Lemma rrun_one cfg cap (ok : rlabel -> Prop) s l s' o : ok l -> rstep_to cfg cap s l s' o -> rrun cfg cap ok s [(l, o)] s'.
Proof. intros Hl Hs. change [(l, o)] with ([] ++ [(l, o)]). econstructor; [constructor|done|done]. Qed.
Definition server_with (h : history) (es : gmap chunk_id entry) (cs : gmap N peer) : state := State 0 h (Reserver es []) ∅ cs [] Ready 0.
(** Request [c] goes past the rows that are reserved. *)
Lemma skips cfg cap h es cs c x sg qs l rows : 0 < cf_ttl cfg ->
  Forall (fun r => exists e, es !! cid_of r = Some e /\ e_at e = 0) l ->
  cs !! c = Some x -> c_fetch x = Some (Fetch one_chunk (l ++ rows) [] None) -> sg !! c = Some HasFirst ->
  exists tr cs' x', rrun cfg cap calm (Readers (server_with h es cs) sg qs) tr (Readers (server_with h es cs') sg qs) /\ rsent tr = [] /\
    cs' !! c = Some x' /\ c_fetch x' = Some (Fetch one_chunk rows [] None) /\ c_open x' = c_open x /\ forall c', c' <> c -> cs' !! c' = cs !! c'.
Proof.
  intros Httl Hl. revert cs x. induction Hl as [|r l (e & He & Hat) Hl IH]; intros cs x Hx Hf Hs.
  { exists [], cs, x. split_and!; try done. constructor. }
  destruct (IH (<[c := with_fetch (Some (Fetch one_chunk (l ++ rows) [] None)) x]> cs) (with_fetch (Some (Fetch one_chunk (l ++ rows) [] None)) x)) as (tr & cs' & x' & R & Ro & R1 & R2 & R3 & R4); [apply lookup_insert|done|done|].
  exists ([(PRow c, [])] ++ tr), cs', x'. split_and!; try done.
  - eapply rrun_trans; [|exact R]. apply rrun_one; [done|]. split; [done|]. cbn. rewrite Hs. unfold request_step. cbn. rewrite Hx, Hf. cbn.
    unfold try_reserve, get_live. cbn. rewrite He. unfold is_live. rewrite Hat. replace (0 <? 0 + cf_ttl cfg) with true by (symmetry; apply N.ltb_lt; lia). cbn.
    unfold stage_of, fetch_of. cbn. rewrite lookup_insert. cbn. rewrite insert_id by done. done.
  - intros c' Hc'. rewrite R4 by done. by rewrite lookup_insert_ne.
Qed.
Lemma stall_from cfg cap h rows : 0 < cf_ttl cfg -> offers Oldest 0 (after h) ∅ (fun _ => false) rows -> NoDup (ids rows) ->
  forall n, (N.of_nat n <= cap) -> (n <= length rows)%nat ->
  exists tr es cs sg, rrun cfg cap calm (readers_start h 0) tr (Readers (server_with h es cs) sg ∅) /\ rsent tr = [] /\
    (forall k, match es !! k with Some e => e_at e = 0 | None => True end) /\ (forall k, k ∈ ids (take n rows) <-> is_Some (es !! k)) /\
    (forall c, cs !! c = None <-> N.of_nat n <= c) /\
    (forall c, sg !! c = if decide (c < N.of_nat n) then Some (WaitsSecond 0) else None) /\ total takes sg = n /\ total waits2 sg = n /\
    (forall c, c < N.of_nat n -> PRequest c one_chunk ∈ tr.*1).
Proof.
  intros Httl Hrows Hnd. induction n as [|n IH]; intros Hcap Hlen.
  { exists [], ∅, ∅, ∅. split_and!; try done.
    - constructor.
    - intros k. rewrite take_0, lookup_empty. cbn. rewrite elem_of_nil. split; [done|]. by intros [? ?].
    - intros c. rewrite lookup_empty. split; [lia|done].
    - intros c. rewrite lookup_empty. case_decide; [lia|done].
    - intros c Hc. lia. }
  destruct IH as (tr & es & cs & sg & R & Ro & Hes & Hdom & Hcs & Hsg & Ht & Ht2 & Hreq); [lia|lia|].
  set (c := N.of_nat n) in *. destruct (lookup_lt_is_Some_2 rows n ltac:(lia)) as [r Hr].
  assert (Esplit : rows = take n rows ++ r :: drop (S n) rows) by (symmetry; by apply take_drop_middle).
  set (cs1 := <[c := peer_new]> cs). set (sg1 := <[c := WaitsFirst (Some one_chunk) 0]> sg).
  set (cs2 := <[c := with_fetch (Some (Fetch one_chunk rows [] None)) peer_new]> cs1). set (sg2 := <[c := HasFirst]> sg1).
  assert (Hsgc : sg !! c = None) by (rewrite Hsg; by rewrite decide_False by lia).
  assert (R2 : rrun cfg cap calm (Readers (server_with h es cs) sg ∅) [(PServer (LConnect c), []); (PRequest c one_chunk, []); (PFirst c 0 rows, [])] (Readers (server_with h es cs2) sg2 ∅)).
  { change [(PServer (LConnect c), []); (PRequest c one_chunk, []); (PFirst c 0 rows, [])] with
      (([(PServer (LConnect c), [])] ++ [(PRequest c one_chunk, [])]) ++ [(PFirst c 0 rows, [] : list rout)]).
    eapply rrun_trans; [eapply rrun_trans|]; apply rrun_one; try done.
    - split; [done|]. cbn. assert (E : cs !! c = None) by (apply Hcs; lia). rewrite E. done.
    - split; [done|]. cbn. rewrite lookup_insert, Hsgc. cbn. done.
    - split.
      + cbn. unfold sg1. rewrite lookup_insert. cbn. exact Hrows.
      + cbn -[in_use]. rewrite lookup_insert. replace (N.of_nat (in_use _) <? cap) with true.
        * unfold request_step. cbn. rewrite lookup_insert. cbn. unfold stage_of, fetch_of. cbn. rewrite lookup_insert. cbn. done.
        * symmetry. apply N.ltb_lt. rewrite in_use_total. cbn [rd_stage rd_queries]. unfold sg1. rewrite total_insert, total_absent, total_empty by done. cbn [takes]. lia. }
  destruct (skips cfg cap h es cs2 c (with_fetch (Some (Fetch one_chunk rows [] None)) peer_new) sg2 ∅ (take n rows) (r :: drop (S n) rows) Httl) as (tr3 & cs3 & x3 & R3 & Ro3 & X1 & X2 & X3 & X4).
  { apply Forall_forall. intros r' Hr'. assert (Hin : cid_of r' ∈ ids (take n rows)) by (apply elem_of_list_fmap; eauto).
    apply Hdom in Hin as [e He]. exists e. split; [done|]. specialize (Hes (cid_of r')). by rewrite He in Hes. }
  { apply lookup_insert. }
  { cbn. by rewrite <- Esplit. }
  { apply lookup_insert. }
  assert (Hnone : es !! cid_of r = None).
  { destruct (es !! cid_of r) as [e|] eqn:E; [exfalso|done]. assert (Hin : cid_of r ∈ ids (take n rows)) by (apply Hdom; eauto).
    rewrite Esplit in Hnd. rewrite fmap_app in Hnd. apply NoDup_app in Hnd as (_ & Hnd & _). apply (Hnd _ Hin). apply elem_of_cons. by left. }
  set (es4 := <[cid_of r := Entry c 0]> es). set (cs4 := <[c := with_fetch (Some (Fetch one_chunk (drop (S n) rows) [] (Some r))) x3]> cs3). set (sg4 := <[c := WaitsSecond 0]> sg2).
  assert (R4 : rrun cfg cap calm (Readers (server_with h es cs3) sg2 ∅) [(PRow c, [])] (Readers (server_with h es4 cs4) sg4 ∅)).
  { apply rrun_one; [done|]. split; [done|]. cbn. unfold sg2 at 1. rewrite lookup_insert. unfold request_step. cbn. rewrite X1, X2. cbn.
    unfold try_reserve, get_live. cbn. rewrite Hnone. cbn. unfold stage_of, fetch_of. cbn. rewrite lookup_insert. cbn. done. }
  eexists _, es4, cs4, sg4. split; [eapply rrun_trans; [exact R|]; eapply rrun_trans; [exact R2|]; eapply rrun_trans; [exact R3|exact R4]|].
  split_and!.
  - unfold rsent in *. rewrite !fmap_app, !concat_app, Ro, Ro3. done.
  - intros k. unfold es4. destruct (decide (cid_of r = k)) as [<-|Hne]; [by rewrite lookup_insert|rewrite lookup_insert_ne by done; apply Hes].
  - intros k. rewrite (take_S_r _ _ _ Hr). rewrite fmap_app, elem_of_app. cbn. rewrite elem_of_list_singleton. unfold es4.
    destruct (decide (cid_of r = k)) as [<-|Hne].
    + rewrite lookup_insert. split; [eauto|by right].
    + rewrite lookup_insert_ne by done. rewrite <- Hdom. split; [intros [|]; [done|congruence]|by left].
  - intros c'. unfold cs4. destruct (decide (c = c')) as [<-|Hne]; [rewrite lookup_insert; split; [done|lia]|]. rewrite lookup_insert_ne by done.
    rewrite X4 by done. unfold cs2, cs1. rewrite !lookup_insert_ne by done. rewrite Hcs. lia.
  - intros c'. unfold sg4, sg2, sg1. destruct (decide (c = c')) as [<-|Hne]; [rewrite lookup_insert; by rewrite decide_True by lia|].
    rewrite !lookup_insert_ne by done. rewrite Hsg. repeat case_decide; try done; lia.
  - unfold sg4, sg2, sg1. rewrite !insert_insert. rewrite total_insert, total_absent by done. cbn. lia.
  - unfold sg4, sg2, sg1. rewrite !insert_insert. rewrite total_insert, total_absent by done. cbn. lia.
  - intros c' Hc'. rewrite !fmap_app, !elem_of_app. destruct (decide (c' = c)) as [->|Hne]; [right; left; set_solver|left; apply Hreq; lia].
Qed.

Lemma goes_on_stage cfg cap s l s' o c : rinv cap s -> goes_on l -> rstep_to cfg cap s l s' o -> is_Some (rd_stage s !! c) ->
  is_Some (rd_stage s' !! c) \/ l = PReply c \/ Sent (Closed c) ∈ o \/ exists n, Sent (Given c n []) ∈ o.
Proof.
  intros HI Hg [_ H] Hc. pose proof HI as [_ Hf]. destruct s as [srv st qs]. cbn in Hc.
  assert (Hreq : forall l0 a, request_step cfg l0 a (Readers srv st qs) = Some (s', o) -> c <> a -> is_Some (rd_stage s' !! c)).
  { intros l0 a Hs Hne. unfold request_step in Hs. cbn -[next] in Hs. destruct (next cfg l0 srv) as [[srv' o1]|]; [|done]. simplify_eq. cbn. by rewrite lookup_set_stage_ne. }
  assert (Hself : forall l0, request_step cfg l0 c (Readers srv st qs) = Some (s', o) -> rd_stage s' !! c = stage_of (rd_server s') c).
  { intros l0 Hs. unfold request_step in Hs. cbn -[next] in Hs. destruct (next cfg l0 srv) as [[srv' o1]|]; [|done]. simplify_eq. cbn. apply lookup_set_stage. }
  destruct l; try done; cbn -[in_use request_step fails] in H.
  - destruct (st !! c0) as [[oq t| |t|]|] eqn:Es; try done. destruct (N.of_nat _ <? cap) eqn:Eu; [|done].
    destruct (decide (c = c0)) as [<-|Hne]; [|left; by eapply Hreq]. rewrite (Hself _ H).
    specialize (Hf c). cbn in Hf. rewrite Es in Hf. destruct Hf as (x & q & Hx & Hgi & Hq & Hoq). unfold gist in Hgi. injection Hgi as Ho Hj. destruct (c_fetch x) eqn:Ef; [done|].
    apply N.eqb_neq in Hq. destruct oq as [q'|]; [subst q'|destruct Hoq as [rest Hr]]; unfold request_step in H; cbn in H; rewrite Hx, Ho, Ef in H; [|rewrite Hr in H]; rewrite Hq in H; (destruct (can_ask _); cbn [negb] in H; simplify_eq;
      [left; cbn; unfold stage_of, fetch_of; cbn; rewrite lookup_insert; by eexists|do 3 right; exists (q_nonce q); by apply elem_of_list_singleton]).
  - destruct (st !! c0) as [[oq t| |t|]|] eqn:Es; try done. destruct (decide (c = c0)) as [<-|Hne]; [|left; by eapply Hreq]. left. rewrite (Hself _ H).
    specialize (Hf c). cbn in Hf. rewrite Es in Hf. destruct Hf as (x & Hx & Hgi). unfold gist in Hgi. cbn in Hgi.
    destruct (c_fetch x) as [[q rows got j]|] eqn:Ef; [|done]. injection Hgi as Hgi. cbn in Hgi. subst j.
    unfold request_step in H. cbn in H. rewrite Hx, Ef in H. destruct rows as [|r rows]; [done|]. destruct (_ <? _); [|done].
    destruct (try_reserve (cf_ttl cfg) (s_now srv) (c_sub r, c_index r) c (s_res srv)) as [[b res] ns]. simplify_eq.
    edestruct (deliver_fwd ns (<[c := with_fetch (Some (Fetch q rows got (if b then Some r else None))) x]> (s_conns srv)) c) as [rx Hrx]; [apply lookup_insert|].
    unfold stage_of, fetch_of. cbn -[deliver]. rewrite Hrx. cbn. by eexists.
  - destruct (st !! c0) as [[oq t| |t|]|] eqn:Es; try done. destruct (N.of_nat _ <? cap); [|done]. simplify_eq. left. cbn.
    destruct (decide (c = c0)) as [<-|Hne]; [rewrite lookup_insert; by eexists|by rewrite lookup_insert_ne].
  - destruct fault; [done|]. destruct (st !! c0) as [[oq t| |t|]|] eqn:Es; try done. destruct (decide (c = c0)) as [<-|Hne]; [|left; by eapply Hreq]. rewrite (Hself _ H).
    specialize (Hf c). cbn in Hf. rewrite Es in Hf. destruct Hf as (x & r & Hx & Hgi). unfold gist in Hgi. cbn in Hgi.
    destruct (c_fetch x) as [[q rows got j]|] eqn:Ef; [|done]. injection Hgi as Hgi. cbn in Hgi. subst j.
    unfold request_step in H. cbn -[close] in H. rewrite Hx, Ef in H. destruct (joined_submission (s_db srv) r) as [sub|] eqn:Ej; simplify_eq.
    + left. unfold stage_of, fetch_of. cbn. rewrite lookup_insert. by eexists.
    + right. right. left. by apply elem_of_list_singleton.
  - destruct (st !! c0) as [[oq t| |t|]|] eqn:Es; try done. destruct (decide (c = c0)) as [<-|Hne]; [by right; left|left; by eapply Hreq].
  - destruct (qs !! t) as [[w|]|] eqn:Eq; try done. destruct (N.of_nat _ <? cap); [|done]. simplify_eq. by left.
  - destruct (qs !! t) as [[w|]|] eqn:Eq; try done. simplify_eq. by left.
Qed.
Lemma goes_on_stages cfg cap s tr s' c : rinv cap s -> rrun cfg cap goes_on s tr s' -> is_Some (rd_stage s !! c) ->
  is_Some (rd_stage s' !! c) \/ PReply c ∈ tr.*1 \/ Sent (Closed c) ∈ rsent tr \/ exists n, Sent (Given c n []) ∈ rsent tr.
Proof.
  intros HI. induction 1 as [|tr s1 l s2 o Hr IH Hok Hst]; intros Hc; [by left|].
  assert (E : rsent (tr ++ [(l, o)]) = rsent tr ++ o) by (unfold rsent; rewrite fmap_app, concat_app; cbn; by rewrite app_nil_r).
  rewrite E, fmap_app, !elem_of_app. destruct (IH Hc) as [Hc'|[?|[?|[n ?]]]]; [|tauto|tauto|do 3 right; exists n; apply elem_of_app; tauto].
  destruct (goes_on_stage cfg cap s1 l s2 o c) as [?|[->|[?|[n ?]]]]; [by eapply rrun_rinv|done|done|done|tauto| |tauto|do 3 right; exists n; apply elem_of_app; tauto]. right. left. right. cbn. set_solver.
Qed.
Lemma stages_open cap s : rinv cap s -> (forall c x, s_conns (rd_server s) !! c = Some x -> c_open x = false -> c_fetch x = None) ->
  (size (rd_stage s) <= size (filter (fun p => c_open p.2 = true) (s_conns (rd_server s))))%nat.
Proof.
  intros [_ Hf] Hop. rewrite <- !(size_dom (D := gset N)). apply subseteq_size. intros c Hc. apply elem_of_dom in Hc as [st Hst].
  specialize (Hf c). rewrite Hst in Hf. apply elem_of_dom.
  assert (Hx : exists x, s_conns (rd_server s) !! c = Some x /\ c_open x = true).
  { assert (Hcl : forall x j, s_conns (rd_server s) !! c = Some x -> f_join <$> c_fetch x = Some j -> c_open x = true).
    { intros x j Hx Hj. destruct (c_open x) eqn:Eo; [done|]. by rewrite (Hop _ _ Hx Eo) in Hj. }
    destruct st; cbn in Hf; [destruct Hf as (x & q0 & Hx & Hg & _)|destruct Hf as (x & Hx & Hg)|destruct Hf as (x & r0 & Hx & Hg)|destruct Hf as (x & r0 & Hx & Hg)]; exists x; split; try done; [exact (f_equal fst Hg)|eauto..]. }
  destruct Hx as (x & Hx & Ho). exists x. by apply map_filter_lookup_Some.
Qed.

(** *** Nobody waits longer than the timeout *)
Record patient (s : readers) : Prop := {
  pt_stage : map_Forall (fun _ x => can_wait (s_now (rd_server s)) (waits_since x)) (rd_stage s);
  pt_query : map_Forall (fun _ w => can_wait (s_now (rd_server s)) w) (rd_queries s) }.
Lemma next_same_now cfg l s s' o : next cfg l s = Some (s', o) -> (forall dt, l <> LTime dt) -> s_now s' = s_now s.
Proof. intros H Hl. destruct l; cbn -[close deliver] in H; repeat case_match; simplify_eq; cbn; try done. by destruct (Hl dt). Qed.
Lemma patient_step cfg cap l s s' o : patient s -> rnext cfg cap l s = Some (s', o) -> patient s'.
Proof.
  intros [P1 P2] H. destruct s as [srv st qs]. cbn in P1, P2.
  assert (Hset : forall c x, (forall t, waits_since x = Some t -> t = s_now srv) -> map_Forall (fun _ x => can_wait (s_now srv) (waits_since x)) (<[c := x]> st)).
  { intros c x Hx. apply map_Forall_insert_2; [|done]. unfold can_wait. destruct (waits_since x) as [t|]; [|done]. rewrite (Hx t eq_refl). unfold acquire_timeout. lia. }
  assert (Hdel : forall c, map_Forall (fun _ x => can_wait (s_now srv) (waits_since x)) (delete c st)) by (intros c; by apply map_Forall_delete).
  assert (Hqdel : forall c, map_Forall (fun _ w => can_wait (s_now srv) w) (delete c qs)) by (intros c; by apply map_Forall_delete).
  assert (Hq : forall l c s' o, (forall dt, l <> LTime dt) -> request_step cfg l c (Readers srv st qs) = Some (s', o) -> patient s').
  { clear H. intros l' c x' o' Hl H. unfold request_step in H. cbn in H. destruct (next cfg l' srv) as [[srv' o1]|] eqn:E; [|done]. simplify_eq.
    pose proof (next_same_now _ _ _ _ _ E Hl) as En. split; cbn; rewrite En; [|done]. unfold set_stage, stage_of. destruct (fetch_of srv' c) as [f|]; [|auto].
    apply Hset. intros t. destruct (f_join f); cbn; [intros [= <-]; done|done]. }
  assert (Hf : forall c s' o, fails cfg c (Readers srv st qs) = Some (s', o) -> patient s').
  { clear H. intros c x' o' H. unfold fails in H. cbn -[request_step] in H. destruct (st !! c) as [[[q|] t| |t|]|]; try done.
    - simplify_eq. split; cbn; auto.
    - destruct (s_conns srv !! c) as [[[] set rx [] sp w [|q rest]]|]; try done. simplify_eq. split; cbn; auto.
    - by eapply Hq; [|exact H].
    - by eapply Hq; [|exact H]. }
  destruct l; cbn -[in_use request_step fails next plain] in H.
  - destruct (s_conns srv !! c) as [x|]; [|done]. destruct (st !! c); [done|]. destruct (c_open x); [|done]. destruct (q_max q =? 0); simplify_eq; [done|].
    split; [|done]. cbn. apply Hset. by intros t [= <-].
  - destruct (s_conns srv !! c) as [x|]; [|done]. destruct (st !! c); [done|]. destruct (c_open x); [|done]. destruct (c_retry x) as [|q rest]; [done|].
    destruct (q_max q =? 0); simplify_eq; [split; cbn; auto|]. split; [|done]. cbn. apply Hset. by intros t [= <-].
  - destruct (st !! c) as [[oq t| |t|]|]; try done. destruct (_ <? cap); [|done]. eapply Hq; [|exact H]. by destruct oq.
  - destruct (st !! c) as [[oq t| |t|]|]; try done. by eapply Hq; [|exact H].
  - destruct (st !! c) as [[oq t| |t|]|]; try done. destruct (_ <? cap); [|done]. simplify_eq. split; [|done]. cbn. by apply Hset.
  - destruct (st !! c) as [[oq t| |t|]|]; try done. by eapply Hq; [|exact H].
  - destruct (st !! c) as [[oq t| |t|]|]; try done. by eapply Hq; [|exact H].
  - by eapply Hf.
  - destruct (st !! c ≫= waits_since) as [t|]; [|done]. destruct (_ <=? s_now srv); [|done]. by eapply Hf.
  - destruct (qs !! t); [done|]. simplify_eq. split; [done|]. cbn. apply map_Forall_insert_2; [|done]. unfold can_wait, acquire_timeout. lia.
  - destruct (qs !! t) as [[]|]; try done. destruct (_ <? cap); [|done]. simplify_eq. split; [done|]. cbn. by apply map_Forall_insert_2.
  - destruct (qs !! t) as [[]|]; try done. simplify_eq. split; cbn; auto.
  - destruct (qs !! t) as [[since|]|]; try done. destruct (_ <=? s_now srv); [|done]. simplify_eq. split; cbn; auto.
  - destruct (qs !! t); [|done]. simplify_eq. split; cbn; auto.
  - destruct (bool_decide _) eqn:Eb; [|done]. apply bool_decide_eq_true in Eb as [E1 E2]. cbn in H. simplify_eq. split; cbn; auto.
  - destruct (plain l (Readers srv st qs)) eqn:Ep; [|done]. destruct (next cfg l srv) as [[srv' o1]|] eqn:E; [|done].
    assert (Hl : forall dt, l <> LTime dt) by (intros dt ->; done). pose proof (next_same_now _ _ _ _ _ E Hl) as En.
    destruct l; simplify_eq; split; cbn; try rewrite En; try done; apply map_Forall_empty.
Qed.
Lemma patient_run cfg cap ok h now tr s : rrun cfg cap ok (readers_start h now) tr s -> patient s.
Proof.
  induction 1 as [|tr s1 l s2 o Hr IH Hok [_ Hst]]; [split; apply map_Forall_empty|]. by eapply patient_step.
Qed.
