(** Invariants of the whole system. *)
From Verif Require Export World PyProofs ServerFacts AnswerProofs.
From Coq Require Import Strings.Ascii.
Local Open Scope N_scope.

(** *** Inserts *)
Lemma inserted_with_mono h h' id a : h `prefix_of` h' -> inserted_with h id a -> inserted_with h' id a.
Proof. intros [t ->] (e & n & He & Eo). exists e, n. split; [|done]. apply elem_of_app. by left. Qed.
Lemma one_insert h e e' id : fresh_ids h -> e ∈ h -> e' ∈ h -> History.insert_id e = Some id -> History.insert_id e' = Some id -> e = e'.
Proof.
  unfold fresh_ids, inserted_ids. induction h as [|x h IH]; intros Hf He He' Ei Ei'; [by apply elem_of_nil in He|].
  assert (Hin : forall y, y ∈ h -> History.insert_id y = Some id -> id ∈ omap History.insert_id h).
  { intros y Hy Ey. apply elem_of_list_omap. eauto. }
  cbn in Hf. apply elem_of_cons in He as [->|He]; apply elem_of_cons in He' as [->|He']; try done.
  - rewrite Ei in Hf. apply NoDup_cons in Hf as [Hn _]. by destruct Hn; eapply Hin.
  - rewrite Ei' in Hf. apply NoDup_cons in Hf as [Hn _]. by destruct Hn; eapply Hin.
  - apply IH; try done. destruct (History.insert_id x); [by apply NoDup_cons in Hf as [_ ?]|done].
Qed.
Lemma inserted_with_unique h id a a' : fresh_ids h -> inserted_with h id a -> inserted_with h id a' -> a = a'.
Proof.
  intros Hf (e & n & He & Eo) (e' & n' & He' & Eo').
  assert (e = e') as <-. { eapply (one_insert h); try done; unfold History.insert_id; rewrite ?Eo, ?Eo'; done. }
  rewrite Eo in Eo'. destruct a, a'. cbn in Eo'. by injection Eo' as -> -> -> -> -> -> _.
Qed.
Lemma acks_complete h k : acks h k <> 0%nat -> exists e out n1 n2, e ∈ h /\ e_op e = OComplete k out n1 n2.
Proof.
  induction h as [|e h IH] using rev_ind; [done|]. rewrite acks_snoc. intros Hne. destruct (acknowledges (after h) e k) eqn:Ea.
  - unfold acknowledges in Ea. destruct (e_op e) eqn:Eo; try done. apply andb_true_iff in Ea as [Ea _]. apply andb_true_iff in Ea as [Ea%bool_decide_eq_true _]. subst.
    exists e, out, now1, now2. split; [|done]. apply elem_of_app. right. left.
  - destruct IH as (e' & out & n1 & n2 & He & Eo); [lia|]. exists e', out, n1, n2. split; [|done]. apply elem_of_app. by left.
Qed.

(** *** Chunks that the server hands out are what was inserted *)
Definition row_from (h : history) (r : chunk) : Prop :=
  exists a, inserted_with h (c_sub r) a /\ ia_contents a !! N.to_nat (c_index r) = Some (c_input r).
Definition given_from (h : history) (p : chunk * submission) : Prop :=
  exists a, inserted_with h (c_sub p.1) a /\ ia_contents a !! N.to_nat (c_index p.1) = Some (c_input p.1) /\ s_prefix p.2 = ia_prefix a /\
    s_id p.2 = c_sub p.1 /\ s_total p.2 = N.of_nat (length (ia_contents a)) /\ s_meta p.2 = ia_meta a /\ s_strat p.2 = ia_strat a /\ s_size p.2 = ia_size a /\ s_otel p.2 = ia_otel a.
Lemma row_from_mono h h' r : h `prefix_of` h' -> row_from h r -> row_from h' r.
Proof. intros Hp (a & Ha & H). exists a. split; [by eapply inserted_with_mono|done]. Qed.
Lemma given_from_mono h h' p : h `prefix_of` h' -> given_from h p -> given_from h' p.
Proof. intros Hp (a & Ha & H). exists a. split; [by eapply inserted_with_mono|done]. Qed.
Definition fetch_from (h : history) (f : fetch) : Prop :=
  (forall r, r ∈ f_rows f \/ f_join f = Some r -> row_from h r) /\ forall p, p ∈ f_got f -> given_from h p.
Lemma fetch_from_mono h h' f : h `prefix_of` h' -> fetch_from h f -> fetch_from h' f.
Proof. intros Hp [H1 H2]. split; [intros r Hr; eapply row_from_mono; eauto|intros p Hq; eapply given_from_mono; eauto]. Qed.
Definition fetches_from (s : state) : Prop :=
  forall c x f, s_conns s !! c = Some x -> c_fetch x = Some f -> fetch_from (s_hist s) f.
Lemma offers_from q off h m l : fresh_ids h -> offers q off (after h) m (fun _ => false) l -> forall r, r ∈ l -> row_from h r.
Proof.
  intros Hf Ho r Hr. destruct (offers_exact _ _ _ _ _ _ Hf Ho) as [_ Hel]. apply Hel in Hr as [Hw _].
  pose proof (waiting_inserted _ _ _ Hf Hw) as Hi. cbn in Hi. apply inserted_ids_with in Hi as [a Ha]. exists a. split; [done|].
  by eapply waiting_content.
Qed.
Section from.
Context (cfg : config).
Notation ttl := (cf_ttl cfg).
Lemma from_conn s c x s' : fetches_from s -> s_hist s' = s_hist s -> s_conns s' = <[c := x]> (s_conns s) ->
  (forall f, c_fetch x = Some f -> fetch_from (s_hist s) f) -> fetches_from s'.
Proof.
  intros K Hp Hc Hx c' x' f Hl Hfx. rewrite Hc in Hl. rewrite Hp. apply lookup_insert_Some in Hl as [[<- <-]|[_ Hl]]; eauto.
Qed.
Lemma fetches_from_step s l s' o : fresh_ids (s_hist s) -> fetches_from s -> step_to cfg s l s' o -> fetches_from s' /\
  forall c n g, Given c n g ∈ o -> forall p, p ∈ g -> given_from (s_hist s) p.
Proof.
  intros Hf K [Ha Hn]. pose proof (hist_grows _ _ _ _ _ Hn) as Hp.
  assert (Hnil : forall c n g, Given c n g ∈ ([] : list out) -> forall p, p ∈ g -> given_from (s_hist s) p) by (intros c n g Hin; by apply elem_of_nil in Hin).
  assert (Hone : forall y, (forall c n g, Given c n g <> y) -> forall c n g, Given c n g ∈ [y] -> forall p, p ∈ g -> given_from (s_hist s) p).
  { intros y Hy c n g Hin. apply elem_of_list_singleton in Hin. by destruct (Hy c n g). }
  assert (Hempty : forall d m, forall c n g, Given c n g ∈ [Given d m []] -> forall p, p ∈ g -> given_from (s_hist s) p).
  { intros d m c n g Hin. apply elem_of_list_singleton in Hin. injection Hin as -> -> ->. intros p Hk. by apply elem_of_nil in Hk. }
  assert (Hsame : s_conns s' = s_conns s -> fetches_from s').
  { intros E c x f Hx Hfx. rewrite E in Hx. eapply fetch_from_mono; [done|]. by eapply (K _ _ _ Hx Hfx). }
  assert (Hdel : forall ns cs, s_conns s' = foldl deliver cs ns -> (forall c x f, cs !! c = Some x -> c_fetch x = Some f -> fetch_from (s_hist s) f) -> fetches_from s').
  { intros ns cs E Hcs c x f Hx Hfx. rewrite E in Hx. apply deliver_some in Hx as (y & Hy & rx & ->). eapply fetch_from_mono; [done|]. by eapply (Hcs _ _ _ Hy Hfx). }
  assert (Hclose : forall c x, s' = close cfg c x s -> fetches_from s').
  { intros c x -> c' x' f Hx' Hfx. unfold close in Hx'. cbn in Hx'. apply lookup_insert_Some in Hx' as [[<- <-]|[Hne Hx']]; [done|].
    apply deliver_some in Hx' as (y & Hy & rx & ->). rewrite lookup_insert_ne in Hy by done. exact (K _ _ _ Hy Hfx). }
  destruct l; unfold next in Hn.
  - destruct (is_producer_op _); [|done]. injection Hn as <- <-. split; [by apply Hsame|done].
  - destruct (s_notifies s) as [|n]; [done|]. injection Hn as <- <-. split; [|done]. intros c x f Hx Hfx. cbn in Hx. rewrite lookup_fmap in Hx.
    apply fmap_Some in Hx as (y & Hy & ->). exact (K _ _ _ Hy Hfx).
  - destruct (s_conns s !! c) eqn:Ec; [done|]. injection Hn as <- <-. split; [|done]. by eapply (from_conn s c peer_new).
  - destruct (s_conns s !! c) as [x|] eqn:Ec; [|done]. destruct (c_open x) eqn:Eo; [|done]. destruct (c_fetch x); [done|]. injection Hn as <- <-.
    split; [by eapply Hclose|by apply Hone].
  - destruct (s_conns s !! c) as [x|] eqn:Ec; [|done]. destruct (c_open x) eqn:Eo; [|done]. destruct (c_fetch x) eqn:Ef; [done|].
    destruct (q_max q =? 0); [|destruct (can_ask _); cbn [negb] in Hn]; injection Hn as <- <-; [split; [by apply Hsame|by apply Hone]| |split; [by apply Hsame|by apply Hempty]]. split; [|done]. eapply (from_conn s c); try done.
    cbn. intros f [= <-]. split; cbn; [|intros p Hin; by apply elem_of_nil in Hin]. intros r [Hr|Hr]; [|done]. eapply offers_from; [exact Hf|exact Ha|exact Hr].
  - destruct (s_conns s !! c) as [x|] eqn:Ec; [|done]. destruct (c_open x) eqn:Eo; [|done]. destruct (c_fetch x) eqn:Ef; [done|].
    destruct (c_retry x) as [|q rest] eqn:Er; [done|]. destruct (q_max q =? 0); [|destruct (can_ask _); cbn [negb] in Hn]; injection Hn as <- <-; [| |split; [by eapply (from_conn s c)|by apply Hempty]].
    + split; [by eapply (from_conn s c)|by apply Hone].
    + split; [|done]. eapply (from_conn s c); try done. destruct Ha as (x' & q' & rest' & Hx' & Hr' & Ha). rewrite Ec in Hx'. injection Hx' as <-.
      rewrite Er in Hr'. injection Hr' as <- <-.
      cbn. intros f [= <-]. split; cbn; [|intros p Hin; by apply elem_of_nil in Hin]. intros r [Hr|Hr]; [|done]. eapply offers_from; [exact Hf|exact Ha|exact Hr].
  - destruct (s_conns s !! c) as [x|] eqn:Ec; [|done]. destruct (c_fetch x) as [[q [|r rows] got [?|]]|] eqn:Ef; try done. destruct (_ <? _); [|done].
    destruct (try_reserve ttl (s_now s) (cid_of r) c (s_res s)) as [[ok res] ns] eqn:Er. injection Hn as <- <-. split; [|done].
    eapply (Hdel ns); [done|]. intros c' x' f Hl Hfx. cbn in Hl. apply lookup_insert_Some in Hl as [[<- <-]|[_ Hl]]; [|exact (K _ _ _ Hl Hfx)].
    cbn in Hfx. injection Hfx as <-. destruct (K _ _ _ Ec Ef) as [K1 K2]. cbn in K1, K2. split; cbn; [|done]. intros r' [Hr'|Hr']; apply K1; left.
    + by right.
    + destruct ok; [|done]. injection Hr' as <-. left.
  - destruct (s_conns s !! c) as [x|] eqn:Ec; [|done]. destruct (c_fetch x) as [[q rows got j]|] eqn:Ef; [|done].
    destruct (rows !! i); [|done]. destruct (is_reserved _ _ _ _); [|done]. injection Hn as <- <-. split; [|done]. eapply (from_conn s c); try done.
    cbn. intros f [= <-]. destruct (K _ _ _ Ec Ef) as [K1 K2]. cbn in K1, K2. split; cbn; [|done]. intros r [Hr|Hr]; apply K1; [left|by right].
    eapply elem_of_submseteq; [exact Hr|]. apply sublist_submseteq, sublist_delete.
  - destruct (s_conns s !! c) as [x|] eqn:Ec; [|done]. destruct (c_fetch x) as [[q rows got [r|]]|] eqn:Ef; [|done|done].
    destruct (if fault then None else joined_submission (s_db s) r) as [sub|] eqn:Ej; injection Hn as <- <-; [|split; [by eapply Hclose|by apply Hone]].
    split; [|done]. eapply (from_conn s c); try done.
    cbn. intros f [= <-]. destruct (K _ _ _ Ec Ef) as [K1 K2]. cbn in K1, K2. split; cbn; [intros r' [Hr|Hr]; [apply K1; by left|done]|].
    intros p Hq. apply elem_of_app in Hq as [Hq|Hq]; [by apply K2|]. apply elem_of_list_singleton in Hq as ->.
    destruct (K1 r (or_intror eq_refl)) as (a & Ha1 & Ha2). exists a. cbn. split; [done|]. split; [done|].
    destruct fault; [done|]. apply joined_reports in Ej. by destruct (attributes _ _ _ _ Hf Ha1 Ej) as (H1 & H2 & H3 & H4 & H5 & H6 & H7).
  - destruct (s_conns s !! c) as [x|] eqn:Ec; [|done]. destruct (c_fetch x) as [[q rows got j]|] eqn:Ef; [|done].
    injection Hn as <- <-. split; [by eapply (from_conn s c)|]. intros c' n g Hin. apply elem_of_list_singleton in Hin. injection Hin as -> -> ->. intros p Hq. by apply elem_of_nil in Hq.
  - destruct (s_conns s !! c) as [x|] eqn:Ec; [|done]. destruct (c_fetch x) as [[q rows got [r|]]|] eqn:Ef; [done| |done].
    destruct (_ || _); [|done]. destruct got as [|g got]; injection Hn as <- <-; [split; [by eapply (from_conn s c)|done]|].
    split; [by eapply (from_conn s c)|]. intros c' n g' Hin. apply elem_of_list_singleton in Hin. injection Hin as -> -> ->.
    intros p Hq. by apply (K _ _ _ Ec Ef).
  - destruct (s_conns s !! c) as [x|] eqn:Ec; [|done]. destruct (c_spawned x) as [|q rest]; [done|]. injection Hn as <- <-. split; [|done].
    eapply (from_conn s c); try done. cbn. intros f Hfx. exact (K _ _ _ Ec Hfx).
  - destruct (s_conns s !! c) as [x|] eqn:Ec; [|done]. destruct (c_open x) eqn:Eo; [|done]. destruct (c_fetch x) eqn:Ef; [done|].
    injection Hn as <- <-. split; [|done]. by eapply (from_conn s c).
  - repeat case_match; simplify_eq; (split; [by apply Hsame|done]).
  - repeat case_match; simplify_eq; (split; [by apply Hsame|done]).
  - destruct (s_phase s) as [|m delayed|] eqn:Ep; [done| |done].
    destruct (finish_reservation ttl (s_now s) (m_chunk m) delayed (s_res s)) as [[at_ res] ns] eqn:Er. injection Hn as <- <-. split; [|done].
    eapply (Hdel ns); [done|]. intros c' x' f Hl Hfx. cbn in Hl. apply lookup_alter_Some in Hl as [[<- (w & Hw & ->)]|[_ Hl]]; [exact (K _ _ _ Hw Hfx)|exact (K _ _ _ Hl Hfx)].
  - repeat case_match; simplify_eq; (split; [by apply Hsame|done]).
  - injection Hn as <- <-. split; [by apply Hsame|done].
  - destruct (r_pending (s_res s) !! i) as [[k' t]|] eqn:Ep; [|done]. destruct (t <=? s_now s) eqn:El; [|done]. rewrite remove_spec in Hn. injection Hn as <- <-.
    split; [|done]. by eapply (Hdel _ (s_conns s)).
  - destruct (r_entries (s_res s) !! k) as [e'|] eqn:Ee; [|done]. destruct (is_live ttl (s_now s) e') eqn:El; [done|].
    rewrite remove_spec in Hn. injection Hn as <- <-. split; [|done]. by eapply (Hdel _ (s_conns s)).
  - destruct (s_conns s !! c) as [x|] eqn:Ec; [|done]. destruct (c_fetch x) eqn:Ef; [done|]. destruct (c_rx x) as [|k' rest]; [done|].
    injection Hn as <- <-. split; [by eapply (from_conn s c)|by apply Hone].
  - injection Hn as <- <-. split; [|done]. intros c x f Hx; cbn in Hx; by rewrite lookup_empty in Hx.
Qed.
End from.

(** *** The invariant of the whole system *)
(** What a consumer fetched is what was inserted or uploaded. *)
Definition fetched_ok (h : history) (us : gmap string upload_state) (r : chunk) (c : string) (p : option string) : Prop :=
  exists a, inserted_with h (c_sub r) a /\
    match p with
    | None => ia_prefix a = None /\ ia_contents a !! N.to_nat (c_index r) = Some (Some c)
    | Some p => ia_prefix a = Some p /\ exists cs, us !! p = Some (Submitted cs) /\ cs !! N.to_nat (c_index r) = Some c
    end.
(** The output of a chunk that is reported as completed is in the object store. *)
Definition good (base : string) (h : history) (o : gmap string string) (k : chunk_id) : Prop :=
  exists a, inserted_with h k.1 a /\ forall p, ia_prefix a = Some p -> is_Some (retrieve_chunk base p k.2 Output o).
Definition job_ok (base : string) (h : history) (us : gmap string upload_state) (o : gmap string string) (j : job) : Prop :=
  match j with
  | ToRun r c p => fetched_ok h us r c p
  | ToReport r (Complete _) => good base h o (cid_of r)
  | ToReport r (Fail _) => True
  end.
Definition still (us us' : gmap string upload_state) : Prop := forall p cs, us !! p = Some (Submitted cs) -> us' !! p = Some (Submitted cs).
Definition kept_objects (o o' : gmap string string) : Prop := forall path, is_Some (o !! path) -> is_Some (o' !! path).
Lemma fetched_ok_mono h h' us us' r c p : h `prefix_of` h' -> still us us' -> fetched_ok h us r c p -> fetched_ok h' us' r c p.
Proof.
  intros Hh Hu (a & Ha & H). exists a. split; [by eapply inserted_with_mono|]. destruct p as [p|]; [|done]. destruct H as (Hp & cs & Hcs & Hc). split; [done|]. exists cs. split; [by apply Hu|done].
Qed.
Lemma good_mono base h h' o o' k : h `prefix_of` h' -> kept_objects o o' -> good base h o k -> good base h' o' k.
Proof. intros Hh Ho (a & Ha & H). exists a. split; [by eapply inserted_with_mono|]. intros p Hp. apply Ho. by apply H. Qed.
Lemma job_ok_mono base h h' us us' o o' j : h `prefix_of` h' -> still us us' -> kept_objects o o' -> job_ok base h us o j -> job_ok base h' us' o' j.
Proof. intros Hh Hu Ho. destruct j as [r c p|r [out|f]]; cbn; [by apply fetched_ok_mono|by apply good_mono|done]. Qed.
Lemma still_refl us : still us us.
Proof. by intros p cs. Qed.
Lemma kept_refl o : kept_objects o o.
Proof. by intros path. Qed.
Lemma kept_insert path c o : kept_objects o (<[path := c]> o).
Proof. intros q Hq. destruct (decide (path = q)) as [<-|]; [by rewrite lookup_insert|by rewrite lookup_insert_ne]. Qed.
Lemma kept_store base p i t c u o : kept_objects o (snd (store_chunk base p i t c u o)).
Proof. destruct u; cbn; [apply kept_insert|apply kept_refl|apply kept_insert]. Qed.

Record winv (base : string) (work : string -> option string) (w : world) : Prop := {
  wi_fetch : fetches_from (w_server w);
  wi_prefix : forall p u, w_uploads w !! p = Some u -> p <> "" /\ no_char "/" p;
  wi_input : forall p cs, w_uploads w !! p = Some (Uploading cs) \/ w_uploads w !! p = Some (Submitted cs) ->
    forall i c, cs !! i = Some c -> retrieve_chunk base p (N.of_nat i) Input (w_objects w) = Some c;
  wi_insert : forall id a p, inserted_with (s_hist (w_server w)) id a -> ia_prefix a = Some p ->
    exists cs, w_uploads w !! p = Some (Submitted cs) /\ ia_contents a = replicate (length cs) None;
  wi_output : forall p i out, no_char "/" p -> retrieve_chunk base p i Output (w_objects w) = Some out ->
    exists cs c, w_uploads w !! p = Some (Submitted cs) /\ cs !! N.to_nat i = Some c /\ work c = Some out;
  wi_batch : forall b, b ∈ w_batches w -> (forall q, q ∈ b_todo b -> given_from (s_hist (w_server w)) q) /\
    forall x, x ∈ b_got b -> fetched_ok (s_hist (w_server w)) (w_uploads w) x.1.1 x.1.2 x.2;
  wi_job : forall j, j ∈ w_jobs w -> job_ok base (s_hist (w_server w)) (w_uploads w) (w_objects w) j;
  wi_mail : forall m out, m ∈ s_mail (w_server w) -> m_report m = Complete out -> good base (s_hist (w_server w)) (w_objects w) (m_chunk m);
  wi_hist : forall e k out n1 n2, e ∈ s_hist (w_server w) -> e_op e = OComplete k out n1 n2 -> good base (s_hist (w_server w)) (w_objects w) k }.

Section world.
Context (cfg : config) (base : string) (work : string -> option string).
Lemma winv_start now : winv base work (world_start now).
Proof.
  constructor; cbn.
  - intros c x f Hx. cbn in Hx. by rewrite lookup_empty in Hx.
  - intros p u Hu. by rewrite lookup_empty in Hu.
  - intros p cs [Hu|Hu]; by rewrite lookup_empty in Hu.
  - intros id a p (e & n & He & _). by apply elem_of_nil in He.
  - intros p i out _ Ho. unfold retrieve_chunk in Ho. by rewrite lookup_empty in Ho.
  - intros b Hb. by apply elem_of_nil in Hb.
  - intros j Hj. by apply elem_of_nil in Hj.
  - intros m out Hm. by apply elem_of_nil in Hm.
  - intros e k out n1 n2 He. by apply elem_of_nil in He.
Qed.

(** What a step of the server does to history and mailbox. *)
Lemma server_hist l s s' o : step_to cfg s l s' o ->
  s_hist s' = s_hist s \/ exists e, s_hist s' = s_hist s ++ [e] /\
    ((event_of l = Some e /\ is_producer_op (e_op e) = true) \/ exists m n1 n2 n3, m ∈ s_mail s /\ e_op e = mail_op cfg m n1 n2 n3).
Proof.
  intros [Ha Hn]. destruct l; unfold next in Hn; try (repeat case_match; simplify_eq; by left).
  - destruct (is_producer_op (e_op e)) eqn:Ei; cbn in Hn; [|done]. injection Hn as <- <-. right. exists e. split; [done|]. by left.
  - destruct (s_phase s); try done. destruct (s_mail s) as [|m rest] eqn:Em; [done|]. injection Hn as <- <-. right. eexists. split; [done|]. right. exists m, n1, n2, n3. split; [left|done].
  - injection Hn as <- <-. destruct e as [e|]; [|by left]. right. exists e. split; [done|]. destruct Ha as [_ [Hi|(_ & m & rest & n1 & n2 & n3 & Em & Eo)]]; [by left|].
    right. exists m, n1, n2, n3. rewrite Em. split; [left|done].
Qed.
Lemma server_mail l s s' o m : next cfg l s = Some (s', o) -> m ∈ s_mail s' -> m ∈ s_mail s \/ l = LReport (m_conn m) (m_chunk m) (m_report m).
Proof.
  intros Hn Hm. destruct l; unfold next in Hn; try (repeat case_match; simplify_eq; cbn in Hm; first [by left|by apply elem_of_nil in Hm]).
  - repeat case_match; simplify_eq; cbn in Hm. apply elem_of_app in Hm as [Hm|Hm]; [by left|]. apply elem_of_list_singleton in Hm as ->. by right.
  - repeat case_match; simplify_eq; cbn in Hm. left. by right.
  - repeat case_match; simplify_eq; cbn in Hm. left. by right.
Qed.
Lemma submit_still e us us' : submit e us = Some us' -> still us us'.
Proof.
  unfold submit. intros H p cs Hp. destruct (e ≫= insert_prefix) as [[p' l]|]; [|by injection H as <-].
  destruct (us !! p') as [[cs'| |cs']|] eqn:E; try done; case_bool_decide; try done; injection H as <-; [|done].
  rewrite lookup_insert_ne; [done|]. intros ->. congruence.
Qed.
(** The events of a submission with contents in the object store. *)
Lemma submit_insert e us us' id a n p : submit (Some e) us = Some us' ->
  e_op e = OInsert id (ia_prefix a) (ia_contents a) (ia_meta a) (ia_strat a) (ia_size a) (ia_otel a) n -> ia_prefix a = Some p ->
  exists cs, us' !! p = Some (Submitted cs) /\ ia_contents a = replicate (length cs) None /\ (us !! p = Some (Uploading cs) \/ us !! p = Some (Submitted cs)).
Proof.
  intros H Eo Ep. unfold submit in H. cbn in H. unfold insert_prefix in H. rewrite Eo, Ep in H.
  destruct (us !! p) as [[cs'| |cs']|] eqn:E; try done; case_bool_decide as Hl; try done; injection H as <-; exists cs'; rewrite ?lookup_insert; eauto.
Qed.
Lemma mail_op_complete m n1 n2 n3 k out t1 t2 : mail_op cfg m n1 n2 n3 = OComplete k out t1 t2 -> m_chunk m = k /\ m_report m = Complete out.
Proof. unfold mail_op. destruct (m_report m); intros [=]; by subst. Qed.
Lemma mail_op_insert m n1 n2 n3 id p l me st z ot n : mail_op cfg m n1 n2 n3 <> OInsert id p l me st z ot n.
Proof. unfold mail_op. by destruct (m_report m). Qed.

(** A step of the server; reports only of results that are in the object store. *)
Lemma winv_server w l s' o us' : fresh_ids (s_hist (w_server w)) -> winv base work w -> step_to cfg (w_server w) l s' o -> submit (event_of l) (w_uploads w) = Some us' ->
  (forall c k out, l = LReport c k (Complete out) -> good base (s_hist (w_server w)) (w_objects w) k) ->
  winv base work (World s' (w_objects w) us' (w_batches w ++ handed_out o) (w_jobs w)).
Proof.
  intros Hf [I0 I1 I2 I3 I4 I5 I6 I7 I8] Hs Hu Hrep. pose proof Hs as [Hal Hn]. pose proof (hist_grows _ _ _ _ _ Hn) as Hp. pose proof (submit_still _ _ _ Hu) as Hst.
  destruct (fetches_from_step cfg _ _ _ _ Hf I0 Hs) as [J0 Hg].
  assert (Hus : forall p u, us' !! p = Some u -> w_uploads w !! p = Some u \/ exists cs, w_uploads w !! p = Some (Uploading cs) /\ u = Submitted cs).
  { intros p u Hpu. unfold submit in Hu. destruct (event_of l ≫= insert_prefix) as [[p' l']|]; [|injection Hu as <-; by left].
    destruct (w_uploads w !! p') as [[cs'| |cs']|] eqn:E; try done; case_bool_decide; try done; injection Hu as <-; [|by left].
    apply lookup_insert_Some in Hpu as [[<- <-]|[_ Hpu]]; [right; eauto|by left]. }
  constructor; cbn.
  - done.
  - intros p u Hpu. destruct (Hus _ _ Hpu) as [H|(cs & H & _)]; by eapply I1.
  - intros p cs H. apply I2. destruct H as [H|H]; destruct (Hus _ _ H) as [H'|(cs' & H' & E)]; [by left|done|by right|]. injection E as <-. by left.
  - intros id a p Ha Hap. destruct (server_hist _ _ _ _ Hs) as [E|(e & E & He)].
    + rewrite E in Ha. destruct (I3 _ _ _ Ha Hap) as (cs & H1 & H2). exists cs. split; [by apply Hst|done].
    + rewrite E in Ha. destruct Ha as (e' & n & He' & Eo). apply elem_of_app in He' as [He'|He'].
      * destruct (I3 id a p) as (cs & H1 & H2); [by exists e', n|done|]. exists cs. split; [by apply Hst|done].
      * apply elem_of_list_singleton in He' as ->. destruct He as [[He _]|(m & n1 & n2 & n3 & _ & Em)].
        -- rewrite He in Hu. destruct (submit_insert _ _ _ _ _ _ _ Hu Eo Hap) as (cs & H1 & H2 & _). eauto.
        -- rewrite Em in Eo. by apply mail_op_insert in Eo.
  - intros p i out Hp' Ho. destruct (I4 _ _ _ Hp' Ho) as (cs & c & H1 & H2). exists cs, c. split; [by apply Hst|done].
  - intros b Hb. apply elem_of_app in Hb as [Hb|Hb].
    + destruct (I5 b Hb) as [H1 H2]. split; [intros q Hq; eapply given_from_mono; eauto|intros x Hx; eapply fetched_ok_mono; eauto].
    + unfold handed_out in Hb. apply elem_of_list_omap in Hb as (y & Hy & Ey). destruct y as [c n g| | |]; try done. injection Ey as <-. cbn. split; [|intros x Hx; by apply elem_of_nil in Hx].
      intros q Hq. eapply given_from_mono; [exact Hp|]. by eapply Hg.
  - intros j Hj. eapply job_ok_mono; [exact Hp|exact Hst|apply kept_refl|by apply I6].
  - intros m out Hm Em. eapply good_mono; [exact Hp|apply kept_refl|]. destruct (server_mail _ _ _ _ _ Hn Hm) as [Hm'|E]; [by eapply I7|]. rewrite Em in E. by eapply Hrep.
  - intros e k out n1 n2 He Eo. eapply good_mono; [exact Hp|apply kept_refl|]. destruct (server_hist _ _ _ _ Hs) as [E|(e' & E & He')]; rewrite E in He; [by eapply I8|].
    apply elem_of_app in He as [He|He]; [by eapply I8|]. apply elem_of_list_singleton in He as ->. destruct He' as [[_ Hx]|(m & t1 & t2 & t3 & Hm & Em)]; [by rewrite Eo in Hx|].
    rewrite Em in Eo. apply mail_op_complete in Eo as [<- Er]. by eapply I7.
Qed.

Lemma winv_step w l w' : fresh_ids (s_hist (w_server w)) -> winv base work w -> wallowed cfg l w -> wnext cfg base work l w = Some w' -> winv base work w'.
Proof.
  intros Hf I Hal Hn. pose proof I as [I0 I1 I2 I3 I4 I5 I6 I7 I8]. destruct l as [l|p|p c u|p|b broken|b|j u|j c|c k f]; cbn [wallowed] in Hal; cbn [wnext] in Hn.
  - destruct (match l with LReport _ _ _ => true | _ => false end) eqn:El.
    { destruct l; done. }
    assert (E : match next cfg l (w_server w), submit (event_of l) (w_uploads w) with
      | Some (s, o), Some us => Some (World s (w_objects w) us (w_batches w ++ handed_out o) (w_jobs w)) | _, _ => None end = Some w') by (destruct l; done).
    clear Hn. destruct (next cfg l (w_server w)) as [[s o]|] eqn:Es; [|done]. destruct (submit (event_of l) (w_uploads w)) as [us|] eqn:Eu; [|done]. injection E as <-.
    eapply winv_server; try done. intros c k out ->. done.
  - destruct (w_uploads w !! p) eqn:Ep; [done|]. injection Hn as <-. constructor; cbn; try done.
    + intros q u Hq. apply lookup_insert_Some in Hq as [[<- _]|[_ Hq]]; [done|by eapply I1].
    + intros q cs Hq i c Hc. destruct (decide (p = q)) as [<-|Hne]; [|rewrite lookup_insert_ne in Hq by done; by eapply I2].
      rewrite lookup_insert in Hq. destruct Hq as [[= <-]|[=]]. done.
    + intros id a q Ha Hq. destruct (I3 _ _ _ Ha Hq) as (cs & H1 & H2). exists cs. split; [|done]. rewrite lookup_insert_ne; [done|congruence].
    + intros q i out Hq Ho. destruct (I4 _ _ _ Hq Ho) as (cs & c & H1 & H2). exists cs, c. split; [|done]. rewrite lookup_insert_ne; [done|congruence].
    + assert (Hst : still (w_uploads w) (<[p := Uploading []]> (w_uploads w))). { intros q cs Hq. rewrite lookup_insert_ne; [done|congruence]. }
      intros b Hb. destruct (I5 b Hb) as [H1 H2]. split; [done|]. intros x Hx. eapply fetched_ok_mono; [done|exact Hst|by apply H2].
    + assert (Hst : still (w_uploads w) (<[p := Uploading []]> (w_uploads w))). { intros q cs Hq. rewrite lookup_insert_ne; [done|congruence]. }
      intros j Hj. eapply job_ok_mono; [done|exact Hst|apply kept_refl|by apply I6].
  - destruct (w_uploads w !! p) as [[cs| |]|] eqn:Ep; [|done|done|done]. destruct (store_chunk base p (N.of_nat (length cs)) Input c u (w_objects w)) as [ok o] eqn:Eo. injection Hn as <-.
    assert (Ho : o = snd (store_chunk base p (N.of_nat (length cs)) Input c u (w_objects w))) by (by rewrite Eo).
    pose proof (kept_store base p (N.of_nat (length cs)) Input c u (w_objects w)) as Hk. rewrite <- Ho in Hk.
    destruct (I1 _ _ Ep) as [Hp0 Hps].
    assert (Hst : forall x, still (w_uploads w) (<[p := x]> (w_uploads w))). { intros x q cs' Hq. rewrite lookup_insert_ne; [done|congruence]. }
    assert (Hoth : forall q i t, no_char "/" q -> (p, N.of_nat (length cs), Input) <> (q, i, t) -> retrieve_chunk base q i t o = retrieve_chunk base q i t (w_objects w)).
    { intros q i t Hq Hne. rewrite Ho. by apply store_chunk_other. }
    constructor; cbn; try done.
    + intros q v Hq. apply lookup_insert_Some in Hq as [[<- _]|[_ Hq]]; [done|by eapply I1].
    + intros q cs' Hq i d Hd. destruct (decide (p = q)) as [<-|Hne].
      * rewrite lookup_insert in Hq. destruct ok; [|by destruct Hq]. destruct Hq as [[= <-]|[=]].
        apply lookup_app_Some in Hd as [Hd|[Hlen Hd]].
        -- rewrite Hoth; [by apply (I2 p cs (or_introl Ep))|done|]. apply lookup_lt_Some in Hd. intros [=]. lia.
        -- destruct (i - length cs)%nat eqn:Ei; cbn in Hd; [|done]. injection Hd as <-. replace i with (length cs) by lia.
           destruct u; cbn in Eo; [|done|done]. injection Eo as <-. unfold retrieve_chunk. by rewrite lookup_insert.
      * rewrite lookup_insert_ne in Hq by done. rewrite Hoth; [by eapply I2| |intros [=]; done]. destruct Hq as [Hq|Hq]; by apply I1 in Hq as [_ ?].
    + intros id a q Ha Hq. destruct (I3 _ _ _ Ha Hq) as (cs' & H1 & H2). exists cs'. split; [|done]. by apply Hst.
    + intros q i out Hq Hout. rewrite Hoth in Hout by (done || intros [=]). destruct (I4 _ _ _ Hq Hout) as (cs' & d & H1 & H2). exists cs', d. split; [|done]. by apply Hst.
    + intros b Hb. destruct (I5 b Hb) as [H1 H2]. split; [done|]. intros x Hx. eapply fetched_ok_mono; [done|apply Hst|by apply H2].
    + intros j Hj. eapply job_ok_mono; [done|apply Hst|exact Hk|by apply I6].
    + intros m out Hm Em. eapply good_mono; [done|exact Hk|]. by eapply I7.
    + intros e k out n1 n2 He Ee. eapply good_mono; [done|exact Hk|]. by eapply I8.
  - destruct (w_uploads w !! p) as [[cs| |]|] eqn:Ep; [|done|done|done]. injection Hn as <-.
    assert (Hst : forall x, still (w_uploads w) (<[p := x]> (w_uploads w))). { intros x q cs' Hq. rewrite lookup_insert_ne; [done|congruence]. }
    constructor; cbn; try done.
    + intros q v Hq. apply lookup_insert_Some in Hq as [[<- _]|[_ Hq]]; by eapply I1.
    + intros q cs' Hq i d Hd. destruct (decide (p = q)) as [<-|Hne]; [rewrite lookup_insert in Hq; by destruct Hq|]. rewrite lookup_insert_ne in Hq by done. by eapply I2.
    + intros id a q Ha Hq. destruct (I3 _ _ _ Ha Hq) as (cs' & H1 & H2). exists cs'. split; [|done]. by apply Hst.
    + intros q i out Hq Hout. destruct (I4 _ _ _ Hq Hout) as (cs' & d & H1 & H2). exists cs', d. split; [|done]. by apply Hst.
    + intros b Hb. destruct (I5 b Hb) as [H1 H2]. split; [done|]. intros x Hx. eapply fetched_ok_mono; [done|apply Hst|by apply H2].
    + intros j Hj. eapply job_ok_mono; [done|apply Hst|apply kept_refl|by apply I6].
  - destruct (w_batches w !! b) as [[[|[r s] todo] got]|] eqn:Eb; [done| |done]. injection Hn as <-.
    destruct (I5 _ (elem_of_list_lookup_2 _ _ _ Eb)) as [B1 B2]. cbn in B1, B2.
    constructor; cbn; try done. intros b' Hb'. destruct (from_internal base r s broken (w_objects w)) as [d p| |] eqn:Ef.
    + apply elem_of_list_lookup in Hb' as [i Hi]. destruct (decide (i = b)) as [->|Hne].
      * rewrite list_lookup_insert in Hi by (by eapply lookup_lt_Some). injection Hi as <-. cbn. split; [intros q Hq; apply B1; by right|].
        intros x Hx. apply elem_of_app in Hx as [Hx|Hx]; [by apply B2|]. apply elem_of_list_singleton in Hx as ->. cbn.
        destruct (B1 (r, s)) as (a & Ha & Hc & Hp & _); [left|]. cbn in Ha, Hc, Hp. exists a. split; [done|]. unfold from_internal in Ef.
        destruct (c_input r) as [c'|] eqn:Ei.
        -- injection Ef as <- <-. split; [|done]. destruct (ia_prefix a) as [p'|] eqn:Ea; [|done]. destruct (I3 _ _ _ Ha Ea) as (cs & _ & E). rewrite E in Hc. by apply lookup_replicate_1 in Hc as [? _].
        -- destruct (s_prefix s) as [p'|]; [|done]. destruct broken; [done|]. destruct (retrieve_chunk base p' (c_index r) Input (w_objects w)) as [c'|] eqn:Er; [|done]. injection Ef as <- <-.
           split; [done|]. destruct (I3 _ _ _ Ha (eq_sym Hp)) as (cs & Hcs & E). exists cs. split; [done|]. rewrite E in Hc. apply lookup_replicate_1 in Hc as [_ Hlt].
           destruct (lookup_lt_is_Some_2 cs (N.to_nat (c_index r)) Hlt) as [c Hc]. rewrite Hc. pose proof (I2 p' cs (or_intror Hcs) _ _ Hc) as Hx. rewrite N2Nat.id in Hx. congruence.
      * rewrite list_lookup_insert_ne in Hi by done. apply I5. by eapply elem_of_list_lookup_2.
    + apply I5. eapply elem_of_submseteq; [exact Hb'|]. apply sublist_submseteq, sublist_delete.
    + apply I5. eapply elem_of_submseteq; [exact Hb'|]. apply sublist_submseteq, sublist_delete.
  - destruct (w_batches w !! b) as [[[|[r s] todo] got]|] eqn:Eb; [|done|done]. injection Hn as <-.
    destruct (I5 _ (elem_of_list_lookup_2 _ _ _ Eb)) as [B1 B2]. cbn in B1, B2.
    constructor; cbn; try done.
    + intros b' Hb'. apply I5. eapply elem_of_submseteq; [exact Hb'|]. apply sublist_submseteq, sublist_delete.
    + intros j Hj. apply elem_of_app in Hj as [Hj|Hj]; [by apply I6|]. apply elem_of_list_fmap in Hj as (x & -> & Hx). cbn. by apply B2.
  - destruct (w_jobs w !! j) as [[r c p|]|] eqn:Ej; [|done|done]. pose proof (I6 _ (elem_of_list_lookup_2 _ _ _ Ej)) as Hj. cbn in Hj.
    assert (Hins : forall x i, i ∈ <[j := x]> (w_jobs w) -> i = x \/ i ∈ w_jobs w).
    { intros x i Hi. apply elem_of_list_lookup in Hi as [n Hi]. destruct (decide (n = j)) as [->|Hne].
      - rewrite list_lookup_insert in Hi by (by eapply lookup_lt_Some). left. congruence.
      - rewrite list_lookup_insert_ne in Hi by done. right. by eapply elem_of_list_lookup_2. }
    destruct (work c) as [out|] eqn:Ew.
    2: { injection Hn as <-. constructor; cbn; try done. intros i Hi. apply Hins in Hi as [->|Hi]; [done|by apply I6]. }
    destruct p as [p|].
    2: { injection Hn as <-. constructor; cbn; try done. intros i Hi. apply Hins in Hi as [->|Hi]; [|by apply I6]. cbn. destruct Hj as (a & Ha & Hp & _). exists a. split; [done|]. intros p Hp'. congruence. }
    destruct Hj as (a & Ha & Hp & cs & Hcs & Hc). destruct (store_chunk base p (c_index r) Output out u (w_objects w)) as [ok o] eqn:Eo. injection Hn as <-.
    assert (Ho : o = snd (store_chunk base p (c_index r) Output out u (w_objects w))) by (by rewrite Eo).
    pose proof (kept_store base p (c_index r) Output out u (w_objects w)) as Hk. rewrite <- Ho in Hk.
    destruct (I1 _ _ Hcs) as [Hp0 Hps].
    assert (Hoth : forall q i t, no_char "/" q -> (p, c_index r, Output) <> (q, i, t) -> retrieve_chunk base q i t o = retrieve_chunk base q i t (w_objects w)).
    { intros q i t Hq Hne. rewrite Ho. by apply store_chunk_other. }
    constructor; cbn; try done.
    + intros q cs' Hq i d Hd. rewrite Hoth; [by eapply I2| |intros [=]]. destruct Hq as [Hq|Hq]; by apply I1 in Hq as [_ ?].
    + intros q i out' Hq Hout. destruct (decide ((p, c_index r) = (q, i))) as [[= <- <-]|Hne].
      * exists cs, c. split_and!; [done|done|]. unfold retrieve_chunk in *. destruct u; cbn in Ho; subst o.
        -- rewrite lookup_insert in Hout. congruence.
        -- destruct (I4 _ _ _ Hq Hout) as (cs' & d & H1 & H2 & H3). congruence.
        -- rewrite lookup_insert in Hout. congruence.
      * rewrite Hoth in Hout; [by apply I4|done|]. intros [= <- <-]. done.
    + intros i Hi. assert (i ∈ w_jobs w \/ (i = ToReport r (Complete None) /\ ok = true)) as [Hi'|[-> ->]].
      { destruct ok; [apply Hins in Hi as [->|Hi]; [by right|by left]|]. left. eapply elem_of_submseteq; [exact Hi|]. apply sublist_submseteq, sublist_delete. }
      * eapply job_ok_mono; [done|apply still_refl|exact Hk|by apply I6].
      * cbn. exists a. split; [done|]. intros p' Hp'. assert (p' = p) as -> by congruence. unfold retrieve_chunk. destruct u; cbn in Eo; [|done|done]. injection Eo as <-. by rewrite lookup_insert.
    + intros m out' Hm Em. eapply good_mono; [done|exact Hk|]. by eapply I7.
    + intros e k out' n1 n2 He Ee. eapply good_mono; [done|exact Hk|]. by eapply I8.
  - destruct (w_jobs w !! j) as [[|r rep]|] eqn:Ej; [done| |done]. pose proof (I6 _ (elem_of_list_lookup_2 _ _ _ Ej)) as Hj.
    destruct (next cfg (LReport c (cid_of r) rep) (w_server w)) as [[s o]|] eqn:Es; [|done]. injection Hn as <-.
    assert (o = []) as -> by (unfold next in Es; repeat case_match; by simplify_eq).
    pose proof (winv_server w (LReport c (cid_of r) rep) s [] (w_uploads w) Hf I) as Hw. cbn in Hw. rewrite app_nil_r in Hw. apply Hw; [done|done|].
    intros c' k out [= _ <- ->]. exact Hj.
  - destruct (next cfg (LReport c k (Fail f)) (w_server w)) as [[s o]|] eqn:Es; [|done]. injection Hn as <-.
    assert (o = []) as -> by (unfold next in Es; repeat case_match; by simplify_eq).
    pose proof (winv_server w (LReport c k (Fail f)) s [] (w_uploads w) Hf I) as Hw. cbn in Hw. rewrite app_nil_r in Hw. apply Hw; [done|done|].
    intros c' k' out [=].
Qed.

(** What only grows. *)
Lemma wgrows w l w' : wnext cfg base work l w = Some w' ->
  s_hist (w_server w) `prefix_of` s_hist (w_server w') /\ still (w_uploads w) (w_uploads w').
Proof.
  intros Hn. assert (Hst : forall p x, (forall cs, w_uploads w !! p <> Some (Submitted cs)) -> still (w_uploads w) (<[p := x]> (w_uploads w))).
  { intros p x Hp q cs' Hq. rewrite lookup_insert_ne; [done|]. intros ->. by eapply Hp. }
  destruct l as [l|p|p c u|p|b broken|b|j u|j c|c k f]; cbn [wnext] in Hn.
  - assert (E : match next cfg l (w_server w), submit (event_of l) (w_uploads w) with
      | Some (s, o), Some us => Some (World s (w_objects w) us (w_batches w ++ handed_out o) (w_jobs w)) | _, _ => None end = Some w') by (destruct l; done).
    destruct (next cfg l (w_server w)) as [[s o]|] eqn:Es; [|done]. destruct (submit (event_of l) (w_uploads w)) as [us|] eqn:Eu; [|done]. injection E as <-. cbn.
    split; [by eapply hist_grows|by eapply submit_still].
  - destruct (w_uploads w !! p) eqn:Ep; [done|]. injection Hn as <-. cbn. split; [done|]. apply Hst. congruence.
  - destruct (w_uploads w !! p) as [[cs| |]|] eqn:Ep; [|done|done|done]. destruct (store_chunk _ _ _ _ _ _ _). injection Hn as <-. cbn. split; [done|]. apply Hst. congruence.
  - destruct (w_uploads w !! p) as [[cs| |]|] eqn:Ep; [|done|done|done]. injection Hn as <-. cbn. split; [done|]. apply Hst. congruence.
  - destruct (w_batches w !! b) as [[[|[r s] todo] got]|]; [done| |done]. injection Hn as <-. split; [done|apply still_refl].
  - destruct (w_batches w !! b) as [[[|[r s] todo] got]|]; [|done|done]. injection Hn as <-. split; [done|apply still_refl].
  - repeat case_match; simplify_eq; (split; [done|apply still_refl]).
  - destruct (w_jobs w !! j) as [[|r rep]|]; [done| |done]. destruct (next cfg (LReport c (cid_of r) rep) (w_server w)) as [[s o]|] eqn:Es; [|done]. injection Hn as <-. cbn. split; [by eapply hist_grows|apply still_refl].
  - destruct (next cfg (LReport c k (Fail f)) (w_server w)) as [[s o]|] eqn:Es; [|done]. injection Hn as <-. cbn. split; [by eapply hist_grows|apply still_refl].
Qed.
Lemma wrun_grows w tr w' : wrun cfg base work w tr w' ->
  s_hist (w_server w) `prefix_of` s_hist (w_server w') /\ still (w_uploads w) (w_uploads w').
Proof.
  induction 1 as [|tr w1 l w2 Hr [H1 H2] Ha Hn]; [split; [done|apply still_refl]|]. destruct (wgrows _ _ _ Hn) as [H3 H4]. split; [by etrans|]. intros p cs Hp. by apply H4, H2.
Qed.
Lemma winv_run w tr w' : winv base work w -> wrun cfg base work w tr w' -> fresh_ids (s_hist (w_server w')) -> winv base work w'.
Proof.
  intros I. induction 1 as [|tr w1 l w2 Hr IH Ha Hn]; intros Hf; [done|]. destruct (wgrows _ _ _ Hn) as [H3 _]. pose proof (fresh_prefix_of _ _ H3 Hf) as Hf1.
  eapply winv_step; [exact Hf1|by apply IH|exact Ha|exact Hn].
Qed.

(** What was uploaded. *)
Lemma uploaded_snoc p tr l : uploaded p (tr ++ [l]) = uploaded p tr ++ uploaded p [l].
Proof. unfold uploaded. apply omap_app. Qed.
Lemma uploads_run now tr w : wrun cfg base work (world_start now) tr w -> forall p,
  match w_uploads w !! p with
  | Some (Uploading cs) | Some (Submitted cs) => uploaded p tr = cs | None => uploaded p tr = [] | Some Abandoned => True end.
Proof.
  induction 1 as [|tr w1 l w2 Hr IH Ha Hn]; intros q; [done|]. specialize (IH q).
  rewrite uploaded_snoc. destruct l as [l|p|p c u|p|b broken|b|j u|j c|c k f]; cbn [wnext] in Hn.
  - assert (E : match next cfg l (w_server w1), submit (event_of l) (w_uploads w1) with
      | Some (s, o), Some us => Some (World s (w_objects w1) us (w_batches w1 ++ handed_out o) (w_jobs w1)) | _, _ => None end = Some w2) by (destruct l; done).
    destruct (next cfg l (w_server w1)) as [[s o]|] eqn:Es; [|done]. destruct (submit (event_of l) (w_uploads w1)) as [us|] eqn:Eu; [|done]. injection E as <-. cbn.
    rewrite app_nil_r. unfold submit in Eu. destruct (event_of l ≫= insert_prefix) as [[p' l']|]; [|by injection Eu as <-].
    destruct (w_uploads w1 !! p') as [[cs'| |cs']|] eqn:E; try done; case_bool_decide; try done; injection Eu as <-; [|done].
    destruct (decide (p' = q)) as [->|Hne]; [|by rewrite lookup_insert_ne]. by rewrite lookup_insert, E in *.
  - destruct (w_uploads w1 !! p) eqn:Ep; [done|]. injection Hn as <-. cbn. rewrite app_nil_r. destruct (decide (p = q)) as [->|Hne]; [|by rewrite lookup_insert_ne]. by rewrite lookup_insert, Ep in *.
  - destruct (w_uploads w1 !! p) as [[cs| |]|] eqn:Ep; [|done|done|done]. destruct (store_chunk base p (N.of_nat (length cs)) Input c u (w_objects w1)) as [ok o] eqn:Eo. injection Hn as <-. cbn.
    destruct (decide (p = q)) as [->|Hne].
    + rewrite lookup_insert, Ep in *. destruct u; cbn in Eo; injection Eo as <- <-; try done. rewrite bool_decide_eq_true_2 by done. by rewrite IH.
    + rewrite lookup_insert_ne by done. destruct u; rewrite ?bool_decide_eq_false_2 by done; by rewrite app_nil_r.
  - destruct (w_uploads w1 !! p) as [[cs| |]|] eqn:Ep; [|done|done|done]. injection Hn as <-. cbn. rewrite app_nil_r. destruct (decide (p = q)) as [->|Hne]; [by rewrite lookup_insert|by rewrite lookup_insert_ne].
  - destruct (w_batches w1 !! b) as [[[|[r s] todo] got]|]; [done| |done]. injection Hn as <-. cbn. by rewrite app_nil_r.
  - destruct (w_batches w1 !! b) as [[[|[r s] todo] got]|]; [|done|done]. injection Hn as <-. cbn. by rewrite app_nil_r.
  - assert (E : w_uploads w2 = w_uploads w1) by (repeat case_match; by simplify_eq). rewrite E. cbn. by rewrite app_nil_r.
  - assert (E : w_uploads w2 = w_uploads w1) by (repeat case_match; by simplify_eq). rewrite E. cbn. by rewrite app_nil_r.
  - assert (E : w_uploads w2 = w_uploads w1) by (repeat case_match; by simplify_eq). rewrite E. cbn. by rewrite app_nil_r.
Qed.

(** *** The outputs of a completed submission *)
Lemma outputs_stay now tr w id a p s at_ : wrun cfg base work (world_start now) tr w -> fresh_ids (s_hist (w_server w)) ->
  inserted_with (s_hist (w_server w)) id a -> ia_prefix a = Some p -> reports (s_db (w_server w)) id (Completed s) ->
  (forall i, exists tr', wrun cfg base work w tr' (at_ i) /\ fresh_ids (s_hist (w_server (at_ i)))) ->
  stream_outputs base s at_ = work <$> uploaded p tr /\ Forall (fun c => is_Some (work c)) (uploaded p tr).
Proof.
  intros Hr Hf Ha Hp Hs Hat. pose proof (winv_run _ _ _ (winv_start now) Hr Hf) as I.
  destruct (wi_insert _ _ _ I _ _ _ Ha Hp) as (cs & Hcs & Hl). pose proof (uploads_run _ _ _ Hr p) as Hup. rewrite Hcs in Hup. rewrite Hup.
  destruct (attributes _ _ _ _ Hf Ha Hs) as (_ & Ht & Hpre & _). cbn in Ht, Hpre. rewrite Hl, replicate_length in Ht.
  assert (Hout : forall i, (i < length cs)%nat -> exists c out, cs !! i = Some c /\ work c = Some out /\ retrieve_chunk base p (N.of_nat i) Output (w_objects (at_ (N.of_nat i))) = Some out).
  { intros i Hi. destruct (Hat (N.of_nat i)) as (tr' & Hr' & Hf'). destruct (wrun_grows _ _ _ Hr') as [Hh Hst].
    assert (Hack : acks (s_hist (w_server w)) (id, N.of_nat i) = 1%nat) by (eapply completed_acked; [exact Hf|exact Hs|lia]).
    destruct (acks_complete (s_hist (w_server w)) (id, N.of_nat i)) as (e & out & n1 & n2 & He & Eo); [lia|].
    assert (Hf2 : fresh_ids (s_hist (w_server (at_ (N.of_nat i))))) by done. pose proof (winv_run _ _ _ I Hr' Hf2) as I'.
    assert (He' : e ∈ s_hist (w_server (at_ (N.of_nat i)))). { destruct Hh as [t ->]. apply elem_of_app. by left. }
    destruct (wi_hist _ _ _ I' _ _ _ _ _ He' Eo) as (a' & Ha' & Hg). cbn in Ha', Hg.
    assert (a' = a) as ->. { eapply inserted_with_unique; [exact Hf2|exact Ha'|]. by eapply inserted_with_mono. }
    destruct (Hg p Hp) as [o Ho]. destruct (wi_prefix _ _ _ I _ _ Hcs) as [_ Hps].
    destruct (wi_output _ _ _ I' p _ _ Hps Ho) as (cs' & c & H1 & H2 & H3). apply Hst in Hcs. rewrite Hcs in H1. injection H1 as <-. rewrite Nat2N.id in H2. eauto. }
  split.
  - unfold stream_outputs. rewrite Hpre, Hp. cbn. unfold retrieve_chunks. rewrite Ht, Nat2N.id. apply list_eq. intros k. rewrite !list_lookup_fmap.
    destruct (decide (k < length cs)%nat) as [Hk|Hk].
    + rewrite lookup_seq_lt by done. cbn. destruct (Hout k Hk) as (c & out & H1 & H2 & H3). rewrite H1. cbn. rewrite H2. f_equal. exact H3.
    + rewrite lookup_seq_ge by lia. rewrite (lookup_ge_None_2 cs) by lia. done.
  - apply Forall_lookup. intros i c Hc. destruct (Hout i) as (c' & out & H1 & H2 & _); [by eapply lookup_lt_Some|]. rewrite Hc in H1. injection H1 as <-. by rewrite H2.
Qed.
Lemma inline_outputs now tr w id a s at_ : wrun cfg base work (world_start now) tr w -> fresh_ids (s_hist (w_server w)) ->
  inserted_with (s_hist (w_server w)) id a -> ia_prefix a = None -> reports (s_db (w_server w)) id (Completed s) ->
  (forall i, exists tr', wrun cfg base work w tr' (at_ i) /\ fresh_ids (s_hist (w_server (at_ i)))) ->
  stream_outputs base s at_ = replicate (length (ia_contents a)) None.
Proof.
  intros Hr Hf Ha Hp Hs Hat. pose proof (winv_run _ _ _ (winv_start now) Hr Hf) as I.
  destruct (attributes _ _ _ _ Hf Ha Hs) as (_ & Ht & Hpre & _). cbn in Ht, Hpre.
  unfold stream_outputs. rewrite Hpre, Hp. cbn. unfold retrieve_chunks. rewrite Ht, Nat2N.id. apply list_eq. intros k. rewrite !list_lookup_fmap.
  destruct (decide (k < length (ia_contents a))%nat) as [Hk|Hk].
  - rewrite lookup_seq_lt by done. rewrite lookup_replicate_2 by done. cbn. f_equal. destruct (Hat (N.of_nat k)) as (tr' & Hr' & Hf'). pose proof (winv_run _ _ _ I Hr' Hf') as I'.
    destruct (retrieve_chunk base "" (N.of_nat k) Output (w_objects (at_ (N.of_nat k)))) as [o|] eqn:Eo; [|done].
    destruct (wi_output _ _ _ I' "" _ _ (no_char_nil _) Eo) as (cs & c & H1 & _). by destruct (wi_prefix _ _ _ I' _ _ H1).
  - rewrite lookup_seq_ge by lia. rewrite (lookup_ge_None_2 (replicate _ _)) by (rewrite replicate_length; lia). done.
Qed.
End world.

(** *** Chunks of operations *)
Lemma each_op {A B} (fa : format A) (fb : format B) (f : A -> option B) (bs : list (list A)) :
  (forall l, loads fa (dumps fa l) = Some l) -> (forall l, loads fb (dumps fb l) = Some l) ->
  Forall (fun c => is_Some (run_each_op fa fb f c)) (dumps fa <$> bs) ->
  exists outs, mapM f (concat bs) = Some outs /\ unchunk_iterator fb (run_each_op fa fb f <$> (dumps fa <$> bs)) = (outs, true).
Proof.
  intros Hfa Hfb. induction bs as [|b bs IH]; cbn; [by exists []|]. intros [[out Hb] Hbs]%Forall_cons.
  destruct (IH Hbs) as (outs & H1 & H2). cbn in H2. unfold run_each_op in Hb |- * at 1. rewrite Hfa in *. destruct (mapM f b) as [o|] eqn:Em; [|done]. cbn in *. rewrite Hfb.
  exists (o ++ outs). split.
  - apply mapM_Some in Em, H1. apply mapM_Some. by apply Forall2_app.
  - cbn in H2. rewrite H2. done.
Qed.
