(** C85, C86: requests, answers and messages on the wire. Vocabulary: Wire.v; the ranges of the Rust
    types ([u63_ok] and so on) at the start of WireProofs.v; ProducerClient.v, Server.v. *)
From Coq Require Import Ascii.
From Verif Require Import SqliteProofs SpacingProofs PropServer WireProofs ProducerClientProofs.
Local Open Scope N_scope.

(** ** C85 *)
(** Every request that a producer makes is read by the server as that request, whatever its strings
    and numbers are ... *)
Theorem C85_requests : forall q, request_ok q -> (forall p, q <> PByPrefix p) -> from_http (to_http q) = Reads q.
Proof. exact reads_request. Qed.
Print Assumptions C85_requests.
(** ... except lookups by prefix, whose prefix is put into the URL as it is: only if it means there
    what it is does it arrive. What becomes of the others: C60. *)
Theorem C85_prefix_partial : forall p, plain_prefix p -> from_http (to_http (PByPrefix p)) = Reads (PByPrefix p).
Proof. exact route_plain. Qed.
Print Assumptions C85_prefix_partial.
Example C85_requests_example :
  from_http (to_http (PInsert (Direct [Some (String zero "a"); None]) (Some "m") {[ "company" := (-7)%Z ]} (Some 10%Z))) =
    Reads (PInsert (Direct [Some (String zero "a"); None]) (Some "m") {[ "company" := (-7)%Z ]} (Some 10%Z)) /\
  to_http (PCancel 42) = Http POST "/producer/submissions/cancel/42" None /\ from_http (Http POST "/producer/submissions/cancel/42" None) = Reads (PCancel 42) /\
  from_http (to_http (PStatus 9223372036854775807)) = Reads (PStatus 9223372036854775807) /\
  from_http (Http GET "/producer/submissions/count" None) = Reads PCount /\
  from_http (Http GET "/producer/submissions/lookup_id_by_prefix/2026-09_a" None) = Reads (PByPrefix "2026-09_a").
Proof.
  split; [|split_and!; by vm_compute]. apply reads_request; [|done]. split; [done|]. split; [|intros x [= <-]; split; lia].
  intros k v [<- <-]%lookup_singleton_Some. split; lia.
Qed.

(** A number that is no id is refused before anything looks at the database. *)
Theorem C85_no_id : forall n, 2 ^ 63 <= n ->
  from_http (Http GET ("/producer/submissions/" +:+ show_n n) None) = RefusedWith 400 /\
  from_http (Http POST ("/producer/submissions/cancel/" +:+ show_n n) None) = RefusedWith 400.
Proof.
  intros n Hn. assert (param_id (show_n n) = None) as Hp.
  { unfold param_id. destruct (digits_plain _ (show_digits n) (show_nonempty n)) as (-> & _). rewrite read_show. cbn [mbind option_bind].
    by rewrite (proj2 (N.ltb_ge _ _) Hn). }
  unfold from_http. cbn [h_method h_path h_body]. rewrite route_status, route_cancel, Hp. done.
Qed.
Print Assumptions C85_no_id.
(** Nor can any other message carry one, in any place where an id, an index or a count is read. *)
Theorem C85_ids_checked : forall w n, dec_u63 w = Some n -> n < 2 ^ 63.
Proof.
  intros w n. unfold dec_u63. destruct (dec_u64 w) as [m|]; [|done]. cbn [mbind option_bind]. destruct (m <? 2 ^ 63) eqn:E; [|done].
  intros [= <-]. by apply N.ltb_lt.
Qed.
Print Assumptions C85_ids_checked.
(** The values of metadata and the sizes of chunks that the server reads are 64-bit numbers. *)
Lemma dec_i64_ok w z : dec_i64 w = Some z -> (- 2 ^ 63 <= z < 2 ^ 63)%Z.
Proof. unfold dec_i64. destruct w; try done. destruct (_ && _) eqn:E; [|done]. intros [= <-]. apply andb_prop in E as [?%Z.leb_le ?%Z.ltb_lt]. done. Qed.
Lemma dec_strat_ok w m k v : dec_strat w = Some m -> m !! k = Some v -> (- 2 ^ 63 <= v < 2 ^ 63)%Z.
Proof.
  unfold dec_strat. destruct w as [| | | |l]; try done. intros H Hm. apply fmap_Some in H as (l' & H & ->). apply elem_of_list_to_map_2 in Hm. rewrite elem_of_reverse in Hm.
  apply mapM_Some in H. apply elem_of_list_lookup in Hm as [i Hi]. destruct (Forall2_lookup_r _ _ _ _ _ H Hi) as (x & _ & Hx).
  apply fmap_Some in Hx as (z & Hz & E). injection E as _ ->. by eapply dec_i64_ok.
Qed.
Theorem C85_values_checked : forall h q, from_http h = Reads q ->
  match q with
  | PInsert _ _ m z => (forall k v, m !! k = Some v -> - 2 ^ 63 <= v < 2 ^ 63)%Z /\ (forall v, z = Some v -> - 2 ^ 63 <= v < 2 ^ 63)%Z
  | PByMeta m => (forall k v, m !! k = Some v -> - 2 ^ 63 <= v < 2 ^ 63)%Z
  | _ => True
  end.
Proof.
  intros h q H. destruct q as [c m st z| | | |m| |]; try done; unfold from_http in H.
  - assert (Hi : exists b, dec_insert b = Some (PInsert c m st z)).
    { unfold of_option in H. repeat case_match; simplify_eq; try done; eauto; try (by destruct (param_id _)); by destruct (dec_strat _). }
    destruct Hi as [b Hi]. unfold dec_insert in Hi. repeat (apply bind_Some in Hi as (? & ? & Hi)). injection Hi as -> -> -> ->. split.
    + intros k v Hv. match goal with X : fld "strategic_metadata" _ _ _ = _ |- _ => unfold fld in X; destruct (filter _ _) as [|y [|? ?]]; try done end.
      * by simplify_eq.
      * by eapply dec_strat_ok.
    + intros v ->. match goal with X : fld "chunk_size" _ _ _ = _ |- _ => unfold fld in X; destruct (filter _ _) as [|y [|? ?]]; try done;
        unfold dec_opt in X; destruct y.2; try done; apply fmap_Some in X as (? & X & [= <-]); by apply dec_i64_ok in X end.
  - assert (Hi : exists b, dec_strat b = Some m).
    { unfold of_option in H. repeat case_match; simplify_eq; try done; eauto;
        repeat match goal with X : _ <$> _ = Some _ |- _ => apply fmap_Some in X as (? & ? & X); simplify_eq; eauto end;
        match goal with X : dec_insert _ = Some _ |- _ => unfold dec_insert in X; repeat (apply bind_Some in X as (? & ? & X)); discriminate X end. }
    destruct Hi as [b Hi]. intros k v. by eapply dec_strat_ok.
Qed.
Print Assumptions C85_values_checked.

(** What an answer may be, given the request: the handlers give each request its kind of body, and
    never call a submission in progress not cancellable. *)
Definition kind_ok (q : request) (r : response) : Prop :=
  match r with
  | Http200 b =>
    match q, b with
    | PInsert _ _ _ _, BId _ | PCancel _, BNone | PStatus _, BStatus _ | PByPrefix _, BMaybeId _ | PByMeta _, BIds _
    | PCount, BCount _ | PCountCompleted, BCount _ => True
    | _, _ => False
    end
  | Http400 _ => exists m, q = PByMeta m
  | Http404 _ => exists i, q = PCancel i
  | Http409 st => (exists i, q = PCancel i) /\ forall s, st <> InProgress s
  | Http500 _ | HttpPanic => True
  end.
(** The numbers in an answer are values of their Rust types. *)
Definition range_ok (r : response) : Prop :=
  match r with
  | Http200 (BId i) => u63_ok i
  | Http200 (BMaybeId o) => forall i, o = Some i -> u63_ok i
  | Http200 (BIds l) => Forall u63_ok l
  | Http200 (BStatus o) => forall s, o = Some s -> status_ok s
  | Http200 (BCount n) => u64_ok n
  | Http200 BNone => True
  | Http400 max => u64_ok max | Http404 i => u63_ok i | Http409 st => status_ok st
  | Http500 _ | HttpPanic => True
  end.
(** [p] cannot return anything but [P]. *)
Fixpoint only {A} (P : A -> Prop) (p : prog A) : Prop :=
  match p with
  | Ret a => P a
  | Begin k => forall b, only P (k b)
  | Commit k => forall b, only P (k b)
  | Rollback k => only P k
  | Sql R f k => forall r, only P (k r)
  end.
Lemma only_run {A} (P : A -> Prop) p : only P p -> forall c fs, P (fst (fst (run p c fs))).
Proof.
  induction p as [a|k IH|k IH|k IH|R f k IH]; cbn [only]; intros H c fs; cbn [run]; unfold run; fold (@run A).
  - done.
  - destruct (next_fault fs) as [[] fs']; by apply IH.
  - destruct (next_fault fs) as [b fs'], (c_saved c); [by apply IH|]. destruct b; by apply IH.
  - destruct (c_saved c); by apply IH.
  - destruct (next_fault fs) as [[] fs']; [by apply IH|]. destruct (f (c_cur c)) as [[r d]|e]; by apply IH.
Qed.
Lemma only_bind {A B} (Q : A -> Prop) (P : B -> Prop) (p : prog A) g : only Q p -> (forall a, Q a -> only P (g a)) -> only P (bind p g).
Proof.
  intros Hp Hg. induction p as [a|k IH|k IH|k IH|R f k IH]; unfold bind; fold (@bind A B); cbn [only] in *; auto.
Qed.
Lemma only_any {A} (p : prog A) : only (fun _ => True) p.
Proof. induction p; cbn [only]; auto. Qed.
Lemma only_tryb {A B} (P : res B -> Prop) (p : M A) g : (forall a, only P (g a)) -> (forall e, P (Err e)) -> P Panicked -> only P (tryb p g).
Proof.
  intros H1 H2 H3. unfold tryb. apply (only_bind (fun _ => True)); [apply only_any|]. intros [a|e|] _; [apply H1|apply H2|apply H3].
Qed.
Definition not_progress {A} (r : res A) : Prop := forall s, r <> Err (ENotCancellable (InProgress s)).
Lemma only_sql {R : Set} (f : stmt R) : only not_progress (sql f).
Proof. unfold sql. cbn [only]. intros [a|e]; intros s; discriminate. Qed.
Lemma only_try2 {A B} (p : M A) (g : A -> M B) : only not_progress p -> (forall a, only not_progress (g a)) -> only not_progress (tryb p g).
Proof.
  intros H1 H2. unfold tryb. apply (only_bind not_progress); [done|]. intros [a|e|] H; [apply H2| |intros s; discriminate].
  intros s [= ->]. by apply (H s).
Qed.
Lemma status_only id : only not_progress (submission_status id).
Proof.
  unfold submission_status, get_chunk_failed, read.
  repeat first [apply only_sql | (intros ?; discriminate) | case_match | apply only_try2; [|intros ?]].
Qed.
Lemma cancel_only id n1 n2 : only not_progress (cancel_submission id n1 n2).
Proof.
  unfold cancel_submission, transaction. cbn [only]. intros [e|]; [intros s; discriminate|].
  apply (only_bind not_progress).
  - apply (only_bind not_progress).
    + unfold cancel_submission_notx, cancel_submission_raw, skip_remaining_chunks.
      repeat first [apply only_sql | (intros ?; discriminate) | case_match | apply only_try2; [|intros ?]].
    + intros [a|e|] H; [by intros s| |by intros s]. destruct e as [e|i|st]; [by intros s| |].
      * apply only_try2; [apply status_only|]. intros [[s|s|s c|s]|]; intros ?; discriminate.
      * intros s [= ->]. by apply (H s).
  - intros [a|e|] H; cbn [only]; [intros []; intros ?; discriminate|exact H|by intros s].
Qed.
Lemma handle_kind max id otel n1 n2 q d fs : kind_ok q (fst (exec (handle max id otel n1 n2 q) d fs)).
Proof.
  unfold handle. destruct q as [c m st z|i|i|p|m| |].
  1: destruct (contents_of c) as [pre l].
  all: rewrite exec_map; cbn [fst].
  2: {
    destruct (exec (cancel_submission i n1 n2) d fs) as [r d'] eqn:E. cbn [fst].
    assert (not_progress r) as Hr.
    { replace r with (fst (exec (cancel_submission i n1 n2) d fs)) by by rewrite E. unfold exec.
      pose proof (only_run _ _ (cancel_only i n1 n2) (conn_of d) fs) as H. by destruct (run _ _ _) as [[? ?] ?]. }
    destruct r as [a|e|]; [done| |done]. destruct e as [e|j|st]; cbn [cancel_response kind_ok]; [done|by exists i|].
    split; [by exists i|]. intros s ->. by apply (Hr s).
  }
  4: destruct (fst _) as [[ids|mx]|e|]; cbn [by_meta_response kind_ok]; [done|by exists m|done|done].
  all: by destruct (fst _).
Qed.
(** Over the wire and back, a call means what it means to the handler: the server carries out the
    request and the client makes of its answer what it would make of the answer itself. This holds
    whatever faults the database met. *)
Theorem C85_calls : forall max id otel n1 n2 q d fs,
  request_ok q -> (forall p, q <> PByPrefix p) ->
  exists q', from_http (to_http q) = Reads q' /\
    forall r, r = fst (exec (handle max id otel n1 n2 q') d fs) -> range_ok r ->
      from_answer q (to_answer r) = outcome q (XResp (fst (exec (handle max id otel n1 n2 q) d fs)) None).
Proof.
  intros max id otel n1 n2 q d fs Hq Hp. exists q. split; [by apply reads_request|]. intros r -> Hr. apply reads_answer.
  pose proof (handle_kind max id otel n1 n2 q d fs) as Hk. destruct (fst _) as [b|mx|i|st|e|]; cbn [answer_ok range_ok kind_ok] in *; try done.
  - destruct q, b; done.
  - destruct Hk as [_ Hk]. done.
Qed.
Print Assumptions C85_calls.
(** The same for the lookup by prefix, with the prefix that arrives. *)
Theorem C85_prefix_call : forall max id otel n1 n2 p p' d fs, from_http (to_http (PByPrefix p)) = Reads (PByPrefix p') ->
  forall r, r = fst (exec (handle max id otel n1 n2 (PByPrefix p')) d fs) -> range_ok r ->
    from_answer (PByPrefix p) (to_answer r) = outcome (PByPrefix p) (XResp r None).
Proof.
  intros max id otel n1 n2 p p' d fs Hp r -> Hr. apply reads_answer.
  pose proof (handle_kind max id otel n1 n2 (PByPrefix p') d fs) as Hk. destruct (fst _) as [b|mx|i|st|e|]; cbn [answer_ok range_ok kind_ok] in *; try done.
  - by destruct b.
  - destruct Hk as [_ Hk]. done.
Qed.
Print Assumptions C85_prefix_call.
(** For example: a submission that failed, asked for and cancelled over the wire. *)
Definition ex_failed : history :=
  [quiet (OInsert 1 (Some "p") [Some "x"; None] (Some "m") {[ "k" := 5%Z ]} 10 "o" 1); quiet (OFail (1, 1) "boom" 0 7 7 7)].
Example C85_calls_example : exists s c,
  fst (exec (handle 100 9 "" 1 1 (PStatus 1)) (after ex_failed) []) = Http200 (BStatus (Some (Failed s c))) /\ range_ok (Http200 (BStatus (Some (Failed s c)))) /\
  from_answer (PStatus 1) (to_answer (Http200 (BStatus (Some (Failed s c))))) = inr (BStatus (Some (Failed s c))) /\
  from_answer (PCancel 1) (to_answer (fst (exec (handle 100 9 "" 1 1 (PCancel 1)) (after ex_failed) []))) = inl (CNotCancellable (Failed s c)) /\
  kf_failure c = "boom" /\ sf_meta s = Some "m".
Proof.
  destruct (fst (exec (handle 100 9 "" 1 1 (PStatus 1)) (after ex_failed) [])) as [[| | | |[[]|]|]| | | | |] eqn:E; vm_compute in E; try discriminate.
  injection E as <- <-. eexists _, _. split; [done|]. split.
  { intros s [= <-]. cbn [status_ok failed_ok chunk_failed_ok sf_id sf_total sf_done sf_size sf_strat sf_chunk sf_at kf_sub kf_index kf_at]. unfold failed_ok, chunk_failed_ok, u63_ok, i64_ok, Rfc3339.time_ok.
    cbn [sf_id sf_total sf_done sf_size sf_strat sf_chunk sf_at kf_sub kf_index kf_at]. split_and!; try lia.
    - intros n. intros [= <-]. lia.
    - apply map_Forall_to_list, Forall_forall. intros [k v] Hin. vm_compute in Hin. apply elem_of_list_singleton in Hin as [= -> ->]. split; lia. }
  split_and!; by vm_compute.
Qed.

(** The messages between consumers and the server, both ways. [n] bounds the nesting of the
    strategy that the reader follows. *)
Theorem C85_messages : 
  (forall e n, u64_ok (e_nonce e) -> client_msg_ok (e_msg e) -> (msg_nesting (e_msg e) <= n)%nat -> dec_to_server n (enc_to_server e) = Some e) /\
  (forall m, server_msg_ok m -> dec_to_client (enc_to_client m) = Some m).
Proof. split; [exact (fun e n => dec_enc_to_server e n)|exact dec_enc_to_client]. Qed.
Print Assumptions C85_messages.
(** Hence no two different messages look alike. *)
Corollary C85_distinct : forall m m', server_msg_ok m -> server_msg_ok m' -> enc_to_client m = enc_to_client m' -> m = m'.
Proof. intros m m' H H' E. pose proof (dec_enc_to_client m H) as E1. rewrite E, dec_enc_to_client in E1 by done. congruence. Qed.
Print Assumptions C85_distinct.
Definition ex_pair : chunk * submission := (Chunk 1 0 (Some (String zero "")) 2, Submission 1 None 2 0 10 (Some "m") {[ "k" := 5%Z ]} "o").
Example C85_messages_example :
  dec_to_server 2 (enc_to_server (ToServer 3 (WantToReserve 5 (PreferDistinct "company" Random)))) = Some (ToServer 3 (WantToReserve 5 (PreferDistinct "company" Random))) /\
  dec_to_client (enc_to_client (SReserved 3 (Some [ex_pair]))) = Some (SReserved 3 (Some [ex_pair])) /\
  dec_to_client (enc_to_client (SReserved 3 None)) = Some (SReserved 3 None).
Proof. split_and!; by vm_compute. Qed.

(** Producers that leave out the optional members, or send others that the server does not know, in
    any order. *)
Definition insert_members : list string := ["chunk_contents"; "metadata"; "strategic_metadata"; "chunk_size"].
Theorem C85_lenient : forall c m st z meta_there strat_there size_there extra l,
  request_ok (PInsert c m st z) -> (meta_there = false -> m = None) -> (strat_there = false -> st = ∅) -> (size_there = false -> z = None) ->
  (forall k, k ∈ extra.*1 -> k ∉ insert_members) ->
  l ≡ₚ [("chunk_contents", enc_contents c)] ++ (if meta_there : bool then [("metadata", enc_opt enc_bytes m)] else []) ++
    (if strat_there : bool then [("strategic_metadata", enc_strat st)] else []) ++ (if size_there : bool then [("chunk_size", enc_opt WNum z)] else []) ++ extra ->
  from_http (Http POST "/producer/submissions" (Some (WObj l))) = Reads (PInsert c m st z).
Proof.
  intros c m st z bm bs bz extra l (H1 & H2 & H3) Hm Hs Hz Hx Hl. unfold from_http. cbn [h_method h_path h_body].
  change (route POST "/producer/submissions") with (RouteTo HInsert []). cbn [of_option].
  assert (forall k, k ∈ insert_members -> k ∉ extra.*1) as Hk by (intros k Hk Hin; by destruct (Hx k Hin)). clear Hx.
  assert (dec_insert (WObj l) = Some (PInsert c m st z)) as ->; [|done]. rewrite (dec_insert_perm _ _ Hl). clear l Hl.
  assert (forall {A} k (f : wire -> option A) ab, k ∈ insert_members -> fld k f ab extra = ab) as He by (intros; apply fld_absent; auto).
  assert (forall {A} k w (f : wire -> option A) ab, k ∈ insert_members -> fld k f ab ((k, w) :: extra) = f w) as Hh by (intros; apply field_hit; auto).
  assert (dec_opt dec_i64 (enc_opt WNum z) = Some z) as Ez by (apply dec_enc_opt; intros a Ha; split; [by apply dec_enc_i64, H3|done]).
  assert (Hin : forall i k, insert_members !! i = Some k -> k ∈ insert_members) by (intros; by eapply elem_of_list_lookup_2).
  pose proof (Hin 0%nat _ eq_refl) as I0. pose proof (Hin 1%nat _ eq_refl) as I1. pose proof (Hin 2%nat _ eq_refl) as I2. pose proof (Hin 3%nat _ eq_refl) as I3.
  assert (forall {A} k (f : wire -> option A) ab e, fld k f ab ((k, e) :: ([] ++ extra)) = f e -> True) as _ by done.
  unfold dec_insert. cbn [members mbind option_bind].
  assert (forall {A} k w (f : wire -> option A) ab r, k ∉ r.*1 -> fld k f ab ((k, w) :: r) = f w) as Hh' by (intros; by apply field_hit).
  pose proof (Hk _ I0) as N0. pose proof (Hk _ I1) as N1. pose proof (Hk _ I2) as N2. pose proof (Hk _ I3) as N3.
  destruct bm, bs, bz; rewrite ?(Hm eq_refl), ?(Hs eq_refl), ?(Hz eq_refl) in *; cbn [app];
    repeat first [rewrite field_miss by discriminate
      | rewrite (field_hit _ _ _ _ _) by (rewrite ?fmap_cons; cbn [fst]; rewrite ?not_elem_of_cons; repeat (split; [discriminate|]); done)
      | rewrite He by done | rewrite dec_enc_contents by done | rewrite dec_enc_obytes | rewrite dec_enc_strat by done | rewrite Ez | progress cbn [mbind option_bind]];
    done.
Qed.
Print Assumptions C85_lenient.
Example C85_lenient_example :
  from_http (Http POST "/producer/submissions" (Some (WObj [("new", WNull); ("metadata", WNull); ("chunk_contents", enc_contents (SeeObjectStorage "p" 3))]))) =
  Reads (PInsert (SeeObjectStorage "p" 3) None ∅ None).
Proof. by vm_compute. Qed.

(** Answers of servers that leave out members that say that there is nothing, or add others, in any
    order. *)
Definition nothing_said : list (string * wire) :=
  [("prefix", WNull); ("metadata", WNull); ("strategic_metadata", WObj []); ("chunks_done", WNull); ("input_content", WNull)].
Theorem C85_lenient_answers : forall l l', lenient nothing_said l l' ->
  (forall s, submission_ok s -> enc_submission s = WObj l -> dec_submission (WObj l') = Some s) /\
  (forall s, completed_ok s -> enc_completed s = WObj l -> dec_completed (WObj l') = Some s) /\
  (forall s, failed_ok s -> enc_failed s = WObj l -> dec_failed (WObj l') = Some s) /\
  (forall s, cancelled_ok s -> enc_cancelled s = WObj l -> dec_cancelled (WObj l') = Some s) /\
  (forall c, chunk_ok c -> enc_chunk c = WObj l -> dec_chunk (WObj l') = Some c) /\
  (forall c, chunk_failed_ok c -> enc_chunk_failed c = WObj l -> dec_chunk_failed (WObj l') = Some c).
Proof.
  intros l l' Hl.
  assert (forall {A} k (f : wire -> option A) ab names, l.*1 = names -> bool_decide (NoDup names) = true -> bool_decide (k ∈ names) = true ->
    Forall (fun x => k = x.1 -> f x.2 = ab) nothing_said -> fld k f ab l' = fld k f ab l) as Hf.
  { intros A k f ab names <- H1 H2 H3. eapply fld_lenient; [exact Hl|by apply bool_decide_eq_true in H1|by apply bool_decide_eq_true in H2|].
    intros w Hin. rewrite Forall_forall in H3. by apply (H3 (k, w)). }
  split_and!; intros s Hs E.
  - rewrite <- (dec_enc_submission s Hs), E. unfold dec_submission. cbn [members mbind option_bind]. injection E as E.
    by repeat (erewrite Hf; [|rewrite <- E; cbn [fmap list_fmap fst]; reflexivity|vm_compute; reflexivity|vm_compute; reflexivity|repeat constructor; discriminate]).
  - rewrite <- (dec_enc_completed s Hs), E. unfold dec_completed. cbn [members mbind option_bind]. injection E as E.
    by repeat (erewrite Hf; [|rewrite <- E; cbn [fmap list_fmap fst]; reflexivity|vm_compute; reflexivity|vm_compute; reflexivity|repeat constructor; discriminate]).
  - rewrite <- (dec_enc_failed s Hs), E. unfold dec_failed. cbn [members mbind option_bind]. injection E as E.
    by repeat (erewrite Hf; [|rewrite <- E; cbn [fmap list_fmap fst]; reflexivity|vm_compute; reflexivity|vm_compute; reflexivity|repeat constructor; discriminate]).
  - rewrite <- (dec_enc_cancelled s Hs), E. unfold dec_cancelled. cbn [members mbind option_bind]. injection E as E.
    by repeat (erewrite Hf; [|rewrite <- E; cbn [fmap list_fmap fst]; reflexivity|vm_compute; reflexivity|vm_compute; reflexivity|repeat constructor; discriminate]).
  - rewrite <- (dec_enc_chunk s Hs), E. unfold dec_chunk. cbn [members mbind option_bind]. injection E as E.
    by repeat (erewrite Hf; [|rewrite <- E; cbn [fmap list_fmap fst]; reflexivity|vm_compute; reflexivity|vm_compute; reflexivity|repeat constructor; discriminate]).
  - rewrite <- (dec_enc_chunk_failed s Hs), E. unfold dec_chunk_failed. cbn [members mbind option_bind]. injection E as E.
    by repeat (erewrite Hf; [|rewrite <- E; cbn [fmap list_fmap fst]; reflexivity|vm_compute; reflexivity|vm_compute; reflexivity|repeat constructor; discriminate]).
Qed.
Print Assumptions C85_lenient_answers.
Example C85_lenient_answers_example :
  let s := SubmissionCompleted 7 None 2 1 None ∅ 55 "o" in
  exists l l', enc_completed s = WObj l /\ length l = 8%nat /\ length l' = 6%nat /\ lenient nothing_said l l' /\ completed_ok s /\ dec_completed (WObj l') = Some s.
Proof.
  cbn zeta. eexists _, [("id", WNum 7); ("new", WNull); ("chunks_total", WNum 2); ("otel_trace_carrier", WText "o"); ("completed_at", enc_time 55); ("chunk_size", WNum 1)].
  split; [reflexivity|]. split; [done|]. split; [done|]. split; [|split; [|by vm_compute]].
  - exists [("id", WNum 7); ("chunks_total", WNum 2); ("otel_trace_carrier", WText "o"); ("completed_at", enc_time 55); ("chunk_size", WNum 1)],
      [("prefix", WNull); ("metadata", WNull); ("strategic_metadata", WObj [])], [("new", WNull)]. split_and!.
    + vm_compute. solve_Permutation.
    + vm_compute. solve_Permutation.
    + intros x. unfold nothing_said. rewrite !elem_of_cons. tauto.
    + intros k Hk. cbn in Hk. apply elem_of_list_singleton in Hk as ->. apply (bool_decide_unpack _). by vm_compute.
  - unfold completed_ok, u63_ok, i64_ok, Rfc3339.time_ok. cbn. split_and!; try lia. apply map_Forall_empty.
Qed.
(** ** C86 *)
(** The attempts of a request whose body is over the limit: the server answers 413 without running
    the handler, unless the network fails. *)
Definition limited (q : request) (a : attempt) : Prop :=
  body_limit < request_size q -> match a with Served _ => False | Intercepted c => c = 413 | NotServed _ => True end.
(** An insert with the chunks in the request fits if a quarter of the limit is not exceeded by much:
    a byte takes up to four characters. *)
Theorem C86_insert_partial : forall l m, 4 * contents_bytes l + 5 * N.of_nat (length l) + 4 * obytes m + 103 <= body_limit ->
  request_size (PInsert (Direct l) m ∅ None) <= body_limit.
Proof.
  intros l m H. rewrite insert_size. pose proof (json_direct l). pose proof (json_obytes m). change (json_len (enc_strat ∅)) with 2. change (json_len (enc_opt WNum None)) with 4. lia.
Qed.
Print Assumptions C86_insert_partial.
(** Beyond 1 MiB of contents no insert goes through, whatever the contents are: the call ends with an
    error and nothing is stored; the answer 413 is not retried. *)
Theorem C86_insert_refuted : forall l m st z, 2 ^ 20 < contents_bytes l ->
  forall d tries, Forall (limited (PInsert (Direct l) m st z)) tries ->
  (forall res d' n, call (PInsert (Direct l) m st z) d tries = Some (res, d', n) -> d' = d /\ exists e, res = inl e) /\
  (forall rest, tries = Intercepted 413 :: rest -> call (PInsert (Direct l) m st z) d tries = Some (inl (CStatus 413), d, 1%nat)).
Proof.
  intros l m st z Hl d tries Ht. assert (body_limit < request_size (PInsert (Direct l) m st z)) as Hb.
  { rewrite insert_size. pose proof (json_direct l). change body_limit with (2 * 2 ^ 20). lia. }
  split; [|intros rest ->; done]. unfold call. generalize max_retries_http. intros k. revert d k. clear Hl. induction Ht as [|a tries Ha Ht IH]; [done|].
  intros d k res d' n. specialize (Ha Hb). destruct a as [e|c|s]; [| |done].
  - cbn [call_from attempt_run outcome]. destruct (is_ephemeral (CHttp e)); [|intros [= <- <- <-]; by eauto].
    destruct k as [|k]; [intros [= <- <- <-]; by eauto|].
    destruct (call_from _ k d tries) as [[[r d2] n2]|] eqn:E; [|done]. intros [= <- <- <-]. by eapply IH.
  - subst c. cbn [call_from attempt_run outcome]. intros [= <- <- <-]. by eauto.
Qed.
Print Assumptions C86_insert_refuted.
Lemma bytes_repeat c n : bytes (string_of_list_ascii (replicate (N.to_nat n) c)) = n.
Proof.
  unfold bytes. assert (forall k, String.length (string_of_list_ascii (replicate k c)) = k) as H by (induction k; cbn [replicate string_of_list_ascii String.length]; auto).
  rewrite H. lia.
Qed.
(** For example one chunk of 1 MiB and a byte. *)
Example C86_insert_example : exists l, length l = 1%nat /\ 2 ^ 20 < contents_bytes l.
Proof. exists [Some (string_of_list_ascii (replicate (N.to_nat (2 ^ 20 + 1)) "0"%char))]. split; [done|]. unfold contents_bytes. rewrite fmap_cons, sum_cons. cbn [obytes]. rewrite bytes_repeat. change (sum_n (obytes <$> [])) with 0. lia. Qed.

(** The reply to a reservation carries the metadata of the submission with every chunk. It fits if
    this adds up to less than half of the limit. *)
Theorem C86_reply_partial : forall n l, sum_n (pair_max <$> l) + 80 <= frame_limit -> ~ too_large (enc_to_client (SReserved n (Some l))).
Proof. intros n l H. unfold too_large. pose proof (reply_size n l). lia. Qed.
Print Assumptions C86_reply_partial.
(** But a submission that the server accepts, of 33 chunks in the object store and with half a
    megabyte of metadata, makes the reply too large for a consumer that asks for all its chunks.
    (The consumer's connection ends with an error at that message; the next one asks again.) *)
Definition big_insert (M : string) : request := PInsert (SeeObjectStorage "p" 33) (Some M) ∅ None.
Definition big_history (M : string) : history := [quiet (OInsert 1 (Some "p") (replicate 33 None) (Some M) ∅ 1 "o" 1)].
Definition ask_33 : list (state -> label) := [do (LConnect 1); ask 1 33] ++ concat (replicate 33 (does [LRow 1; LJoin 1 false])) ++ [do (LReply 1)].
Lemma play_prop cfg okb (ok : trace -> state -> label -> Prop) h now ls (P : trace -> state -> Prop) : (forall tr s l, okb tr s l = true -> ok tr s l) ->
  match play cfg okb ls [] (server_start h now) with Some (tr, s) => P tr s | None => False end ->
  exists tr s, run_to cfg ok (server_start h now) tr s /\ P tr s.
Proof.
  intros Hok Hp. destruct (play cfg okb ls [] (server_start h now)) as [[tr s]|] eqn:E; [|done]. exists tr, s. split; [|done].
  eapply play_run; [exact Hok|exact E|constructor].
Qed.
Theorem C86_reply_refuted : forall M, bytes M = 508401 ->
  request_size (big_insert M) <= body_limit /\
  (exists t, big_history M = attempt_events (insert_op (SeeObjectStorage "p" 33) (Some M) ∅ None) [Served t]) /\
  exists tr s l, run_to ex_cfg (orderly ex_cfg) (server_start (big_history M) 100) tr s /\
    last tr = Some (LReply 1, [Given 1 77 l]) /\ length l = 33%nat /\ too_large (enc_to_client (SReserved 77 (Some l))).
Proof.
  intros M HM. split; [|split].
  - unfold big_insert. rewrite insert_size. pose proof (json_obytes (Some M)) as H. cbn [obytes] in H. rewrite HM in H.
    change (json_len (enc_contents (SeeObjectStorage "p" 33))) with 46. change (json_len (enc_strat ∅)) with 2. change (json_len (enc_opt WNum None)) with 4.
    change body_limit with 2097152. lia.
  - by exists (Serving [] 0 1 "o" 1 0 [] None None None).
  - destruct (play_prop ex_cfg (orderly_b ex_cfg) (orderly ex_cfg) (big_history M) 100 ask_33
      (fun tr s => exists l, last tr = Some (LReply 1, [Given 1 77 l]) /\ (fun cs : chunk * submission => s_meta cs.2) <$> l = replicate 33 (Some M))) as (tr & s & Hr & l & Hl & H).
    + intros. by apply orderly_by.
    + vm_compute. eexists. split; reflexivity.
    + exists tr, s, l. split; [done|]. split; [done|].
      assert (length l = 33%nat) as Hn by by rewrite <- (fmap_length (fun cs : chunk * submission => s_meta cs.2)), H. split; [done|].
      unfold too_large. pose proof (reply_size 77 l) as [Hs _].
      pose proof (sum_ge pair_min 508401 l) as Hg. rewrite Hn in Hg. change frame_limit with 16777216.
      assert (508401 * N.of_nat 33 <= sum_n (pair_min <$> l)); [|lia]. apply Hg. intros cs Hin. unfold pair_min.
      assert (s_meta cs.2 = Some M) as ->; [|cbn [obytes]; lia].
      assert (s_meta cs.2 ∈ replicate 33 (Some M)) as Hx by (rewrite <- H; apply elem_of_list_fmap; by exists cs).
      by apply elem_of_replicate in Hx as [-> _].
Qed.
Print Assumptions C86_reply_refuted.
Example C86_reply_example : exists M, bytes M = 508401.
Proof. exists (string_of_list_ascii (replicate (N.to_nat 508401) "m"%char)). apply bytes_repeat. Qed.

(** The report on a chunk carries its output. It fits if the output has less than half of the
    limit; an output beyond the limit makes it too large for the server, whatever it is. (For the
    consumer the report counts as sent: C58.) *)
Theorem C86_report_partial : forall n k o, 2 * obytes o + 150 <= frame_limit -> ~ too_large (enc_to_server (ToServer n (CompleteMsg k o))).
Proof. intros n k o H. unfold too_large. pose proof (report_size n k o). lia. Qed.
Print Assumptions C86_report_partial.
Theorem C86_report_refuted : forall n k o, frame_limit < obytes o -> too_large (enc_to_server (ToServer n (CompleteMsg k o))).
Proof. intros n k o H. unfold too_large. pose proof (report_size n k o). lia. Qed.
Print Assumptions C86_report_refuted.
Example C86_report_example : exists s, frame_limit < obytes (Some s).
Proof. exists (string_of_list_ascii (replicate (N.to_nat (2 ^ 25)) "m"%char)). cbn [obytes]. rewrite bytes_repeat. change frame_limit with 16777216. change (2 ^ 25) with 33554432. lia. Qed.
