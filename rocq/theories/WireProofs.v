(** Lemmas about Wire.v: what is written is read back, and the sizes of messages. *)
From Coq Require Import Ascii DecimalString DecimalN DecimalPos.
From Coq Require DecimalFacts.
From Verif Require Export Wire Server UrlProofs.
From Verif Require Import Rfc3339 Rfc3339Proofs.
Local Open Scope N_scope.

(** *** The values of the Rust types *)
Definition u63_ok (n : N) : Prop := n < 2 ^ 63.
Definition u64_ok (n : N) : Prop := n < 2 ^ 64.
Definition i64_ok (z : Z) : Prop := (- 2 ^ 63 <= z < 2 ^ 63)%Z.
Definition cid_ok (k : chunk_id) : Prop := u63_ok k.1 /\ u63_ok k.2.
Definition strat_ok (m : strat_map) : Prop := map_Forall (fun _ v => i64_ok v) m.
Definition chunk_ok (c : chunk) : Prop := u63_ok (c_sub c) /\ u63_ok (c_index c) /\ u63_ok (c_retries c).
Definition chunk_failed_ok (c : chunk_failed) : Prop := u63_ok (kf_sub c) /\ u63_ok (kf_index c) /\ time_ok (kf_at c).
Definition submission_ok (s : submission) : Prop :=
  u63_ok (s_id s) /\ u63_ok (s_total s) /\ u63_ok (s_done s) /\ i64_ok (s_size s) /\ strat_ok (s_strat s).
Definition completed_ok (s : submission_completed) : Prop :=
  u63_ok (sc_id s) /\ u63_ok (sc_total s) /\ i64_ok (sc_size s) /\ strat_ok (sc_strat s) /\ time_ok (sc_at s).
Definition failed_ok (s : submission_failed) : Prop :=
  u63_ok (sf_id s) /\ u63_ok (sf_total s) /\ (forall n, sf_done s = Some n -> u63_ok n) /\ i64_ok (sf_size s) /\ strat_ok (sf_strat s) /\ u63_ok (sf_chunk s) /\ time_ok (sf_at s).
Definition cancelled_ok (s : submission_cancelled) : Prop :=
  u63_ok (sx_id s) /\ u63_ok (sx_total s) /\ u63_ok (sx_done s) /\ strat_ok (sx_strat s) /\ time_ok (sx_at s).
Definition status_ok (s : status) : Prop :=
  match s with
  | InProgress s => submission_ok s | Completed s => completed_ok s
  | Failed s c => failed_ok s /\ chunk_failed_ok c | Cancelled s => cancelled_ok s
  end.

(** *** Reading back *)
Lemma field_hit {A} k (f : wire -> option A) ab w l : k ∉ l.*1 -> fld k f ab ((k, w) :: l) = f w.
Proof.
  intros H. unfold fld. rewrite filter_cons_True; [|done].
  assert (filter (fun x : string * wire => x.1 = k) l = []) as ->; [|done].
  apply filter_nil_not_elem_of || idtac. destruct (filter _ l) as [|x r] eqn:E; [done|].
  assert (x ∈ filter (fun x : string * wire => x.1 = k) l) as Hx by (rewrite E; left).
  apply elem_of_list_filter in Hx as [Hx Hin]. destruct H. rewrite <- Hx. apply elem_of_list_fmap. by exists x.
Qed.
Lemma field_miss {A} k k' (f : wire -> option A) ab w l : k' <> k -> fld k f ab ((k', w) :: l) = fld k f ab l.
Proof. intros H. unfold fld. by rewrite filter_cons_False. Qed.
Lemma field_nil {A} k (f : wire -> option A) ab : fld k f ab [] = ab.
Proof. done. Qed.
Ltac distinct := by (apply (bool_decide_unpack _); vm_compute).
Ltac fields := repeat first [rewrite field_hit by distinct | rewrite field_miss by discriminate | rewrite field_nil].

Lemma dec_enc_n b n : n < b -> dec_n b (enc_n n) = Some n.
Proof.
  intros H. unfold dec_n, enc_n. assert (0 <=? Z.of_N n = true)%Z as -> by (apply Z.leb_le; lia).
  assert (Z.of_N n <? Z.of_N b = true)%Z as -> by (apply Z.ltb_lt; lia). cbn [andb]. by rewrite N2Z.id.
Qed.
Lemma dec_enc_u64 n : u64_ok n -> dec_u64 (enc_n n) = Some n.
Proof. apply dec_enc_n. Qed.
Lemma dec_enc_u63 n : u63_ok n -> dec_u63 (enc_n n) = Some n.
Proof.
  intros H. unfold dec_u63, dec_u64. rewrite dec_enc_n; [|unfold u63_ok in H; lia]. cbn [mbind option_bind].
  by rewrite (proj2 (N.ltb_lt _ _) H).
Qed.
Lemma dec_enc_i64 z : i64_ok z -> dec_i64 (WNum z) = Some z.
Proof.
  intros [H1 H2]. unfold dec_i64. rewrite (proj2 (Z.leb_le _ _) H1), (proj2 (Z.ltb_lt _ _) H2). done.
Qed.
Lemma dec_enc_time t : time_ok t -> dec_time (enc_time t) = Some t.
Proof. apply read_time_text. Qed.
Lemma dec_enc_retries n : u63_ok n -> dec_retries (enc_n n) = Some n.
Proof.
  intros H. unfold dec_retries, enc_n, u63_ok in *. rewrite dec_enc_i64; [|unfold i64_ok; lia]. cbn [mbind option_bind].
  rewrite (proj2 (Z.leb_le 0 (Z.of_N n))); [|lia]. by rewrite N2Z.id.
Qed.
Lemma dec_enc_opt {A} (f : A -> wire) g o : (forall a, o = Some a -> g (f a) = Some a /\ f a <> WNull) -> dec_opt g (enc_opt f o) = Some o.
Proof.
  intros H. destruct o as [a|]; [|done]. destruct (H a eq_refl) as [H1 H2]. cbn [enc_opt]. unfold dec_opt. rewrite H1.
  by destruct (f a).
Qed.
Lemma dec_enc_list {A} (f : A -> wire) g l : (forall a, a ∈ l -> g (f a) = Some a) -> dec_list g (enc_list f l) = Some l.
Proof.
  intros H. unfold dec_list, enc_list. induction l as [|a l IH]; [done|]. rewrite fmap_cons. cbn [mapM].
  rewrite H by left. cbn [mbind option_bind]. rewrite IH; [done|]. intros b Hb. apply H. by right.
Qed.
Lemma dec_enc_bytes s : dec_bytes (enc_bytes s) = Some s.
Proof.
  unfold dec_bytes, enc_bytes, enc_list. assert (forall l, dec_list (dec_n 256) (WList ((fun c => enc_n (N_of_ascii c)) <$> l)) = Some (N_of_ascii <$> l)) as Hl.
  { induction l as [|c l IH]; [done|]. unfold dec_list in *. rewrite fmap_cons. cbn [mapM]. rewrite dec_enc_n; [|by pose proof (N_ascii_bounded c)].
    cbn [mbind option_bind]. rewrite IH. done. }
  rewrite Hl. cbn [fmap option_fmap option_map]. f_equal. rewrite <- list_fmap_compose.
  rewrite (list_fmap_ext _ id); [rewrite list_fmap_id; apply string_of_list_ascii_of_string|].
  intros i c _. unfold compose. apply ascii_N_embedding.
Qed.
Lemma dec_enc_obytes o : dec_opt dec_bytes (enc_opt enc_bytes o) = Some o.
Proof. apply dec_enc_opt. intros a _. split; [apply dec_enc_bytes|done]. Qed.
Lemma dec_enc_otext o : dec_opt dec_text (enc_opt WText o) = Some o.
Proof. by apply dec_enc_opt. Qed.
Lemma dec_enc_on o : (forall n, o = Some n -> u63_ok n) -> dec_opt dec_u63 (enc_opt enc_n o) = Some o.
Proof. intros H. apply dec_enc_opt. intros a Ha. split; [by apply dec_enc_u63, H|done]. Qed.
(** The members may come in any order. *)
Lemma dec_strat_any m l : strat_ok m -> l ≡ₚ map_to_list m -> dec_strat (WObj (prod_map id WNum <$> l)) = Some m.
Proof.
  intros Hm Hp. unfold dec_strat.
  assert (mapM (fun x : string * wire => pair x.1 <$> dec_i64 x.2) (prod_map id WNum <$> l) = Some l) as ->.
  { assert (forall x, x ∈ l -> i64_ok x.2) as Hl.
    { intros [k v] Hx. rewrite Hp in Hx. apply elem_of_map_to_list in Hx. by apply (Hm k v). }
    clear Hp. induction l as [|[k v] l IH]; [done|]. rewrite fmap_cons. cbn [mapM prod_map fst snd].
    rewrite dec_enc_i64; [|by apply (Hl (k, v)); left]. cbn [fmap option_fmap option_map mbind option_bind].
    rewrite IH; [done|]. intros x Hx. apply Hl. by right. }
  cbn [fmap option_fmap option_map]. f_equal. rewrite <- (list_to_map_to_list m). apply list_to_map_proper.
  - rewrite (reverse_Permutation l), Hp. apply NoDup_fst_map_to_list.
  - by rewrite (reverse_Permutation l).
Qed.
Lemma dec_enc_strat m : strat_ok m -> dec_strat (enc_strat m) = Some m.
Proof. intros H. by apply dec_strat_any. Qed.

Ltac back :=
  repeat (cbn [members mbind option_bind]; fields;
    first [rewrite dec_enc_u63 by done | rewrite dec_enc_u64 by done | rewrite dec_enc_obytes | rewrite dec_enc_otext | rewrite dec_enc_on by done
          | rewrite dec_enc_strat by done | rewrite dec_enc_i64 by done | rewrite dec_enc_retries by done | rewrite dec_enc_time by done | progress cbn [dec_text]]; cbn [members mbind option_bind]).

Lemma dec_enc_cid k : cid_ok k -> dec_cid (enc_cid k) = Some k.
Proof. intros [H1 H2]. unfold dec_cid, enc_cid. back. by destruct k. Qed.
Lemma dec_enc_chunk c : chunk_ok c -> dec_chunk (enc_chunk c) = Some c.
Proof. intros (H1 & H2 & H3). unfold dec_chunk, enc_chunk. back. by destruct c. Qed.
Lemma dec_enc_chunk_failed c : chunk_failed_ok c -> dec_chunk_failed (enc_chunk_failed c) = Some c.
Proof. intros (H1 & H2 & H3). unfold dec_chunk_failed, enc_chunk_failed. back. by destruct c. Qed.
Lemma dec_enc_submission s : submission_ok s -> dec_submission (enc_submission s) = Some s.
Proof. intros (H1 & H2 & H3 & H4 & H5). unfold dec_submission, enc_submission. back. by destruct s. Qed.
Lemma dec_enc_completed s : completed_ok s -> dec_completed (enc_completed s) = Some s.
Proof. intros (H1 & H2 & H3 & H4 & H5). unfold dec_completed, enc_completed. back. by destruct s. Qed.
Lemma dec_enc_failed s : failed_ok s -> dec_failed (enc_failed s) = Some s.
Proof. intros (H1 & H2 & H3 & H4 & H5 & H6 & H7). unfold dec_failed, enc_failed. back. by destruct s. Qed.
Lemma dec_enc_cancelled s : cancelled_ok s -> dec_cancelled (enc_cancelled s) = Some s.
Proof. intros (H1 & H2 & H3 & H4 & H5). unfold dec_cancelled, enc_cancelled. back. by destruct s. Qed.
Lemma dec_enc_not_cancellable s : status_ok s -> (forall x, s <> InProgress x) -> dec_not_cancellable (enc_status s) = Some s.
Proof.
  intros H Hn. unfold dec_not_cancellable, enc_status. destruct s as [s|s|s c|s]; cbn [variant mbind option_bind].
  - by destruct (Hn s).
  - by rewrite dec_enc_completed.
  - destruct H as [H1 H2]. cbn [pair_of mbind option_bind fst snd]. rewrite dec_enc_failed by done. cbn [mbind option_bind]. by rewrite dec_enc_chunk_failed.
  - by rewrite dec_enc_cancelled.
Qed.
Lemma dec_enc_status s : status_ok s -> dec_status (enc_status s) = Some s.
Proof.
  intros H. unfold dec_status. destruct s as [s|s|s c|s].
  - cbn [enc_status variant mbind option_bind]. by rewrite dec_enc_submission.
  - rewrite <- (dec_enc_not_cancellable (Completed s)) by done. done.
  - rewrite <- (dec_enc_not_cancellable (Failed s c)) by done. done.
  - rewrite <- (dec_enc_not_cancellable (Cancelled s)) by done. done.
Qed.
Lemma dec_enc_contents c : (forall p n, c = SeeObjectStorage p n -> u63_ok n) -> dec_contents (enc_contents c) = Some c.
Proof.
  intros H. unfold dec_contents, enc_contents. destruct c as [l|p n]; cbn [variant mbind option_bind].
  - cbn [members mbind option_bind]. fields. rewrite (dec_enc_list (enc_opt enc_bytes)); [done|]. intros a _. apply dec_enc_obytes.
  - assert (u63_ok n) by by eapply H. back. done.
Qed.
Lemma dec_enc_insert c m st z :
  (forall p n, c = SeeObjectStorage p n -> u63_ok n) -> strat_ok st -> (forall x, z = Some x -> i64_ok x) ->
  dec_insert (enc_insert c m st z) = Some (PInsert c m st z).
Proof.
  intros H1 H2 H3. unfold dec_insert, enc_insert. cbn [members mbind option_bind]. fields.
  rewrite dec_enc_contents by done. back. fields.
  rewrite (dec_enc_opt WNum); [done|]. intros a Ha. split; [by apply dec_enc_i64, H3|done].
Qed.
Lemma dec_enc_strategy s n : (nesting s <= n)%nat -> dec_strategy n (enc_strategy s) = Some s.
Proof.
  revert n. induction s as [| | |k u IH]; intros n Hn; (destruct n as [|n]; [cbn [nesting] in Hn; lia|]); try done.
  cbn [nesting] in Hn. cbn [dec_strategy enc_strategy variant mbind option_bind members]. fields. cbn [dec_text mbind option_bind].
  rewrite IH by lia. done.
Qed.

(** *** Numbers in paths *)
Lemma read_show n : read_n (show_n n) = Some n.
Proof.
  unfold read_n, show_n. rewrite NilZero.usu.
  - cbn [fmap option_fmap option_map]. f_equal. apply DecimalN.Unsigned.of_to.
  - destruct n as [|p]; [done|]. apply DecimalPos.Unsigned.to_uint_nonnil.
Qed.
Definition digit_char (c : ascii) : Prop := 48 <= N_of_ascii c <= 57.
Lemma show_digits n : all_chars digit_char (show_n n).
Proof.
  unfold show_n. assert (forall u, all_chars digit_char (NilEmpty.string_of_uint u)) as H.
  { induction u; cbn [NilEmpty.string_of_uint all_chars]; try done; (split; [by split; apply (bool_decide_unpack _); vm_compute|done]). }
  unfold NilZero.string_of_uint. destruct (N.to_uint n); try apply H. split; [by split; apply (bool_decide_unpack _); vm_compute|done].
Qed.
Lemma digit_cases c : digit_char c -> kept_char c /\ slash c = false /\ escaped_char c = false /\ c <> "%"%char /\ blank c = false /\ c <> "."%char.
Proof.
  assert (H : (fun c => (negb ((48 <=? N_of_ascii c) && (N_of_ascii c <=? 57))) || (negb (skipped c) && bool_decide (c <> "?"%char /\ c <> "#"%char) && negb (slash c) && negb (escaped_char c) &&
    bool_decide (c <> "%"%char) && negb (blank c) && bool_decide (c <> "."%char))) c = true).
  { destruct c as [[] [] [] [] [] [] [] []]; vm_compute; reflexivity. }
  cbn beta in H. intros [H1 H2]. apply orb_prop in H as [H|H].
  - apply N.leb_le in H1, H2. rewrite H1, H2 in H. done.
  - rewrite !andb_true_iff, !negb_true_iff in H. destruct_and! H. repeat match goal with E : bool_decide _ = true |- _ => apply bool_decide_eq_true_1 in E end. unfold kept_char. tauto.
Qed.
Lemma digits_plain s : all_chars digit_char s -> s <> "" -> percent_decode s = s /\ escape s = s /\ segments s = [s] /\ cleaned s = s /\ undotted s.
Proof.
  intros H Hne. split_and!.
  - clear Hne. induction s as [|c s IH]; [done|]. destruct H as [Hc Hs]. rewrite decode_other; [by rewrite IH|]. by apply digit_cases.
  - apply escape_plain. eapply all_chars_impl; [|exact H]. intros c Hc. by apply digit_cases.
  - apply segments_one. eapply all_chars_impl; [|exact H]. intros c Hc. by apply digit_cases.
  - apply cleaned_kept; [eapply all_chars_impl; [|exact H]; intros c Hc; by apply digit_cases|].
    intros l c ->. clear Hne. induction l as [|x l IH]; [apply digit_cases, H|]. rewrite str_app_cons in H. by apply IH, H.
  - destruct s as [|c s]; [done|]. destruct H as [Hc _]. destruct (digit_cases c Hc) as (_ & _ & _ & H1 & _ & H2).
    split; apply bool_decide_eq_false_2; rewrite !elem_of_cons; intros E; destruct_or! E; try (by simplify_eq); by apply elem_of_nil in E.
Qed.

(** *** Routes *)
Definition route_list : list (list segment * method * handler) := [
  ([Word "submissions"], POST, HInsert); ([Word "submissions"; Word "count_completed"], GET, HCountCompleted);
  ([Word "submissions"; Word "count"], GET, HCount);
  ([Word "submissions"; Word "lookup_ids_by_strategic_metadata"], POST, HByMeta); ([Word "version"], GET, HVersion);
  ([Word "submissions"; Word "cancel"; Param], POST, HCancel); ([Word "submissions"; Word "lookup_id_by_prefix"; Param], GET, HByPrefix);
  ([Word "submissions"; Param], GET, HStatus) ].
Lemma routes_sorted : filter (fun r => is_static r.1.1) routes ++ filter (fun r => negb (is_static r.1.1)) routes = route_list.
Proof. by vm_compute. Qed.
Lemma matching_eq l : matching l = omap (fun '(p, m, h) => (fun vs => (vs, m, h)) <$> fits_pattern p l) route_list.
Proof. unfold matching. by rewrite routes_sorted. Qed.
Ltac words := repeat first [rewrite bool_decide_eq_true_2 by done | rewrite bool_decide_eq_false_2 by (done || congruence)].
Ltac routing := rewrite matching_eq; unfold route_list; cbn [omap list_omap fits_pattern]; words; cbn [fmap option_fmap option_map].
Lemma match_status s : s <> "" -> s <> "count" -> s <> "count_completed" -> s <> "lookup_ids_by_strategic_metadata" ->
  matching ["submissions"; s] = [([s], GET, HStatus)].
Proof. intros. routing. by repeat (case_bool_decide; cbn [fmap option_fmap option_map]; try congruence). Qed.
Lemma match_cancel s : s <> "" -> matching ["submissions"; "cancel"; s] = [([s], POST, HCancel)].
Proof. intros. routing. done. Qed.
Lemma match_prefix s : s <> "" -> matching ["submissions"; "lookup_id_by_prefix"; s] = [([s], GET, HByPrefix)].
Proof. intros. routing. done. Qed.
Lemma match_long x y l : matching ("submissions" :: "lookup_id_by_prefix" :: x :: y :: l) = [].
Proof. routing. by case_bool_decide. Qed.
Lemma show_nonempty n : show_n n <> EmptyString.
Proof. intros H. pose proof (read_show n) as E. rewrite H in E. done. Qed.
Lemma route_digits base s : cleaned (base +:+ "/") = base +:+ "/" -> Forall undotted (segments base) -> all_chars digit_char s -> s <> "" ->
  url_segments (String "/" (base +:+ String "/" s)) = (escape <$> segments base) ++ [s].
Proof.
  intros Hb Hd Hs Hne. rewrite url_app by done. destruct (digits_plain s Hs Hne) as (_ & He & Hseg & -> & Hu). rewrite Hseg.
  rewrite settle_plain by by apply Forall_singleton. by rewrite reverse_involutive, fmap_cons, fmap_nil, He.
Qed.
Lemma param_show n : u63_ok n -> param_id (show_n n) = Some n.
Proof.
  intros H. unfold param_id. destruct (digits_plain _ (show_digits n) (show_nonempty n)) as (-> & _). rewrite read_show. cbn [mbind option_bind].
  by rewrite (proj2 (N.ltb_lt _ _) H).
Qed.
Lemma digits_not_word s x : all_chars digit_char s -> ~ all_chars digit_char x -> s <> x.
Proof. by intros H1 H2 ->. Qed.
Lemma letter_first c s : N_of_ascii c <? 48 = false -> 57 <? N_of_ascii c = true -> ~ all_chars digit_char (String c s).
Proof. intros H1 H2 [[_ H] _]. apply N.ltb_lt in H2. unfold digit_char in H. lia. Qed.
Lemma route_status n : route GET ("/producer/submissions/" +:+ show_n n) = RouteTo HStatus [show_n n].
Proof.
  unfold route. change ("/producer/submissions/" +:+ show_n n) with (String "/" ("producer/submissions" +:+ String "/" (show_n n))).
  rewrite route_digits; [|by vm_compute|apply undotted_all; by vm_compute|apply show_digits|apply show_nonempty]. change (escape <$> segments "producer/submissions") with ["producer"; "submissions"].
  cbn [app]. rewrite bool_decide_eq_true_2 by done. rewrite match_status.
  - done.
  - apply show_nonempty.
  - eapply digits_not_word; [apply show_digits|by apply letter_first].
  - eapply digits_not_word; [apply show_digits|by apply letter_first].
  - eapply digits_not_word; [apply show_digits|by apply letter_first].
Qed.
Lemma route_cancel n : route POST ("/producer/submissions/cancel/" +:+ show_n n) = RouteTo HCancel [show_n n].
Proof.
  unfold route. change ("/producer/submissions/cancel/" +:+ show_n n) with (String "/" ("producer/submissions/cancel" +:+ String "/" (show_n n))).
  rewrite route_digits; [|by vm_compute|apply undotted_all; by vm_compute|apply show_digits|apply show_nonempty]. change (escape <$> segments "producer/submissions/cancel") with ["producer"; "submissions"; "cancel"].
  cbn [app]. rewrite bool_decide_eq_true_2 by done. rewrite match_cancel; [done|apply show_nonempty].
Qed.
(** *** Lookups by prefix *)
Lemma prefix_segments p : url_segments (h_path (to_http (PByPrefix p))) =
  settle ["lookup_id_by_prefix"; "submissions"; "producer"] (segments (cleaned p)).
Proof.
  cbn [h_path to_http]. change ("/producer/submissions/lookup_id_by_prefix/" +:+ p) with (String "/" ("producer/submissions/lookup_id_by_prefix" +:+ String "/" p)).
  rewrite url_app; [done|by vm_compute|apply undotted_all; by vm_compute].
Qed.
Lemma route_one p s : segments (cleaned p) = [s] -> undotted s -> s <> "" -> from_http (to_http (PByPrefix p)) = Reads (PByPrefix (percent_decode s)).
Proof.
  intros Hs Hu Hne. unfold from_http, route. rewrite prefix_segments, Hs, settle_plain by by apply Forall_singleton.
  rewrite fmap_cons, fmap_nil. cbn [reverse app to_http h_method h_body]. change (reverse _ ++ [escape s]) with ["producer"; "submissions"; "lookup_id_by_prefix"; escape s].
  cbv beta iota. rewrite bool_decide_eq_true_2 by done. rewrite match_prefix; [|by rewrite escape_empty]. cbv beta iota. rewrite bool_decide_eq_true_2 by done.
  by rewrite decode_escape.
Qed.
Lemma route_more p x y l : segments (cleaned p) = x :: y :: l -> Forall undotted (x :: y :: l) -> from_http (to_http (PByPrefix p)) = RefusedWith 404.
Proof.
  intros Hs Hu. unfold from_http, route. rewrite prefix_segments, Hs, settle_plain by done. rewrite !fmap_cons.
  change (reverse _ ++ ?r) with ("producer" :: "submissions" :: "lookup_id_by_prefix" :: r). cbv beta iota. rewrite bool_decide_eq_true_2 by done.
  by rewrite match_long.
Qed.
(** A prefix that means in a URL what it is: it is not empty, contains none of ? # / and \, no tab
    or end of line, no % that two hexadecimal digits follow, does not end with a blank or a control
    character, and is not . or .. *)
Definition plain_prefix (p : string) : Prop :=
  p <> "" /\ p <> "." /\ p <> ".." /\
  all_chars (fun c => c <> "?"%char /\ c <> "#"%char /\ c <> "/"%char /\ c <> "\"%char /\ N_of_ascii c <> 9 /\ N_of_ascii c <> 10 /\ N_of_ascii c <> 13) p /\
  (forall l c, p = l +:+ String c "" -> 32 < N_of_ascii c) /\
  (forall l a b x y r, p = l +:+ String "%" (String a (String b r)) -> UrlProofs.digit a x -> UrlProofs.digit b y -> False).
Lemma undotted_by s : percent_decode s <> "." -> percent_decode s <> ".." -> undotted s.
Proof.
  intros H1 H2. split; [destruct (one_dot s) eqn:E; [|done]|destruct (two_dots s) eqn:E; [|done]].
  - by apply dot_decodes in E.
  - by apply dots_decode in E.
Qed.
Lemma route_plain p : plain_prefix p -> from_http (to_http (PByPrefix p)) = Reads (PByPrefix p).
Proof.
  intros (H1 & H2 & H3 & H4 & H5 & H6). assert (Hd : percent_decode p = p) by by apply decode_plain.
  rewrite (route_one p p); [by rewrite Hd| | |done].
  - rewrite cleaned_kept.
    + apply segments_one. eapply all_chars_impl; [|exact H4]. intros c (_ & _ & Hc1 & Hc2 & _). unfold slash. by rewrite !bool_decide_eq_false_2.
    + eapply all_chars_impl; [|exact H4]. intros c (? & ? & _ & _ & ? & ? & ?). unfold kept_char, skipped. split; [|done].
      by rewrite !(proj2 (N.eqb_neq _ _)).
    + intros l c E. apply N.leb_gt. by eapply H5.
  - apply undotted_by; by rewrite Hd.
Qed.
(** A request as the Rust types allow it. *)
Definition request_ok (q : request) : Prop :=
  match q with
  | PInsert c _ st z => (forall p n, c = SeeObjectStorage p n -> u63_ok n) /\ strat_ok st /\ (forall x, z = Some x -> i64_ok x)
  | PCancel i | PStatus i => u63_ok i
  | PByMeta m => strat_ok m
  | PByPrefix _ | PCount | PCountCompleted => True
  end.
Lemma reads_request q : request_ok q -> (forall p, q <> PByPrefix p) -> from_http (to_http q) = Reads q.
Proof.
  intros Hq Hp. destruct q as [c m st z|i|i|p|m| |]; cbn [request_ok] in Hq.
  - destruct Hq as (H1 & H2 & H3). unfold from_http, to_http. cbn [h_method h_path h_body].
    change (route POST "/producer/submissions") with (RouteTo HInsert []). cbn [of_option]. by rewrite dec_enc_insert.
  - unfold from_http, to_http. cbn [h_method h_path h_body]. rewrite route_cancel, (param_show _ Hq). done.
  - unfold from_http, to_http. cbn [h_method h_path h_body]. rewrite route_status, (param_show _ Hq). done.
  - by destruct (Hp p).
  - unfold from_http, to_http. cbn [h_method h_path h_body].
    change (route POST "/producer/submissions/lookup_ids_by_strategic_metadata") with (RouteTo HByMeta []). cbn [of_option]. by rewrite dec_enc_strat.
  - done.
  - done.
Qed.

(** *** Answers *)
(** The answers that the handler of a request can give, with values of the Rust types. *)
Definition body_ok (q : request) (b : body) : Prop :=
  match q, b with
  | PInsert _ _ _ _, BId i => u63_ok i
  | PCancel _, _ => True
  | PStatus _, BStatus o => forall s, o = Some s -> status_ok s
  | PByPrefix _, BMaybeId o => forall i, o = Some i -> u63_ok i
  | PByMeta _, BIds l => Forall u63_ok l
  | PCount, BCount n | PCountCompleted, BCount n => u64_ok n
  | _, _ => False
  end.
Definition answer_ok (q : request) (r : response) : Prop :=
  match r with
  | Http200 b => body_ok q b
  | Http400 max => u64_ok max | Http404 i => u63_ok i
  | Http409 st => status_ok st /\ forall s, st <> InProgress s
  | Http500 _ | HttpPanic => True
  end.
Lemma dec_enc_ostatus o : (forall s, o = Some s -> status_ok s) -> dec_opt dec_status (enc_opt enc_status o) = Some o.
Proof. intros H. apply dec_enc_opt. intros s Hs. split; [by apply dec_enc_status, H|]. by destruct s. Qed.
Lemma dec_n_over b n : b <= n -> dec_n b (enc_n n) = None.
Proof. intros H. unfold dec_n, enc_n. assert (Z.of_N n <? Z.of_N b = false)%Z as -> by (apply Z.ltb_ge; lia). by rewrite andb_false_r. Qed.
Lemma reads_answer q r : answer_ok q r -> from_answer q (to_answer r) = outcome q (XResp r None).
Proof.
  intros H. destruct r as [b|max|i|st|e|]; cbn [answer_ok] in H.
  - destruct q, b; try done; cbn [body_ok] in H; unfold to_answer, from_answer, enc_body; cbn [parse].
    + change ((400 <=? 200) && (200 <? 600)) with false. cbn [parse]. by rewrite dec_enc_u63.
    + change ((400 <=? 200) && (200 <? 600)) with false. by rewrite dec_enc_ostatus.
    + change ((400 <=? 200) && (200 <? 600)) with false. by rewrite dec_enc_on.
    + change (200 =? 200) with true. rewrite (dec_enc_list enc_n); [done|]. intros a Ha. apply dec_enc_u63. by eapply (proj1 (Forall_forall _ _) H).
    + change ((400 <=? 200) && (200 <? 600)) with false. cbn [outcome checked read_body].
      destruct (n <? 2 ^ 32) eqn:E; [apply N.ltb_lt in E; by rewrite dec_enc_n|]. apply N.ltb_ge in E. by rewrite dec_n_over.
    + change ((400 <=? 200) && (200 <? 600)) with false. by rewrite dec_enc_u64.
  - destruct q; try done. unfold to_answer, from_answer. cbn [parse]. rewrite dec_enc_u64 by done. done.
  - destruct q; try done. unfold to_answer, from_answer. cbn [parse]. rewrite dec_enc_u63 by done. done.
  - destruct q; try done. unfold to_answer, from_answer. cbn [parse]. destruct H as [H1 H2]. rewrite dec_enc_not_cancellable by done. done.
  - by destruct q.
  - by destruct q.
Qed.

(** *** Messages *)
Definition client_msg_ok (m : client_msg) : Prop :=
  match m with WantToReserve n _ => u64_ok n | CompleteMsg k _ | FailMsg k _ => cid_ok k end.
Definition msg_nesting (m : client_msg) : nat := match m with WantToReserve _ s => nesting s | _ => 0 end.
Lemma dec_enc_client_msg m n : client_msg_ok m -> (msg_nesting m <= n)%nat -> dec_client_msg n (enc_client_msg m) = Some m.
Proof.
  intros H Hn. destruct m as [x s|k o|k f]; cbn [client_msg_ok msg_nesting] in *; unfold dec_client_msg, enc_client_msg; cbn [variant mbind option_bind members]; fields.
  - rewrite dec_enc_u64 by done. cbn [mbind option_bind]. by rewrite dec_enc_strategy.
  - rewrite dec_enc_cid by done. cbn [mbind option_bind]. by rewrite dec_enc_obytes.
  - rewrite dec_enc_cid by done. done.
Qed.
Lemma dec_enc_to_server e n : u64_ok (e_nonce e) -> client_msg_ok (e_msg e) -> (msg_nesting (e_msg e) <= n)%nat ->
  dec_to_server n (enc_to_server e) = Some e.
Proof.
  intros H1 H2 H3. unfold dec_to_server, enc_to_server. cbn [members mbind option_bind]. fields. rewrite dec_enc_u64 by done.
  cbn [mbind option_bind]. rewrite dec_enc_client_msg by done. by destruct e.
Qed.
Definition server_msg_ok (m : server_msg) : Prop :=
  match m with
  | SReserved n l => u64_ok n /\ forall l', l = Some l' -> Forall (fun cs => chunk_ok cs.1 /\ submission_ok cs.2) l'
  | SExpired k => cid_ok k
  | SInit g => u64_ok (g_missable g) /\ u64_ok (g_secs g) /\ g_nanos g < 2 ^ 32
  end.
Lemma dec_enc_reserved l : (forall l', l = Some l' -> Forall (fun cs => chunk_ok cs.1 /\ submission_ok cs.2) l') -> dec_reserved (enc_reserved l) = Some l.
Proof.
  intros H. unfold dec_reserved, enc_reserved. destruct l as [l|]; cbn [variant mbind option_bind]; [|done].
  rewrite (dec_enc_list (fun cs => WList [enc_chunk cs.1; enc_submission cs.2])); [done|].
  intros [c s] Hin. cbn [fst snd pair_of mbind option_bind]. destruct (proj1 (Forall_forall _ _) (H l eq_refl) _ Hin) as [H1 H2]. cbn [fst snd] in *.
  rewrite dec_enc_chunk by done. cbn [mbind option_bind]. by rewrite dec_enc_submission.
Qed.
Lemma dec_tagged_hit {A} tag (f : wire -> option A) w : dec_tagged tag f (WObj [(tag, w)]) = f w.
Proof. unfold dec_tagged. cbn [variant mbind option_bind]. by rewrite bool_decide_eq_true_2. Qed.
Lemma dec_enc_to_client m : server_msg_ok m -> dec_to_client (enc_to_client m) = Some m.
Proof.
  intros H. destruct m as [n l|k|g]; cbn [server_msg_ok] in H; unfold dec_to_client, enc_to_client; cbn [variant mbind option_bind members].
  - destruct H as [H1 H2]. fields. rewrite dec_enc_u64 by done. cbn [mbind option_bind]. rewrite dec_tagged_hit, dec_enc_reserved by done. done.
  - rewrite dec_tagged_hit, dec_enc_cid by done. done.
  - destruct H as (H1 & H2 & H3). fields. rewrite dec_enc_u64 by done. cbn [mbind option_bind members]. fields. rewrite dec_enc_u64 by done.
    cbn [mbind option_bind]. rewrite dec_enc_n by done. by destruct g.
Qed.

(** *** The order of members, absent and unknown ones *)
Lemma fld_perm {A} k (f : wire -> option A) ab l l' : l ≡ₚ l' -> fld k f ab l = fld k f ab l'.
Proof.
  intros H. unfold fld. assert (filter (fun x : string * wire => x.1 = k) l ≡ₚ filter (fun x => x.1 = k) l') as Hf by by rewrite H.
  destruct (filter (fun x : string * wire => x.1 = k) l) as [|a [|b r]].
  - apply Permutation_nil in Hf. by rewrite Hf.
  - apply Permutation_singleton_l in Hf. by rewrite <- Hf.
  - apply Permutation_length in Hf as Hl. destruct (filter (fun x : string * wire => x.1 = k) l') as [|a' [|b' r']]; done.
Qed.
Lemma fld_absent {A} k (f : wire -> option A) ab l : k ∉ l.*1 -> fld k f ab l = ab.
Proof.
  intros H. unfold fld. destruct (filter (fun x : string * wire => x.1 = k) l) as [|x r] eqn:E; [done|].
  assert (x ∈ filter (fun x : string * wire => x.1 = k) l) as Hx by (rewrite E; left).
  apply elem_of_list_filter in Hx as [Hx Hin]. destruct H. rewrite <- Hx. apply elem_of_list_fmap. by exists x.
Qed.
Lemma dec_insert_perm l l' : l ≡ₚ l' -> dec_insert (WObj l) = dec_insert (WObj l').
Proof. intros H. unfold dec_insert. cbn [members mbind option_bind]. by rewrite !(fld_perm _ _ _ l l'). Qed.

(** *** Sizes *)
Definition bytes (s : string) : N := N.of_nat (String.length s).
Definition obytes (o : option string) : N := match o with Some s => bytes s | None => 0 end.
Lemma sum_app l l' : sum_n (l ++ l') = sum_n l + sum_n l'.
Proof. induction l as [|x l IH]; [done|]. unfold sum_n in *. cbn [foldr app]. lia. Qed.
Lemma sum_cons x l : sum_n (x :: l) = x + sum_n l.
Proof. done. Qed.
Lemma sum_ge {A} (f : A -> N) k l : (forall a, a ∈ l -> k <= f a) -> k * N.of_nat (length l) <= sum_n (f <$> l).
Proof.
  induction l as [|a l IH]; intros H; [cbn; lia|]. rewrite fmap_cons, sum_cons. cbn [length]. pose proof (H a (elem_of_list_here _ _)).
  assert (k * N.of_nat (length l) <= sum_n (f <$> l)) by (apply IH; intros; apply H; by right). lia.
Qed.
Lemma sum_mono {A} (f g : A -> N) l : (forall a, a ∈ l -> f a <= g a) -> sum_n (f <$> l) <= sum_n (g <$> l).
Proof.
  induction l as [|a l IH]; intros H; [cbn; lia|]. rewrite !fmap_cons, !sum_cons. pose proof (H a (elem_of_list_here _ _)).
  assert (sum_n (f <$> l) <= sum_n (g <$> l)) by (apply IH; intros; apply H; by right). lia.
Qed.
Lemma sum_const {A} k (l : list A) : sum_n ((fun _ => k) <$> l) = k * N.of_nat (length l).
Proof. induction l as [|a l IH]; [cbn; lia|]. rewrite fmap_cons, sum_cons, IH. cbn [length]. lia. Qed.
Lemma sum_plus {A} (f g : A -> N) l : sum_n ((fun a => f a + g a) <$> l) = sum_n (f <$> l) + sum_n (g <$> l).
Proof. induction l as [|a l IH]; [done|]. rewrite !fmap_cons, !sum_cons, IH. lia. Qed.
Lemma sum_mul {A} k (f : A -> N) l : sum_n ((fun a => k * f a) <$> l) = k * sum_n (f <$> l).
Proof. induction l as [|a l IH]; [cbn; lia|]. rewrite !fmap_cons, !sum_cons, IH. lia. Qed.
Lemma length_ascii s : length (list_ascii_of_string s) = String.length s.
Proof. induction s as [|c s IH]; [done|]. cbn [list_ascii_of_string length String.length]. by rewrite IH. Qed.
Lemma json_byte c : 1 <= json_len (enc_n (N_of_ascii c)) <= 3.
Proof. destruct c as [[] [] [] [] [] [] [] []]; split; by apply (bool_decide_unpack _); vm_compute. Qed.
Lemma cbor_byte c : 1 <= cbor_len (enc_n (N_of_ascii c)) <= 2.
Proof. destruct c as [[] [] [] [] [] [] [] []]; split; by apply (bool_decide_unpack _); vm_compute. Qed.
Lemma cbor_head_le n : 1 <= cbor_head n <= 9.
Proof. unfold cbor_head. repeat case_match; lia. Qed.
(** A byte is one to three digits and a comma, in CBOR one or two bytes. *)
Lemma json_bytes s : 2 * bytes s + 1 <= json_len (enc_bytes s) <= 4 * bytes s + 2.
Proof.
  unfold enc_bytes, enc_list, bytes. cbn [json_len]. unfold listed. rewrite <- list_fmap_compose, fmap_length, length_ascii. unfold compose.
  pose proof (sum_ge (fun c => json_len (enc_n (N_of_ascii c))) 1 (list_ascii_of_string s) (fun c _ => proj1 (json_byte c))) as H1.
  pose proof (sum_mono (fun c => json_len (enc_n (N_of_ascii c))) (fun _ => 3) (list_ascii_of_string s) (fun c _ => proj2 (json_byte c))) as H2.
  rewrite sum_const in H2. rewrite length_ascii in H1, H2. lia.
Qed.
Lemma cbor_bytes s : bytes s + 1 <= cbor_len (enc_bytes s) <= 2 * bytes s + 9.
Proof.
  unfold enc_bytes, enc_list, bytes. cbn [cbor_len]. rewrite <- list_fmap_compose, fmap_length, length_ascii. unfold compose.
  pose proof (sum_ge (fun c => cbor_len (enc_n (N_of_ascii c))) 1 (list_ascii_of_string s) (fun c _ => proj1 (cbor_byte c))) as H1.
  pose proof (sum_mono (fun c => cbor_len (enc_n (N_of_ascii c))) (fun _ => 2) (list_ascii_of_string s) (fun c _ => proj2 (cbor_byte c))) as H2.
  rewrite sum_const in H2. rewrite length_ascii in H1, H2. pose proof (cbor_head_le (N.of_nat (String.length s))). lia.
Qed.
Lemma json_obytes o : 2 * obytes o <= json_len (enc_opt enc_bytes o) <= 4 * obytes o + 4.
Proof. destruct o as [s|]; [pose proof (json_bytes s); cbn [obytes enc_opt]; lia|]. cbn. lia. Qed.
Lemma cbor_obytes o : obytes o <= cbor_len (enc_opt enc_bytes o) <= 2 * obytes o + 9.
Proof. destruct o as [s|]; [pose proof (cbor_bytes s); cbn [obytes enc_opt]; lia|]. cbn. lia. Qed.
Definition contents_bytes (l : list content) : N := sum_n (obytes <$> l).
Lemma listed_1 x : listed [x] = 2 + x.
Proof. unfold listed. rewrite sum_cons. change (sum_n []) with 0. cbn [length]. lia. Qed.
Lemma json_direct l : 2 * contents_bytes l + 26 <= json_len (enc_contents (Direct l)) <= 4 * contents_bytes l + 5 * N.of_nat (length l) + 26.
Proof.
  unfold enc_contents, enc_list. cbn [json_len fmap list_fmap fst snd].
  change (json_string "Direct") with 8. change (json_string "contents") with 10. rewrite !listed_1.
  unfold listed. rewrite <- list_fmap_compose, fmap_length. unfold compose.
  pose proof (sum_mono (fun o => 2 * obytes o) (fun o => json_len (enc_opt enc_bytes o)) l (fun o _ => proj1 (json_obytes o))) as H1.
  pose proof (sum_mono (fun o => json_len (enc_opt enc_bytes o)) (fun o => 4 * obytes o + 4) l (fun o _ => proj2 (json_obytes o))) as H2.
  rewrite sum_mul in H1. rewrite sum_plus, sum_const, sum_mul in H2. unfold contents_bytes. lia.
Qed.
Lemma insert_size c m st z :
  request_size (PInsert c m st z) = 67 + json_len (enc_contents c) + json_len (enc_opt enc_bytes m) + json_len (enc_strat st) + json_len (enc_opt WNum z).
Proof.
  unfold request_size, to_http, enc_insert. cbn [h_body json_len fmap list_fmap fst snd]. unfold listed.
  change (json_string "chunk_contents") with 16. change (json_string "metadata") with 10. change (json_string "strategic_metadata") with 20.
  change (json_string "chunk_size") with 12. rewrite !sum_cons. change (sum_n []) with 0. cbn [length]. lia.
Qed.
(** The sizes of a reply: one chunk with its submission, and all. *)
Definition pair_wire (cs : chunk * submission) : wire := WList [enc_chunk cs.1; enc_submission cs.2].
Definition pair_min (cs : chunk * submission) : N := obytes (c_input cs.1) + obytes (s_meta cs.2).
Definition pair_max (cs : chunk * submission) : N :=
  2 * obytes (c_input cs.1) + 2 * obytes (s_meta cs.2) + obytes (s_prefix cs.2) + bytes (s_otel cs.2) + cbor_len (enc_strat (s_strat cs.2)) + 252.
Lemma cbor_text s : bytes s <= cbor_len (WText s) <= bytes s + 9.
Proof. cbn [cbor_len]. unfold cbor_string. fold (bytes s). pose proof (cbor_head_le (bytes s)). lia. Qed.
Lemma cbor_otext o : obytes o <= cbor_len (enc_opt WText o) <= obytes o + 9.
Proof. destruct o as [s|]; [apply cbor_text|]. cbn. lia. Qed.
Lemma cbor_num z : 1 <= cbor_len (WNum z) <= 9.
Proof. cbn [cbor_len]. apply cbor_head_le. Qed.
Lemma cbor_obj l : cbor_len (WObj l) = cbor_head (N.of_nat (length l)) + sum_n ((fun x => cbor_string x.1 + cbor_len x.2) <$> l).
Proof. done. Qed.
Lemma cbor_list l : cbor_len (WList l) = cbor_head (N.of_nat (length l)) + sum_n (cbor_len <$> l).
Proof. done. Qed.
Ltac sizes := rewrite !fmap_cons, fmap_nil, !sum_cons; change (sum_n []) with 0; cbn [fst snd length].
Lemma pair_size cs : pair_min cs <= cbor_len (pair_wire cs) <= pair_max cs.
Proof.
  destruct cs as [c s]. unfold pair_wire, pair_min, pair_max. rewrite cbor_list. sizes.
  unfold enc_chunk, enc_submission. rewrite !cbor_obj. sizes. unfold enc_n.
  repeat match goal with |- context [cbor_string ?k] => let v := eval vm_compute in (cbor_string k) in change (cbor_string k) with v end.
  repeat match goal with |- context [cbor_head (N.of_nat ?k)] => let v := eval vm_compute in (cbor_head (N.of_nat k)) in change (cbor_head (N.of_nat k)) with v end.
  pose proof (cbor_obytes (c_input c)). pose proof (cbor_obytes (s_meta s)). pose proof (cbor_otext (s_prefix s)). pose proof (cbor_text (s_otel s)).
  pose proof (cbor_num (Z.of_N (c_sub c))). pose proof (cbor_num (Z.of_N (c_index c))). pose proof (cbor_num (Z.of_N (c_retries c))).
  pose proof (cbor_num (Z.of_N (s_id s))). pose proof (cbor_num (Z.of_N (s_total s))). pose proof (cbor_num (Z.of_N (s_done s))). pose proof (cbor_num (s_size s)).
  lia.
Qed.
Lemma reply_size n l : sum_n (pair_min <$> l) <= cbor_len (enc_to_client (SReserved n (Some l))) <= sum_n (pair_max <$> l) + 80.
Proof.
  unfold enc_to_client, enc_reserved, enc_list. rewrite !cbor_obj. sizes. rewrite !cbor_obj. sizes. rewrite !cbor_obj. sizes. rewrite !cbor_obj. sizes. rewrite cbor_list. unfold enc_n.
  repeat match goal with |- context [cbor_string ?k] => let v := eval vm_compute in (cbor_string k) in change (cbor_string k) with v end.
  change (cbor_head (N.of_nat 1)) with 1. change (cbor_head (N.of_nat 2)) with 1.
  rewrite <- list_fmap_compose. unfold compose.
  pose proof (sum_mono pair_min (fun cs => cbor_len (pair_wire cs)) l (fun cs _ => proj1 (pair_size cs))) as H1.
  pose proof (sum_mono (fun cs => cbor_len (pair_wire cs)) pair_max l (fun cs _ => proj2 (pair_size cs))) as H2.
  change (fun x => cbor_len (WList [enc_chunk x.1; enc_submission x.2])) with (fun cs => cbor_len (pair_wire cs)).
  pose proof (cbor_num (Z.of_N n)). pose proof (cbor_head_le (N.of_nat (length ((fun cs => WList [enc_chunk cs.1; enc_submission cs.2]) <$> l)))). lia.
Qed.
Lemma report_size n k o : obytes o <= cbor_len (enc_to_server (ToServer n (CompleteMsg k o))) <= 2 * obytes o + 150.
Proof.
  unfold enc_to_server, enc_client_msg, enc_cid. cbn [e_nonce e_msg]. rewrite !cbor_obj. sizes. rewrite !cbor_obj. sizes. rewrite !cbor_obj. sizes. rewrite !cbor_obj. sizes. unfold enc_n.
  repeat match goal with |- context [cbor_string ?k] => let v := eval vm_compute in (cbor_string k) in change (cbor_string k) with v end.
  change (cbor_head (N.of_nat 1)) with 1. change (cbor_head (N.of_nat 2)) with 1.
  pose proof (cbor_obytes o). pose proof (cbor_num (Z.of_N n)). pose proof (cbor_num (Z.of_N k.1)). pose proof (cbor_num (Z.of_N k.2)). lia.
Qed.

(** *** Answers of older and newer servers *)
(** [l']: the members [l] in any order, with others that are not known, and without some of
    [optional], which say that there is nothing. *)
Definition lenient (optional l l' : list (string * wire)) : Prop :=
  exists kept left_out extra, l ≡ₚ kept ++ left_out /\ l' ≡ₚ kept ++ extra /\ left_out ⊆ optional /\ (forall k, k ∈ extra.*1 -> k ∉ l.*1).
Lemma fld_lenient {A} optional l l' k (f : wire -> option A) ab : lenient optional l l' -> NoDup l.*1 -> k ∈ l.*1 ->
  (forall w, (k, w) ∈ optional -> f w = ab) -> fld k f ab l' = fld k f ab l.
Proof.
  intros (kept & out & extra & H1 & H2 & H3 & H4) Hnd Hk Hopt. rewrite (fld_perm _ _ _ _ _ H1), (fld_perm _ _ _ _ _ H2).
  assert (fld k f ab (kept ++ extra) = fld k f ab kept) as ->.
  { unfold fld. rewrite filter_app. assert (filter (fun x => x.1 = k) extra = []) as ->; [|by rewrite app_nil_r].
    destruct (filter (fun x => x.1 = k) extra) as [|y r] eqn:E; [done|]. exfalso. assert (y ∈ filter (fun x => x.1 = k) extra) as Hy by (rewrite E; by left).
    apply elem_of_list_filter in Hy as [Hy1 Hy]. apply (H4 k); [|done]. subst k. by apply elem_of_list_fmap_1. }
  rewrite H1 in Hk, Hnd. rewrite fmap_app in Hk, Hnd. apply NoDup_app in Hnd as (Hn1 & Hn2 & Hn3).
  destruct (decide (k ∈ out.*1)) as [Ho|Ho].
  - assert (k ∉ kept.*1) as Hkk by (intros Hin; by apply (Hn2 k)). rewrite fld_absent by done.
    apply elem_of_list_fmap in Ho as ([k' w] & -> & Ho). cbn [fst] in *. apply elem_of_list_split in Ho as (o1 & o2 & ->).
    rewrite (fld_perm _ _ _ (kept ++ o1 ++ (k', w) :: o2) ((k', w) :: kept ++ o1 ++ o2)) by (rewrite <- !Permutation_middle; done).
    rewrite field_hit; [symmetry; apply Hopt, H3; apply elem_of_app; right; by left|].
    rewrite !fmap_app. rewrite fmap_app, fmap_cons in Hn3. cbn [fst] in Hn3. rewrite <- Permutation_middle in Hn3. apply NoDup_cons in Hn3 as [Hn3 _].
    rewrite !elem_of_app in *. intros [?|?]; [done|]. by apply Hn3.
  - unfold fld. rewrite filter_app. assert (filter (fun x => x.1 = k) out = []) as ->; [|by rewrite app_nil_r].
    destruct (filter (fun x => x.1 = k) out) as [|y r] eqn:E; [done|]. exfalso. assert (y ∈ filter (fun x => x.1 = k) out) as Hy by (rewrite E; by left).
    apply elem_of_list_filter in Hy as [Hy1 Hy]. apply Ho. subst k. by apply elem_of_list_fmap_1.
Qed.
