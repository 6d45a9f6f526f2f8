(** C60: lookups by prefix, over URLs. Vocabulary: Wire.v, Url.v; [plain_prefix] in WireProofs.v. *)
From Coq Require Import Ascii.
From Verif Require Import SqliteProofs AnswerProofs LifecycleProofs QueueProofs PropServer WireProofs ProducerClientProofs.
Local Open Scope N_scope.

(** What Client::lookup_submission_id_by_prefix (producer/client.rs:246-276) returns if nobody else
    changes the database and nothing fails: the URL with the prefix is routed, the handler answers
    (the arguments of [handle] matter to no request with the method GET), and the client reads the
    answer as one of this call, whoever gave it. [None]: it raises an error. (The text of the
    version endpoint is no JSON.) *)
Definition client_lookup (d : db) (p : string) : option (option sub_id) :=
  match from_http (to_http (PByPrefix p)) with
  | Reads q =>
    match from_answer (PByPrefix p) (to_answer (fst (exec (handle 0 0 "" 0 0 q) d []))) with
    | inr (BMaybeId r) => Some r
    | _ => None
    end
  | ReadsVersion | RefusedWith _ => None
  end.
(** Ids as the server makes them: C18. *)
Definition ids_fit (h : history) : Prop := Forall (fun id => id < 2 ^ 63) (inserted_ids h).

Lemma reported_fits h id st : fresh_ids h -> ids_fit h -> reports (after h) id st -> u63_ok id.
Proof.
  intros Hf Hi Hr. destruct (decide (id ∈ inserted_ids h)) as [Hin|Hn].
  - unfold ids_fit in Hi. rewrite Forall_forall in Hi. by apply Hi.
  - exfalso. pose proof (view_fresh _ _ Hf Hn) as Hv. assert (Hu : unknown (after h) id) by (apply unknown_view; by rewrite Hv).
    unfold reports in Hr. unfold unknown in Hu. congruence.
Qed.
Lemma lookup_received h p p' : fresh_ids h -> clocks_ok h -> ids_fit h -> from_http (to_http (PByPrefix p)) = Reads (PByPrefix p') ->
  client_lookup (after h) p = Some (prefix_found (after h) p').
Proof.
  intros Hf Hk Hi Hp. unfold client_lookup. rewrite Hp. unfold handle. rewrite exec_map. cbn [fst].
  pose proof (prefix_sound h p') as Hs. revert Hs. unfold prefix_found, lookup_id_by_prefix, read. rewrite exec_sql. cbn [fst or_500].
  set (r := head _). intros Hs. unfold from_answer, to_answer. cbn [enc_body]. change ((400 <=? 200) && (200 <? 600)) with false. cbv beta iota.
  assert (E : dec_opt dec_u63 (enc_opt enc_n r) = Some r).
  { apply dec_enc_opt. intros id E. destruct (Hs id Hf Hk E) as (st & Hr & _). split; [|done]. apply dec_enc_u63. by eapply reported_fits. }
  cbn [parse]. by rewrite E.
Qed.

(** ** C60 *)
(** A prefix that means in a URL what it is is looked up as it is. *)
Theorem C60_plain_partial : forall h p, fresh_ids h -> clocks_ok h -> ids_fit h -> plain_prefix p ->
  (forall id st, reports (after h) id st -> not_cancelled st -> status_prefix st = Some p ->
    exists id' st', client_lookup (after h) p = Some (Some id') /\ reports (after h) id' st' /\ status_prefix st' = Some p) /\
  ((forall id st, reports (after h) id st -> not_cancelled st -> status_prefix st <> Some p) -> client_lookup (after h) p = Some None).
Proof.
  intros h p Hf Hk Hi Hp. rewrite (lookup_received h p p Hf Hk Hi (route_plain p Hp)). split.
  - intros id st Hr Hn Hs. destruct (prefix_complete _ _ _ _ Hr Hn Hs) as [id' E].
    destruct (prefix_sound _ _ _ Hf Hk E) as (st' & ? & ? & ?). exists id', st'. by rewrite E.
  - intros Hno. f_equal. destruct (prefix_found (after h) p) as [id|] eqn:E; [|done].
    destruct (prefix_sound _ _ _ Hf Hk E) as (st & H1 & H2 & H3). by destruct (Hno id st).
Qed.
Print Assumptions C60_plain_partial.

(** A way to write a string in a URL: each byte as %XY, or as it is when it has no meaning there. *)
Inductive escapes : string -> string -> Prop :=
| EscNil : escapes "" ""
| EscChar c p e : c <> "?"%char -> c <> "#"%char -> c <> "/"%char -> c <> "\"%char -> c <> "%"%char -> 32 < N_of_ascii c ->
  escapes p e -> escapes (String c p) (String c e)
| EscByte c p a b x y e : N_of_ascii c = N.of_nat (16 * x + y) -> UrlProofs.digit a x -> UrlProofs.digit b y -> escapes p e ->
  escapes (String c p) (String "%" (String a (String b e))).
Lemma escaped_decodes p e : escapes p e -> percent_decode e = p.
Proof.
  intros H. induction H as [|c p e ?????? _ IH|c p a b x y e Hc Ha Hb _ IH]; [done|..].
  - by rewrite decode_other, IH.
  - apply digit_hex in Ha, Hb. cbn [percent_decode]. rewrite bool_decide_eq_true_2, Ha, Hb, IH by done.
    f_equal. rewrite <- (ascii_N_embedding c), Hc. f_equal. lia.
Qed.
Lemma append_nil_l s : "" +:+ s = s.
Proof. done. Qed.
Definition sound_char (c : ascii) : Prop := kept_char c /\ slash c = false /\ blank c = false.
Lemma sound_other c : c <> "?"%char -> c <> "#"%char -> c <> "/"%char -> c <> "\"%char -> 32 < N_of_ascii c -> sound_char c.
Proof.
  intros H1 H2 H3 H4 H5. unfold sound_char, kept_char, slash, blank, skipped. rewrite !bool_decide_eq_false_2 by done.
  split; [split; [|done]|split; [done|by apply N.leb_gt]]. rewrite !(proj2 (N.eqb_neq _ _)) by lia. done.
Qed.
Lemma sound_hex c n : UrlProofs.digit c n -> sound_char c.
Proof. unfold UrlProofs.digit. do 16 (destruct n as [|n]; [intros [[= <-]|[= <-]]; by apply sound_other|]). by intros [[=]|[=]]. Qed.
Lemma escaped_sound p e : escapes p e -> all_chars sound_char e.
Proof.
  intros H. induction H as [|c p e ?????? _ IH|c p a b x y e Hc Ha Hb _ IH]; [done|..].
  - split; [by apply sound_other|done].
  - split; [by apply sound_other|]. split; [by eapply sound_hex|]. split; [by eapply sound_hex|done].
Qed.
Lemma sound_cleaned e : all_chars sound_char e -> cleaned e = e /\ segments e = [e].
Proof.
  intros H. split.
  - apply cleaned_kept; [eapply all_chars_impl; [|exact H]; by intros c [? _]|].
    intros l c ->. induction l as [|x l IH]; [apply H|]. by apply IH, H.
  - apply segments_one. eapply all_chars_impl; [|exact H]. by intros c (_ & ? & _).
Qed.
(** So is any other prefix but . and .., if the caller escapes it (the client does not). *)
Theorem C60_escaped : forall h p e, fresh_ids h -> clocks_ok h -> ids_fit h -> escapes p e -> p <> "" -> p <> "." -> p <> ".." ->
  (forall id st, reports (after h) id st -> not_cancelled st -> status_prefix st = Some p ->
    exists id' st', client_lookup (after h) e = Some (Some id') /\ reports (after h) id' st' /\ status_prefix st' = Some p) /\
  (forall id, client_lookup (after h) e = Some (Some id) -> exists st', reports (after h) id st' /\ status_prefix st' = Some p).
Proof.
  intros h p e Hf Hk Hi He Hne H1 H2. pose proof (escaped_decodes _ _ He) as Hd. destruct (sound_cleaned e (escaped_sound _ _ He)) as [Hc Hs].
  assert (Hr : from_http (to_http (PByPrefix e)) = Reads (PByPrefix p)).
  { rewrite <- Hd. apply route_one; [by rewrite Hc|by apply undotted_by; rewrite Hd|]. intros ->. by inversion He; subst. }
  rewrite (lookup_received h e p Hf Hk Hi Hr). split.
  - intros id st Hr' Hn Hst. destruct (prefix_complete _ _ _ _ Hr' Hn Hst) as [id' E].
    destruct (prefix_sound _ _ _ Hf Hk E) as (st' & ? & ? & ?). exists id', st'. by rewrite E.
  - intros id [= E]. destruct (prefix_sound _ _ _ Hf Hk E) as (st' & ? & ? & ?). by exists st'.
Qed.
Print Assumptions C60_escaped.

(** A lookup of the empty prefix, of one that starts with ? or #, or of one with a slash (and without
    dots, %, ? and #) always fails ... *)
Theorem C60_never : forall h p,
  (p = "" \/ (exists c r, p = String c r /\ (c = "?"%char \/ c = "#"%char)) \/
   ((exists a b, p = a +:+ String "/" b \/ p = a +:+ String "\" b) /\
    all_chars (fun c => c <> "."%char /\ c <> "%"%char /\ c <> "?"%char /\ c <> "#"%char) p)) ->
  client_lookup (after h) p = None.
Proof.
  intros h p H. assert (Hc : from_http (to_http (PByPrefix p)) = RefusedWith 404); [|unfold client_lookup; by rewrite Hc].
  assert (H0 : cleaned p = "" -> from_http (to_http (PByPrefix p)) = RefusedWith 404).
  { intros Hp. unfold from_http, route. rewrite prefix_segments, Hp. by vm_compute. }
  destruct H as [->|[(c & r & -> & Hc)|[Hab Hc]]]; [by apply H0| |].
  - apply H0. unfold cleaned. cbn [trim_end]. assert (blank c = false) as Hb by by destruct Hc as [->| ->].
    assert (skipped c = false) as Hs by by destruct Hc as [->| ->].
    destruct (trim_end r) as [|c' r']; rewrite ?Hb; cbn [drop_skipped]; rewrite Hs; cbn [path_part]; by rewrite bool_decide_eq_true_2.
  - assert (Hkeep : forall (P : ascii -> Prop) s, (all_chars P s -> all_chars P (trim_end s)) /\ (all_chars P s -> all_chars P (drop_skipped s)) /\ (all_chars P s -> all_chars P (path_part s)) ).
    { intros P s. split; [|split].
      - induction s as [|x s IH]; [done|]. intros [Hx Hxs]. cbn [trim_end]. specialize (IH Hxs). destruct (trim_end s); [by destruct (blank x)|done].
      - induction s as [|x s IH]; [done|]. intros [Hx Hxs]. cbn [drop_skipped]. destruct (skipped x); [by apply IH|]. split; [done|by apply IH].
      - induction s as [|x s IH]; [done|]. intros [Hx Hxs]. cbn [path_part]. case_bool_decide; [done|]. split; [done|by apply IH]. }
    pose (Q := fun c : ascii => c <> "."%char /\ c <> "%"%char /\ c <> "?"%char /\ c <> "#"%char).
    assert (Hq : all_chars Q (cleaned p)) by (unfold cleaned; by do 3 apply Hkeep).
    assert (Hsl : ~ all_chars (fun c => slash c = false) (cleaned p)).
    { destruct Hab as (a & b & Hab).
      assert (Hx : exists x, slash x = true /\ blank x = false /\ skipped x = false /\ p = a +:+ String x b).
      { destruct Hab as [->| ->]; [exists "/"%char|exists "\"%char]; done. }
      destruct Hx as (x & Hx1 & Hx2 & Hx3 & ->). unfold cleaned in *. rewrite trim_end_app by done.
      assert (Ha : all_chars Q (drop_skipped a) /\ Q x).
      { clear - Hc Hkeep. assert (all_chars Q a /\ Q x) as [? ?]; [|split; [by apply Hkeep|done]].
        induction a as [|y a IH]; [split; [done|apply Hc]|]. destruct Hc as [H1 H2]. destruct (IH H2) as [? ?]. split; [by split|done]. }
      rewrite drop_skipped_app. cbn [drop_skipped]. rewrite Hx3. destruct Ha as [Ha Hqx]. revert Ha. generalize (drop_skipped a) as a'. clear - Hx1 Hqx.
      induction a' as [|y a' IH]; intros Ha.
      - rewrite (append_nil_l _). cbn [path_part]. rewrite bool_decide_eq_false_2 by (destruct Hqx as (_ & _ & ? & ?); tauto). intros [H _]. congruence.
      - destruct Ha as [(_ & _ & H1 & H2) Ha]. rewrite str_app_cons. cbn [path_part]. rewrite bool_decide_eq_false_2 by tauto. intros [_ H]. by apply (IH Ha). }
    destruct (segments_more _ Hsl) as (x & y & l & Es). apply (route_more p x y l Es). rewrite <- Es. clear Es x y l Hsl Hc Hab H0.
    assert (Hall : Forall (all_chars Q) (segments (cleaned p))).
    { revert Hq. generalize (cleaned p). induction s as [|c s IH]; [by intros; constructor|]. intros [Hc Hs]. specialize (IH Hs). cbn [segments].
      destruct (slash c); [by constructor|]. destruct (segments s) as [|x l]; [by constructor|]. apply Forall_cons in IH as [? ?]. by constructor. }
    eapply Forall_impl; [exact Hall|]. intros s Hs. destruct s as [|c s]; [done|]. destruct Hs as [(H1 & H2 & _) _].
    split; apply bool_decide_eq_false_2; rewrite !elem_of_cons; intros E; destruct_or! E; try (by simplify_eq); by apply elem_of_nil in E.
Qed.
Print Assumptions C60_never.
(** ... and so does one of . or .., however they are written. *)
Theorem C60_dots_refuted : forall h p e, p = "." \/ p = ".." -> escapes p e -> client_lookup (after h) e = None.
Proof.
  intros h p e Hp He. assert (Hc : from_http (to_http (PByPrefix e)) = RefusedWith 404); [|unfold client_lookup; by rewrite Hc].
  destruct (sound_cleaned e (escaped_sound _ _ He)) as [Hc Hs]. unfold from_http, route. rewrite prefix_segments, Hc, Hs.
  assert (Hdot : forall e', escapes (String "." e') e -> exists w r, e = w +:+ r /\ escapes e' r /\ w ∈ ["."; "%2e"; "%2E"]).
  { intros e' H. inversion H as [|? ? e1|? ? a b x y e1 Hn Ha Hb]; subst.
    - exists ".", e1. repeat (split; [done|]). left.
    - assert (x = 2%nat /\ y = 14%nat) as [-> ->]. { change (N_of_ascii ".") with 46 in Hn. assert (y < 16)%nat; [|lia]. apply digit_hex in Hb. destruct (hex_digit b) as [n|] eqn:E; [|done].
        assert (n < 16); [|assert (n = N.of_nat y) by congruence; lia]. clear -E. unfold hex_digit in E. repeat case_match; simplify_eq;
        repeat match goal with H : _ && _ = true |- _ => apply andb_prop in H as [?%N.leb_le ?%N.leb_le] end; lia. }
      destruct Ha as [[= <-]|[= <-]], Hb as [[= <-]|[= <-]].
      + exists "%2e", e1. repeat (split; [done|]). right. left.
      + exists "%2E", e1. repeat (split; [done|]). do 2 right. left.
      + exists "%2e", e1. repeat (split; [done|]). right. left.
      + exists "%2E", e1. repeat (split; [done|]). do 2 right. left. }
  destruct Hp as [-> | ->].
  - destruct (Hdot "" He) as (w & r & -> & Hr & Hw). inversion Hr; subst. rewrite !elem_of_cons in Hw. destruct_or! Hw; [subst; by vm_compute..|by apply elem_of_nil in Hw].
  - destruct (Hdot "." He) as (w & r & -> & Hr & Hw). assert (Hr' : exists w', r = w' /\ w' ∈ ["."; "%2e"; "%2E"]).
    { inversion Hr as [|? ? e1 ?????? H1|? ? a b x y e1 Hn Ha Hb H1]; subst; inversion H1; subst.
      - exists ".". split; [done|left].
      - assert (x = 2%nat /\ y = 14%nat) as [-> ->]. { change (N_of_ascii ".") with 46 in Hn. assert (y < 16)%nat; [|lia]. apply digit_hex in Hb. destruct (hex_digit b) as [n|] eqn:E; [|done].
          assert (n < 16); [|assert (n = N.of_nat y) by congruence; lia]. clear -E. unfold hex_digit in E. repeat case_match; simplify_eq;
          repeat match goal with H : _ && _ = true |- _ => apply andb_prop in H as [?%N.leb_le ?%N.leb_le] end; lia. }
        destruct Ha as [[= <-]|[= <-]], Hb as [[= <-]|[= <-]]; eexists; (split; [reflexivity|]); rewrite !elem_of_cons; tauto. }
    destruct Hr' as (w' & -> & Hw'). rewrite !elem_of_cons in Hw, Hw'.
    destruct_or! Hw; [..|by apply elem_of_nil in Hw]; (destruct_or! Hw'; [..|by apply elem_of_nil in Hw']); subst; by vm_compute.
Qed.
Print Assumptions C60_dots_refuted.
(** What is missing is false: the client is told the id of another submission. *)
Theorem C60_any_prefix_refuted : exists h id id' p p', fresh_ids h /\ p <> p' /\
  (exists s, reports (after h) id (InProgress s) /\ s_prefix s = Some p) /\
  (exists s, reports (after h) id' (InProgress s) /\ s_prefix s = Some p') /\
  client_lookup (after h) p = Some (Some id') /\ id <> id'.
Proof.
  exists [quiet (OInsert 1 (Some "run?1") [None] None ∅ 1 "o" 1); quiet (OInsert 2 (Some "run") [None] None ∅ 1 "o" 1)], 1, 2, "run?1", "run".
  split; [apply (bool_decide_unpack _); by vm_compute|]. split; [done|].
  split; [exists (Submission 1 (Some "run?1") 1 0 1 None ∅ "o"); split; by vm_compute|].
  split; [exists (Submission 2 (Some "run") 1 0 1 None ∅ "o"); split; by vm_compute|]. split; [by vm_compute|done].
Qed.
Print Assumptions C60_any_prefix_refuted.
(** Or something that is no id at all: looking for this prefix, it is told how many submissions are
    in progress. *)
Theorem C60_elsewhere_refuted : forall h, fresh_ids h -> clocks_ok h -> exists ip,
  enumerates ip (fun id => exists s, reports (after h) id (InProgress s)) /\
  (N.of_nat (length ip) < 2 ^ 63 -> client_lookup (after h) "../count" = Some (Some (N.of_nat (length ip)))).
Proof.
  intros h Hf Hk. destruct (submission_counters h Hf Hk) as (ip & _ & _ & H1 & _ & _ & Hc & _ & _).
  exists ip. split; [exact H1|]. intros Hn. unfold client_lookup. change (from_http (to_http (PByPrefix "../count"))) with (Reads PCount).
  unfold handle. rewrite exec_map, Hc. cbn [fst or_500]. unfold from_answer, to_answer. cbn [enc_body].
  change ((400 <=? 200) && (200 <? 600)) with false. cbv beta iota. cbn [parse]. change (enc_n ?n) with (enc_opt enc_n (Some n)).
  rewrite dec_enc_opt; [done|]. intros a [= <-]. split; [by apply dec_enc_u63|done].
Qed.
Print Assumptions C60_elsewhere_refuted.
(** A lookup of a prefix after a dot and a slash is one of the prefix: it is told the id of a submission with another prefix. *)
Theorem C60_dot_refuted : forall h p, plain_prefix p -> client_lookup (after h) ("./" +:+ p) = client_lookup (after h) p.
Proof.
  intros h p Hp. assert (E : from_http (to_http (PByPrefix ("./" +:+ p))) = from_http (to_http (PByPrefix p))).
  { rewrite (route_plain p Hp). pose proof Hp as (H1 & H2 & H3 & H4 & H5 & H6).
    assert (Hd : percent_decode p = p) by by apply decode_plain.
    assert (Hc : cleaned ("./" +:+ p) = "./" +:+ p).
    { apply cleaned_kept.
      - repeat (split; [done|]). eapply all_chars_impl; [|exact H4]. intros c (? & ? & _ & _ & ? & ? & ?). unfold kept_char, skipped. split; [|done].
        by rewrite !(proj2 (N.eqb_neq _ _)).
      - intros l c E. destruct l as [|x1 [|x2 l]]; rewrite ?str_app_cons, ?append_nil_l in E.
        + injection E as <- E. discriminate E.
        + injection E as <- <- E. by subst p.
        + injection E as <- <- E. apply N.leb_gt. by eapply H5. }
    assert (Hs : segments ("./" +:+ p) = ["."; p]).
    { change ("./" +:+ p) with (String "." (String "/" p)). cbn [segments]. change (slash ".") with false. change (slash "/") with true. cbv beta iota.
      rewrite segments_one; [done|]. eapply all_chars_impl; [|exact H4]. intros c (_ & _ & Hc1 & Hc2 & _). unfold slash. by rewrite !bool_decide_eq_false_2. }
    assert (Hu : undotted p) by (apply undotted_by; by rewrite Hd).
    unfold from_http, route. rewrite prefix_segments, Hc, Hs.
    change (settle ?b ["."; p]) with (settle b [p]). rewrite settle_plain by by apply Forall_singleton.
    rewrite fmap_cons, fmap_nil. cbn [reverse app to_http h_method h_body]. change (reverse _ ++ [escape p]) with ["producer"; "submissions"; "lookup_id_by_prefix"; escape p].
    cbv beta iota. rewrite bool_decide_eq_true_2 by done. rewrite match_prefix; [|by rewrite escape_empty]. cbv beta iota. rewrite bool_decide_eq_true_2 by done.
    by rewrite decode_escape, Hd. }
  unfold client_lookup. rewrite E, (route_plain p Hp). done.
Qed.
Print Assumptions C60_dot_refuted.
(** Whatever the prefix, the path that is sent is of printable characters, so that it is a request. *)
Definition printable (c : ascii) : Prop := 32 < N_of_ascii c < 127.
Lemma hex_printable n : n < 16 -> printable (hex_char n).
Proof. intros H. unfold hex_char, printable. destruct (n <? 10) eqn:E; [apply N.ltb_lt in E|apply N.ltb_ge in E]; rewrite N_ascii_embedding; lia. Qed.
Lemma escape_printable s : all_chars printable (escape s).
Proof.
  induction s as [|c s IH]; [done|]. cbn [escape]. destruct (escaped_char c) eqn:E.
  - split; [done|]. split; [apply hex_printable|split; [apply hex_printable; apply N.mod_lt; lia|done]].
    apply N.div_lt_upper_bound; [lia|]. apply N_ascii_bounded.
  - split; [|done]. unfold escaped_char in E. apply orb_false_iff in E as [[E1 E2]%orb_false_iff _]. apply N.leb_gt in E1, E2. done.
Qed.
Lemma settle_printable l before : Forall (all_chars printable) before -> Forall (all_chars printable) (settle before l).
Proof.
  revert before. induction l as [|s l IH]; intros before H; cbn [settle].
  - by apply Forall_reverse.
  - apply IH. assert (Hb : Forall (all_chars printable) (if two_dots s then tail before else if one_dot s then before else escape s :: before)).
    { destruct (two_dots s); [by apply Forall_tail|]. destruct (one_dot s); [done|]. constructor; [apply escape_printable|done]. }
    destruct l; [|done]. destruct (_ || _); [by constructor|done].
Qed.
Theorem C60_request_line : forall p s, s ∈ url_segments (h_path (to_http (PByPrefix p))) -> all_chars printable s.
Proof.
  intros p s Hs. assert (Forall (all_chars printable) (url_segments (h_path (to_http (PByPrefix p))))) as H; [|rewrite Forall_forall in H; by apply H].
  rewrite prefix_segments. apply settle_printable. by repeat constructor; vm_compute.
Qed.
Print Assumptions C60_request_line.
Example C60_example :
  let h := [quiet (OInsert 1 (Some "r%-1") [None] None ∅ 1 "o" 1); quiet (OInsert 5 (Some "../count") [None] None ∅ 1 "o" 1)] in
  fresh_ids h /\ ids_fit h /\ plain_prefix "r%-1" /\ client_lookup (after h) "r%-1" = Some (Some 1) /\
  escapes "a?b/" "a%3fb%2F" /\ client_lookup (after h) "%72%%2D1" = Some (Some 1) /\ client_lookup (after h) "r%-1 " = Some (Some 1) /\
  client_lookup (after h) "../count" = Some (Some 2) /\ client_lookup (after h) "..%2Fcount" = Some (Some 5) /\ client_lookup (after h) "a/../r%-1" = Some (Some 1).
Proof.
  split; [apply (bool_decide_unpack _); by vm_compute|]. split; [by repeat constructor|]. split.
  - split; [done|]. split; [done|]. split; [done|]. split; [|split].
    + cbn [all_chars]. repeat split; vm_compute; discriminate.
    + intros l c E. repeat (destruct l as [|? l]; [injection E; intros; subst; try done|]; try discriminate E). 
    + intros l a b x y r E Ha _. destruct l as [|? [|? l]]; try discriminate E.
      * injection E as _ <- _ _. apply digit_hex in Ha. discriminate Ha.
      * by repeat (destruct l as [|? l]; try discriminate E).
  - split; [by vm_compute|]. split; [|split_and!; by vm_compute].
    apply EscChar; [done..|]. apply (EscByte _ _ _ _ 3 15); [done|by left|by left|].
    apply EscChar; [done..|]. apply (EscByte _ _ _ _ 2 15); [done|by left|by right|]. constructor.
Qed.
