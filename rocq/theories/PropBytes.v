(** ** C85 and C86 down to the bytes: messages survive the formats they travel in. *)
From Coq Require Import Ascii.
From Verif Require Import BytesProofs.
From Verif Require Import Rfc3339 Rfc3339Proofs.
Local Open Scope N_scope.

(** *** Consumers: CBOR *)
(** The values that a message is made of, as RFC 8949 gives their bytes. *)
Example C85_cbor_example :
  cbor_write (WObj [("a", WNum 10); ("b", WList [WNum 500; WNum (-1); WNull])]) =
    string_of_list_ascii (ascii_of_N <$> [162; 97; 97; 10; 97; 98; 131; 25; 1; 244; 32; 246]) /\
  cbor_write (WNum 1000000) = string_of_list_ascii (ascii_of_N <$> [26; 0; 15; 66; 64]) /\
  cbor_write (WNum (-1000)) = string_of_list_ascii (ascii_of_N <$> [57; 3; 231]) /\
  cbor_write (WNum 18446744073709551615) = string_of_list_ascii (ascii_of_N <$> [27; 255; 255; 255; 255; 255; 255; 255; 255]) /\
  cbor_write (WText "IETF") = string_of_list_ascii (ascii_of_N <$> [100; 73; 69; 84; 70]).
Proof. split_and!; by vm_compute. Qed.

(** A message of the server that fits in a frame is read from its bytes as it was, whatever follows
    it; and the frame is as long as Wire.v computes. *)
Theorem C85_server_bytes : forall m rest, server_msg_ok m -> ~ too_large (enc_to_client m) ->
  from_reader dec_to_client (cbor_write (enc_to_client m) +:+ rest) = Some m.
Proof.
  intros m rest H Hl. unfold from_reader. rewrite cbor_read_write.
  - cbn [mbind option_bind fst]. by apply dec_enc_to_client.
  - by apply carries_to_client.
  - unfold too_large, frame_limit in Hl. lia.
  - pose proof (depth_to_client m). unfold cbor_depth. lia.
Qed.
Print Assumptions C85_server_bytes.
(** A message of a consumer too, if its strategy is not nested deeper than 127; a deeper one the
    server cannot read. *)
Theorem C85_client_bytes_partial : forall e rest, u64_ok (e_nonce e) -> client_msg_ok (e_msg e) -> ~ too_large (enc_to_server e) ->
  (msg_nesting (e_msg e) <= 127)%nat ->
  from_reader (dec_to_server cbor_depth) (cbor_write (enc_to_server e) +:+ rest) = Some e.
Proof.
  intros e rest H1 H2 Hl Hn. unfold from_reader. rewrite cbor_read_write.
  - cbn [mbind option_bind fst]. apply dec_enc_to_server; [done|done|]. unfold cbor_depth. lia.
  - by apply carries_to_server.
  - unfold too_large, frame_limit in Hl. lia.
  - rewrite depth_to_server. unfold cbor_depth. destruct (e_msg e); cbn [msg_nesting] in Hn; lia.
Qed.
Print Assumptions C85_client_bytes_partial.
Theorem C85_nesting_refuted : forall n max s rest, u64_ok n -> u64_ok max -> ~ too_large (enc_to_server (ToServer n (WantToReserve max s))) ->
  (127 < nesting s)%nat ->
  from_reader (dec_to_server cbor_depth) (cbor_write (enc_to_server (ToServer n (WantToReserve max s))) +:+ rest) = None.
Proof.
  intros n max s rest H1 H2 Hl Hn. unfold from_reader. rewrite cbor_read_deep; [done|by apply carries_to_server| |].
  - unfold too_large, frame_limit in Hl. lia.
  - rewrite depth_to_server. cbn [e_msg]. unfold cbor_depth. lia.
Qed.
Print Assumptions C85_nesting_refuted.
Fixpoint deep (n : nat) : strategy := match n with O => Random | S n => PreferDistinct "k" (deep n) end.
Example C85_nesting_example :
  nesting (deep 126) = 127%nat /\ nesting (deep 127) = 128%nat /\ ~ too_large (enc_to_server (ToServer 1 (WantToReserve 2 (deep 127)))) /\
  from_reader (dec_to_server cbor_depth) (cbor_write (enc_to_server (ToServer 1 (WantToReserve 2 (deep 126))))) = Some (ToServer 1 (WantToReserve 2 (deep 126))) /\
  from_reader (dec_to_server cbor_depth) (cbor_write (enc_to_server (ToServer 1 (WantToReserve 2 (deep 127))))) = None.
Proof.
  split_and!; try (by vm_compute).
Qed.
(** A message that is cut off anywhere is no message. *)
Theorem C85_cut_off : forall w p c q, cbor_carries w -> ~ too_large w -> cbor_write w = p +:+ String c q -> forall d, cbor_read d p = None.
Proof.
  intros w p c q H Hl E d. destruct (cbor_read d p) as [[w' r]|] eqn:Er; [|done]. exfalso.
  apply (cbor_read_more _ _ _ _ (String c q)) in Er. rewrite <- E in Er.
  destruct (decide (depth_of w <= d)%nat) as [Hd|Hd].
  - rewrite <- (append_nil (cbor_write w)), cbor_read_write in Er; [|done|unfold too_large, frame_limit in Hl; lia|done]. by destruct r.
  - rewrite <- (append_nil (cbor_write w)), cbor_read_deep in Er; [done|done|unfold too_large, frame_limit in Hl; lia|lia].
Qed.
Print Assumptions C85_cut_off.
Example C85_cut_off_example :
  let m := cbor_write (enc_to_client (SExpired (3, 4))) in
  String.length m = 61%nat /\ forallb (fun k => match cbor_read cbor_depth (substring 0 k m) with None => true | Some _ => false end) (seq 0 61) = true /\
  from_reader dec_to_client m = Some (SExpired (3, 4)).
Proof. split_and!; by vm_compute. Qed.

(** *** Producers: JSON *)
Example C85_json_example :
  json_write (WObj [("a", WList [WNum 0; WNum (-10); WNull]); ("b", WText (String (ascii_of_N 34) (String (ascii_of_N 10) (String (ascii_of_N 1) "/é"))))]) =
  "{""a"":[0,-10,null],""b"":""\""\n\u0001/é""}".
Proof. by vm_compute. Qed.
(** What the server makes of the text of a body: 400 if it is no JSON. *)
Definition received (h : http) : reading :=
  match h_body h with
  | None => from_http h
  | Some b =>
    match json_read json_depth (json_write b) with
    | Some (w, EmptyString) => from_http (Http (h_method h) (h_path h) (Some w))
    | _ => RefusedWith 400
    end
  end.
Theorem C85_request_bytes : forall q, request_ok q -> received (to_http q) = from_http (to_http q).
Proof.
  intros q Hq. unfold received. destruct (h_body (to_http q)) as [b|] eqn:Hb; [|done].
  assert (wide (- 2 ^ 63) (2 ^ 64)) as Hw by (unfold wide; lia).
  destruct (carries_request _ _ q b Hw Hq Hb) as [H1 H2].
  rewrite <- (append_nil (json_write b)), json_read_write; [|done|unfold json_depth; lia|done].
  rewrite <- Hb. by destruct (to_http q).
Qed.
Print Assumptions C85_request_bytes.
(** What a producer's client makes of the text of an answer's body; no value if it is no JSON. *)
Definition over_the_line (a : N * option wire) : N * option wire :=
  (a.1, b ← a.2; match json_read json_depth (json_write b) with Some (w, EmptyString) => Some w | _ => None end).
(** With the times as texts too (from the year 0 to 9999: part of [answer_ok]). *)
Theorem C85_answer_bytes : forall q r, answer_ok q r ->
  from_answer q (over_the_line (to_answer r)) = outcome q (XResp r None).
Proof.
  intros q r H. rewrite <- (reads_answer q r H). unfold over_the_line.
  assert ((exists i b, q = PCancel i /\ r = Http200 b) \/ forall w, (to_answer r).2 = Some w -> json_carries w /\ (depth_of w <= 4)%nat) as [(i & b & -> & ->)|Hw].
  { assert (wide (- 2 ^ 63) (2 ^ 64)) as Hwide by (unfold wide; lia).
    assert (forall n, n < 2 ^ 64 -> json_carries (enc_n n) /\ (depth_of (enc_n n) <= 4)%nat) as Hn.
    { intros n Hn; split; [by apply carries_n|cbn; lia]. }
    assert (forall n, u63_ok n -> json_carries (enc_n n) /\ (depth_of (enc_n n) <= 4)%nat) as Hn' by (unfold u63_ok; intros n Hn'; apply Hn; lia).
    destruct r as [b|max|i|st|e|]; cbn [answer_ok to_answer snd] in *; unfold u64_ok in *.
    - assert ((exists i, q = PCancel i) \/ forall i, q <> PCancel i) as [[i ->]|Hq] by (destruct q; eauto; right; congruence); [left; by eexists _, _|]. right. intros w Hw.
      destruct b as [|i|o|l|o|n]; cbn [enc_body] in Hw; try done; assert (w = _) as -> by (symmetry; apply (inj Some); exact Hw);
        destruct q; cbn [body_ok] in H; try done; try (by destruct (Hq id)).
      + by apply Hn'.
      + destruct o as [i|]; [by apply Hn', H|by split; [|cbn; lia]].
      + split.
        * apply carries_list, Forall_fmap. eapply Forall_impl; [exact H|]. intros i Hi. by apply Hn'.
        * transitivity 1%nat; [|lia]. apply depth_list, Forall_fmap, Forall_true. intros i. apply Nat.le_refl.
      + destruct o as [st|]; [|by split; [|cbn; lia]]. cbn [enc_opt]. apply carries_status; [done|by apply H].
      + by apply Hn.
      + by apply Hn.
    - right. intros w Hw. assert (w = enc_n max) as -> by congruence. by apply Hn.
    - right. intros w Hw. assert (w = enc_n i) as -> by congruence. by apply Hn'.
    - right. intros w Hw. assert (w = enc_status st) as -> by congruence. destruct H as [H _]; by apply carries_status.
    - by right.
    - by right. }
  - cbn [to_answer fst snd]. unfold from_answer. done.
  - destruct (to_answer r) as [c [w|]]; cbn [fst snd mbind option_bind] in *; [|done]. destruct (Hw w eq_refl) as [H1 H2].
    rewrite <- (append_nil (json_write w)), json_read_write; [done|done|unfold json_depth; lia|done].
Qed.
Print Assumptions C85_answer_bytes.
(** The text of an answer with a time in it. *)
Example C85_time_example :
  let s := SubmissionCompleted 7 None 2 1 None ∅ 1717237230122986316 "o" in
  json_write (enc_opt enc_status (Some (Completed s))) =
    "{""Completed"":{""id"":7,""prefix"":null,""chunks_total"":2,""chunk_size"":1,""metadata"":null,""strategic_metadata"":{},""completed_at"":""2024-06-01T10:20:30.122986316Z"",""otel_trace_carrier"":""o""}}" /\
  from_answer (PStatus 7) (over_the_line (200, Some (enc_opt enc_status (Some (Completed s))))) = inr (BStatus (Some (Completed s))) /\
  dec_time (WText "2023-02-29T00:00:00Z") = None.
Proof. split_and!; by vm_compute. Qed.
(** *** The calendar of the times *)
(** Day 0 is 1 January 1970, and the dates of the days before and after follow by the rules for months and leap years. *)
Theorem C85_calendar : civil_of_days 0 = (1970, 1, 1)%Z /\ forall n, civil_of_days (n + 1) = next_day (civil_of_days n).
Proof. split; [by vm_compute|apply civil_next]. Qed.
Print Assumptions C85_calendar.
Example C85_calendar_example :
  civil_of_days 19782 = (2024, 2, 29)%Z /\ civil_of_days 19783 = (2024, 3, 1)%Z /\ civil_of_days (-25508) = (1900, 3, 1)%Z /\ civil_of_days (-25509) = (1900, 2, 28)%Z.
Proof. split_and!; by vm_compute. Qed.
Example C85_answer_bytes_example :
  json_write (enc_list enc_n [1; 20; 300]) = "[1,20,300]" /\ from_slice (dec_list dec_u63) "[1,20,300]" = Some [1; 20; 300] /\
  from_slice (dec_opt dec_u63) "null" = Some None /\ from_slice dec_u63 "9223372036854775808" = None /\ from_slice dec_u63 "1 2" = None.
Proof. split_and!; by vm_compute. Qed.

(** ** C86: the lengths that the limits are about are those of the bytes. *)
Theorem C86_lengths :
  (forall e, u64_ok (e_nonce e) -> client_msg_ok (e_msg e) -> (too_large (enc_to_server e) <-> frame_limit < bytes (cbor_write (enc_to_server e)))) /\
  (forall m, server_msg_ok m -> (too_large (enc_to_client m) <-> frame_limit < bytes (cbor_write (enc_to_client m)))) /\
  (forall q b, request_ok q -> h_body (to_http q) = Some b -> request_size q = bytes (json_write b)).
Proof.
  split_and!.
  - intros e H1 H2. rewrite bytes_cbor; [done|]. by apply carries_to_server.
  - intros m H. rewrite bytes_cbor; [done|]. by apply carries_to_client.
  - intros q b Hq Hb. assert (wide (- 2 ^ 63) (2 ^ 64)) as Hw by (unfold wide; lia).
    destruct (carries_request _ _ q b Hw Hq Hb) as [H1 _]. unfold request_size. rewrite Hb. symmetry. by apply bytes_json.
Qed.
Print Assumptions C86_lengths.
Example C86_lengths_example :
  request_size (PInsert (Direct [Some "ab"; None]) None ∅ (Some 2%Z)) =
  bytes "{""chunk_contents"":{""Direct"":{""contents"":[[97,98],null]}},""metadata"":null,""strategic_metadata"":{},""chunk_size"":2}".
Proof. by vm_compute. Qed.
