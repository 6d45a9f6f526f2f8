(** C106: the trace of a producer and the chunks of its submissions. *)
From Coq Require Import Ascii.
From Verif Require Import AnswerProofs PropQueue SpacingProofs LeakProofs CountProofs PropServer WorldProofs BytesProofs PropGiven.
From Verif Require Import Trace.
Local Open Scope N_scope.

(** *** Specification *)
(** Numbers in hexadecimal, and the header "traceparent" of W3C Trace Context. *)
Inductive denotes : string -> N -> Prop :=
| denotes_nil : denotes "" 0
| denotes_snoc s n i c : denotes s n -> String.get i "0123456789abcdef" = Some c -> denotes (s +:+ String c "") (16 * n + N.of_nat i).
Definition w3c (x : span_context) (s : string) : Prop :=
  exists t p, denotes t (sx_trace x) /\ String.length t = 32%nat /\ denotes p (sx_span x) /\ String.length p = 16%nat /\
    s = "00-" +:+ t +:+ "-" +:+ p +:+ "-" +:+ (if sx_sampled x then "01" else "00").
Definition valid (x : span_context) : Prop := 0 < sx_trace x < 2 ^ 128 /\ 0 < sx_span x < 2 ^ 64.
Definition drawn (d : draw) : Prop := 0 < d_trace d < 2 ^ 128 /\ 0 < d_span d < 2 ^ 64.
(** What a producer sends along in span [x]: possibly more than the one header, but headers. *)
Definition carries (c : carrier) (x : span_context) : Prop :=
  (exists s, c !! "traceparent"%string = Some s /\ w3c x s) /\
  forall k s, c !! k = Some s -> is_header (k, s) = true /\ (lower_name k = "traceparent"%string -> k = "traceparent"%string).

(** *** Proofs *)
Lemma digit_facts i c : String.get i "0123456789abcdef" = Some c ->
  unhex c = Some (N.of_nat i) /\ c <> "-"%char /\ upper c = false /\ N.of_nat i < 16 /\ c = hex (N.of_nat i).
Proof. do 16 (destruct i as [|i]; [cbn; intros [= <-]; by vm_compute|]). by destruct i. Qed.
Lemma hex_get n : n < 16 -> String.get (N.to_nat n) "0123456789abcdef" = Some (hex n).
Proof.
  intros H. assert (E : exists k, (k < 16)%nat /\ n = N.of_nat k) by (exists (N.to_nat n); lia). destruct E as (k & Hk & ->). rewrite Nat2N.id.
  do 16 (destruct k as [|k]; [by vm_compute|]). lia.
Qed.
Lemma list_ascii_append a b : list_ascii_of_string (a +:+ b) = list_ascii_of_string a ++ list_ascii_of_string b.
Proof. induction a as [|c a IH]; [done|]. cbn. by rewrite <- IH. Qed.
Lemma append_length a b : String.length (a +:+ b) = (String.length a + String.length b)%nat.
Proof. induction a as [|c a IH]; [done|]. cbn. by rewrite <- IH. Qed.
Lemma hexw_length w : forall n, String.length (hexw w n) = w.
Proof. induction w as [|w IH]; intros n; [done|]. cbn [hexw]. rewrite append_length, IH. cbn. lia. Qed.
Lemma hexw_denotes w : forall n, n < 16 ^ N.of_nat w -> denotes (hexw w n) n.
Proof.
  induction w as [|w IH]; intros n Hn; [cbn in *; replace n with 0 by lia; constructor|].
  assert (Hm : n mod 16 < 16) by (apply N.mod_lt; lia). cbn [hexw].
  replace n with (16 * (n / 16) + N.of_nat (N.to_nat (n mod 16))) at 3 by (rewrite N2Nat.id; symmetry; apply N.div_mod; lia).
  apply (denotes_snoc _ _ _ (hex (n mod 16))); [|by apply hex_get]. apply IH. apply N.div_lt_upper_bound; [lia|].
  rewrite Nat2N.inj_succ, N.pow_succ_r in Hn by lia. exact Hn.
Qed.
Lemma denotes_facts s n : denotes s n -> 
  foldl (fun (a : option N) c => n ← a; d ← unhex c; Some (16 * n + d)) (Some 0) (list_ascii_of_string s) = Some n /\
  Forall (fun c => c <> "-"%char /\ upper c = false) (list_ascii_of_string s).
Proof.
  induction 1 as [|s n i c Hs [IH1 IH2] Hc]; [split; [done|constructor]|]. destruct (digit_facts _ _ Hc) as (H1 & H2 & H3 & _). rewrite list_ascii_append. split.
  - rewrite foldl_app, IH1. cbn. by rewrite H1.
  - apply Forall_app. split; [done|]. by repeat constructor.
Qed.
Lemma read_denotes s n w : denotes s n -> String.length s = S w -> read_hex s = Some n.
Proof. intros H Hl. unfold read_hex. destruct s; [done|]. by apply denotes_facts. Qed.
Lemma not_upper s n : denotes s n -> existsb upper (list_ascii_of_string s) = false.
Proof.
  intros [_ H]%denotes_facts. destruct (existsb _ _) eqn:E; [|done]. apply existsb_exists in E as (c & Hc & Hu). rewrite Forall_forall in H.
  destruct (H c) as [_ ?]; [by apply elem_of_list_In|congruence].
Qed.
Lemma split_first a b : Forall (fun c => c <> "-"%char) (list_ascii_of_string a) -> split_dash (a +:+ String "-" b) = a :: split_dash b.
Proof.
  induction a as [|c a IH]; intros H; [done|]. cbn in H. apply Forall_cons in H as [H1 H2]. change (String c a +:+ String "-" b) with (String c (a +:+ String "-" b)).
  cbn [split_dash]. destruct (ascii_dec c "-"); [done|]. by rewrite IH.
Qed.
Lemma no_dash s n : denotes s n -> Forall (fun c => c <> "-"%char) (list_ascii_of_string s).
Proof. intros [_ H]%denotes_facts. eapply Forall_impl; [exact H|]. by intros c []. Qed.
Lemma read_w3c x s : valid x -> w3c x s -> read_parent s = Some x.
Proof.
  intros [[Ht1 Ht2] [Hp1 Hp2]] (t & p & Ht & Lt & Hp & Lp & ->). destruct x as [tr sp b]. cbn in *. unfold read_parent.
  change ("00-" +:+ t +:+ "-" +:+ p +:+ "-" +:+ (if b then "01" else "00")) with ("00" +:+ String "-" (t +:+ String "-" (p +:+ String "-" (if b then "01" else "00")))).
  rewrite !split_first by (by repeat constructor || by eapply no_dash).
  assert (E : split_dash (if b then "01" else "00") = [if b then "01" else "00"]%string) by (by destruct b). rewrite E.
  change (read_hex "00") with (Some 0). cbn [mbind option_bind]. rewrite (read_denotes t tr 31 Ht Lt), (read_denotes p sp 15 Hp Lp). cbn [mbind option_bind].
  assert (E2 : read_hex (if b then "01" else "00") = Some (if b then 1 else 0)) by (by destruct b). rewrite E2. cbn [mbind option_bind].
  rewrite (not_upper t tr Ht), (not_upper p sp Hp).
  rewrite (proj2 (N.leb_gt (2 ^ 128) tr) Ht2), (proj2 (N.leb_gt (2 ^ 64) sp) Hp2). rewrite (proj2 (N.eqb_neq tr 0)), (proj2 (N.eqb_neq sp 0)) by lia. by destruct b.
Qed.
Lemma write_w3c x : valid x -> w3c x (write_parent x).
Proof.
  intros [[_ Ht] [_ Hp]]. exists (hexw 32 (sx_trace x)), (hexw 16 (sx_span x)). split_and!; try apply hexw_length; try apply hexw_denotes; done.
Qed.
Lemma headers_context c x : valid x -> carries c x -> context_from_headers (to_headers c) = Some x.
Proof.
  intros Hv [(s & Hs & Hw) Hall]. unfold to_headers.
  assert (E : forallb is_header (map_to_list c) = true).
  { apply forallb_forall. intros [k t] Hin. apply elem_of_list_In, elem_of_map_to_list in Hin. by apply Hall. }
  rewrite E. unfold context_from_headers, header.
  destruct (list_find_elem_of (fun x : string * string => x.1 = "traceparent"%string) ((fun x => (lower_name x.1, x.2)) <$> map_to_list c) ("traceparent"%string, s)) as [[i y] Hy]; [|done|].
  - apply elem_of_list_fmap. exists ("traceparent"%string, s). split; [by vm_compute|]. by apply elem_of_map_to_list.
  - rewrite Hy. cbn. apply list_find_Some in Hy as (Hi & Hn & _). apply elem_of_list_lookup_2, elem_of_list_fmap in Hi as ([k t] & -> & Hk).
    apply elem_of_map_to_list in Hk. cbn in *. destruct (Hall _ _ Hk) as [_ Hl]. rewrite (Hl Hn) in Hk. rewrite Hs in Hk. injection Hk as <-. by apply read_w3c.
Qed.
Lemma no_headers : context_from_headers [] = None.
Proof. done. Qed.
Lemma json_context y : json_to_carrier (context_to_json (Some y)) = {[ "traceparent" := write_parent y; "tracestate" := "" ]}%string.
Proof.
  unfold json_to_carrier, context_to_json, from_slice. rewrite <- (append_nil (json_write _)). rewrite json_read_write; [|done|cbn; unfold json_depth; lia|done].
  cbn. by rewrite insert_commute.
Qed.
Lemma json_no_context : json_to_carrier (context_to_json None) = ∅.
Proof. by vm_compute. Qed.

(** ** C106 *)
(** [f]: the filter of the server's log; [car]: what the producer sent along with the insert that made the
    submission; [k]: what the function that works on the chunk gets. *)
Definition traced (f : option level) (car : carrier) (d3 : draw) (h : history) (id : sub_id) : Prop :=
  exists a d1 d2, inserted_with h id a /\ drawn d1 /\ drawn d2 /\ drawn d3 /\ ia_otel a = context_to_json (insert_context f d1 d2 d3 (to_headers car)).
(** If the server's log includes the level DEBUG, the chunks go on in the trace in which the submission was made. *)
Theorem C106_continued_partial : forall cfg h now tr s, run_to cfg anything (server_start h now) tr s -> fresh_ids (s_hist s) ->
  forall lo c n g ch sub, lo ∈ tr -> Given c n g ∈ lo.2 -> (ch, sub) ∈ g ->
  forall f car x d3, f = Some DEBUG \/ f = Some TRACE -> valid x -> carries car x -> traced f car d3 (s_hist s) (c_sub ch) ->
  exists y t, json_to_carrier (s_otel sub) !! "traceparent"%string = Some t /\ w3c y t /\ valid y /\ sx_trace y = sx_trace x /\ sx_sampled y = sx_sampled x.
Proof.
  intros cfg h now tr s Hr Hf lo c n g ch sub Hlo Hg Hin f car x d3 Hd Hv Hc (a & d1 & d2 & Ha & H1 & H2 & H3 & Eo).
  destruct (C105_as_submitted _ _ _ _ _ Hr Hf _ _ _ _ _ _ Hlo Hg Hin) as (a' & Hu & _ & _ & _ & _ & _ & _ & _ & E). apply Hu in Ha as <-.
  rewrite E, Eo. unfold insert_context. rewrite (headers_context car x Hv Hc).
  assert (Ei : enter f INFO None d3 (enter f DEBUG None d2 (enter f DEBUG (Some (Some x)) d1 None)) = Some (SpanContext (sx_trace x) (d_span d3) (sx_sampled x))) by (by destruct Hd as [->| ->]).
  rewrite Ei. exists (SpanContext (sx_trace x) (d_span d3) (sx_sampled x)), (write_parent (SpanContext (sx_trace x) (d_span d3) (sx_sampled x))).
  assert (Hy : valid (SpanContext (sx_trace x) (d_span d3) (sx_sampled x))). { destruct Hv as [Hv _], H3 as [_ H3]. by split. }
  rewrite json_context, lookup_insert. split_and!; try done. by apply write_w3c.
Qed.
Print Assumptions C106_continued_partial.
(** Otherwise they do not, and the default is otherwise: with INFO, WARN and ERROR the spans of the request do not exist.
    With INFO the span of the insert starts a trace of its own, whatever the producer sent; with less there is no
    trace at all. *)
Theorem C106_default_refuted : forall cfg h now tr s, run_to cfg anything (server_start h now) tr s -> fresh_ids (s_hist s) ->
  forall lo c n g ch sub, lo ∈ tr -> Given c n g ∈ lo.2 -> (ch, sub) ∈ g ->
  forall car d3, traced default_filter car d3 (s_hist s) (c_sub ch) ->
  exists y t, json_to_carrier (s_otel sub) !! "traceparent"%string = Some t /\ w3c y t /\ sx_trace y = d_trace d3 /\ sx_sampled y = d_sampled d3.
Proof.
  intros cfg h now tr s Hr Hf lo c n g ch sub Hlo Hg Hin car d3 (a & d1 & d2 & Ha & H1 & H2 & H3 & Eo).
  destruct (C105_as_submitted _ _ _ _ _ Hr Hf _ _ _ _ _ _ Hlo Hg Hin) as (a' & Hu & _ & _ & _ & _ & _ & _ & _ & E). apply Hu in Ha as <-.
  rewrite E, Eo. change (insert_context default_filter d1 d2 d3 (to_headers car)) with (Some (SpanContext (d_trace d3) (d_span d3) (d_sampled d3))).
  exists (SpanContext (d_trace d3) (d_span d3) (d_sampled d3)), (write_parent (SpanContext (d_trace d3) (d_span d3) (d_sampled d3))).
  rewrite json_context, lookup_insert. split_and!; try done. by apply write_w3c.
Qed.
Print Assumptions C106_default_refuted.
Theorem C106_quiet_refuted : forall f d1 d2 d3 car, f = None \/ f = Some WARN \/ f = Some ERROR ->
  json_to_carrier (context_to_json (insert_context f d1 d2 d3 (to_headers car))) = ∅.
Proof. by intros f d1 d2 d3 car [->|[->| ->]]. Qed.
Print Assumptions C106_quiet_refuted.
(** One entry that is no header, and all is lost. *)
Theorem C106_one_bad_refuted : forall car k s, car !! k = Some s -> is_header (k, s) = false -> forall f d1 d2 d3,
  insert_context f d1 d2 d3 (to_headers car) = insert_context f d1 d2 d3 (to_headers ∅).
Proof.
  intros car k s Hk Hb f d1 d2 d3. assert (E : to_headers car = []).
  { unfold to_headers. destruct (forallb _ _) eqn:E; [|done]. rewrite forallb_forall in E. rewrite (E (k, s)) in Hb; [done|]. by apply elem_of_list_In, elem_of_map_to_list. }
  by rewrite E.
Qed.
Print Assumptions C106_one_bad_refuted.
(** A run with DEBUG, as in C105_example: the producer's span 00..0a-00..0b, and the span of the insert. *)
Definition ex_span : span_context := SpanContext 10 11 true.
Definition ex_car : carrier := {[ "traceparent" := "00-0000000000000000000000000000000a-000000000000000b-01"; "baggage" := "k=v" ]}%string.
Definition ex_draw (n : N) : draw := Draw n (n + 1) false.
Definition ex_traced (f : option level) : history :=
  [quiet (OInsert 2 None [None; None] None ∅ 10 (context_to_json (insert_context f (ex_draw 100) (ex_draw 200) (ex_draw 300) (to_headers ex_car))) 1)].
Lemma ex_carries : carries ex_car ex_span.
Proof.
  split.
  - exists "00-0000000000000000000000000000000a-000000000000000b-01"%string. split; [by vm_compute|].
    change "00-0000000000000000000000000000000a-000000000000000b-01"%string with (write_parent ex_span). by apply write_w3c.
  - intros k s Hk. unfold ex_car in Hk. apply lookup_insert_Some in Hk as [[<- <-]|[_ Hk]]; [by vm_compute|]. apply lookup_singleton_Some in Hk as [<- <-]. by vm_compute.
Qed.
Definition ex_asked : list (state -> label) := does [LConnect 1] ++ get_one 1.
Lemma ex_given f : exists tr s lo g ch sub, run_to ex_cfg anything (server_start (ex_traced f) 0) tr s /\ fresh_ids (s_hist s) /\
  lo ∈ tr /\ Given 1 77 g ∈ lo.2 /\ (ch, sub) ∈ g /\ traced f ex_car (ex_draw 300) (s_hist s) (c_sub ch).
Proof.
  destruct (by_play ex_cfg (fun _ _ _ => true) anything (ex_traced f) 0 ex_asked
    (fun tr s => bool_decide (fresh_ids (s_hist s)) && match last tr with Some (_, [Given 1 77 [(ch, sub)]]) => c_sub ch =? 2 | _ => false end))
    as (tr & s & Hr & HP); [done|by destruct f as [[]|]; vm_compute|].
  apply andb_true_iff in HP as [H1 H2]. apply bool_decide_eq_true_1 in H1. destruct (last tr) as [[l o]|] eqn:El; [|done].
  assert (H3 : exists ch sub, o = [Given 1 77 [(ch, sub)]] /\ c_sub ch = 2).
  { repeat case_match; simplify_eq; try done. apply N.eqb_eq in H2. eauto. }
  destruct H3 as (ch & sub & -> & Ec). exists tr, s, (l, [Given 1 77 [(ch, sub)]]), [(ch, sub)], ch, sub. split_and!; try done; try by left.
  - apply last_Some in El as [t ->]. apply elem_of_app. right. left.
  - destruct (run_hist _ _ _ _ _ Hr) as [t Et]. cbn in Et. rewrite Et, Ec.
    exists (InsertArgs None [None; None] None ∅ 10 (context_to_json (insert_context f (ex_draw 100) (ex_draw 200) (ex_draw 300) (to_headers ex_car)))), (ex_draw 100), (ex_draw 200).
    split_and!; try done. eexists _, 1%Z. split; [left|done].
Qed.
Example C106_example :
  (exists tr s lo g ch sub, run_to ex_cfg anything (server_start (ex_traced (Some DEBUG)) 0) tr s /\ fresh_ids (s_hist s) /\
     lo ∈ tr /\ Given 1 77 g ∈ lo.2 /\ (ch, sub) ∈ g /\ traced (Some DEBUG) ex_car (ex_draw 300) (s_hist s) (c_sub ch)) /\
  (exists tr s lo g ch sub, run_to ex_cfg anything (server_start (ex_traced default_filter) 0) tr s /\ fresh_ids (s_hist s) /\
     lo ∈ tr /\ Given 1 77 g ∈ lo.2 /\ (ch, sub) ∈ g /\ traced default_filter ex_car (ex_draw 300) (s_hist s) (c_sub ch)) /\
  valid ex_span /\ carries ex_car ex_span /\
  context_to_json (insert_context (Some DEBUG) (ex_draw 100) (ex_draw 200) (ex_draw 300) (to_headers ex_car)) =
    "{""traceparent"":""00-0000000000000000000000000000000a-000000000000012d-01"",""tracestate"":""""}"%string /\
  context_to_json (insert_context default_filter (ex_draw 100) (ex_draw 200) (ex_draw 300) (to_headers ex_car)) =
    "{""traceparent"":""00-0000000000000000000000000000012c-000000000000012d-00"",""tracestate"":""""}"%string.
Proof. split; [apply ex_given|]. split; [apply ex_given|]. split; [done|]. split; [apply ex_carries|]. by vm_compute. Qed.
(** An entry that is no header. *)
Example C106_bad_example : exists car : carrier, car !! "traceparent"%string = ex_car !! "traceparent"%string /\
  car !! "k"%string = Some (String (ascii_of_N 10) "") /\ is_header ("k", String (ascii_of_N 10) "")%string = false /\
  context_from_headers (to_headers car) = None /\ context_from_headers (to_headers ex_car) = Some ex_span.
Proof. exists (<["k" := String (ascii_of_N 10) ""]> ex_car)%string. by vm_compute. Qed.
