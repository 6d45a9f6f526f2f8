(** What travels between the clients and the server: the JSON bodies and URLs of the producer API
    (producer/common.rs, producer/client.rs, producer/server.rs:62-86) and the CBOR messages of the
    consumer API (consumer/common.rs), as the serde derives of the types make and read them; and the
    limits on their sizes that the libraries set and the code leaves alone.

    Both formats carry the same values [wire]; the step from a value to its text (serde_json) or
    bytes (ciborium) and back is in Bytes.v. Not modelled: lenient forms that the readers accept and
    no writer makes (structs as arrays, unit variants as objects), Content-Type headers. *)
From Coq Require Import Ascii DecimalString DecimalN DecimalPos.
From Coq Require DecimalFacts.
From Verif Require Export ProducerClient Strategy.
From Verif Require Export Url.
From Verif Require Import Rfc3339.
Local Open Scope N_scope.

(** A value. *)
Inductive wire : Set :=
| WNull | WNum (z : Z) | WText (s : string)
| WList (l : list wire) | WObj (l : list (string * wire)).

(** *** serde: how the types are written and read *)
(** u64, usize and u63 (common/chunk.rs:24-41, common/submission.rs:25-44: written as u64, and read
    as u64 and then checked), i64, u8, u32. *)
Definition enc_n (n : N) : wire := WNum (Z.of_N n).
Definition dec_n (bound : N) (w : wire) : option N :=
  match w with WNum z => if (0 <=? z)%Z && (z <? Z.of_N bound)%Z then Some (Z.to_N z) else None | _ => None end.
Definition dec_u64 := dec_n (2 ^ 64).
Definition dec_u63 (w : wire) : option N := n ← dec_u64 w; if n <? 2 ^ 63 then Some n else None.
Definition dec_i64 (w : wire) : option Z :=
  match w with WNum z => if (- 2 ^ 63 <=? z)%Z && (z <? 2 ^ 63)%Z then Some z else None | _ => None end.
(** c_retries is an i64 that the model keeps as [N]. *)
Definition dec_retries (w : wire) : option N := z ← dec_i64 w; if (0 <=? z)%Z then Some (Z.to_N z) else None.
Definition dec_text (w : wire) : option string := match w with WText s => Some s | _ => None end.
(** DateTime<Utc>: its RFC 3339 text. *)
Definition enc_time (t : time) : wire := WText (time_text t).
Definition dec_time (w : wire) : option time := match w with WText s => read_time s | _ => None end.
(** Option<T>: null or the value. *)
Definition enc_opt {A} (f : A -> wire) (o : option A) : wire := match o with None => WNull | Some a => f a end.
Definition dec_opt {A} (f : wire -> option A) (w : wire) : option (option A) :=
  match w with WNull => Some None | _ => Some <$> f w end.
Definition enc_list {A} (f : A -> wire) (l : list A) : wire := WList (f <$> l).
Definition dec_list {A} (f : wire -> option A) (w : wire) : option (list A) :=
  match w with WList l => mapM f l | _ => None end.
(** Vec<u8>: serde has no bytes here, but a sequence of numbers. *)
Definition enc_bytes (s : string) : wire := enc_list (fun c => enc_n (N_of_ascii c)) (list_ascii_of_string s).
Definition dec_bytes (w : wire) : option string := (fun l => string_of_list_ascii (ascii_of_N <$> l)) <$> dec_list (dec_n 256) w.
(** HashMap<String, i64> (StrategicMetadataMap, common/mod.rs:14-15): the members in any order; of
    several with the same key the last one counts. *)
Definition enc_strat (m : strat_map) : wire := WObj (prod_map id WNum <$> map_to_list m).
Definition dec_strat (w : wire) : option strat_map :=
  match w with
  | WObj l => (fun l => list_to_map (reverse l)) <$> mapM (fun x => pair x.1 <$> dec_i64 x.2) l
  | _ => None
  end.
(** The fields of a struct: a field that comes twice is an error, an unknown one is ignored. One
    that is absent is an error, unless it is an Option, or marked #[serde(default)]. *)
Definition fld {A} (k : string) (f : wire -> option A) (absent : option A) (l : list (string * wire)) : option A :=
  match filter (fun x => x.1 = k) l with [] => absent | [x] => f x.2 | _ => None end.
Definition members (w : wire) : option (list (string * wire)) := match w with WObj l => Some l | _ => None end.
(** The variants of an enum: the name, or an object whose one member is the name with the fields. *)
Definition variant (w : wire) : option (string * option wire) :=
  match w with WText s => Some (s, None) | WObj [(s, v)] => Some (s, Some v) | _ => None end.
Definition pair_of (w : wire) : option (wire * wire) := match w with WList [a; b] => Some (a, b) | _ => None end.

(** ChunkId: common/chunk.rs:162-171. *)
Definition enc_cid (k : chunk_id) : wire := WObj [("submission_id", enc_n k.1); ("chunk_index", enc_n k.2)].
Definition dec_cid (w : wire) : option chunk_id :=
  l ← members w; a ← fld "submission_id" dec_u63 None l; b ← fld "chunk_index" dec_u63 None l; Some (a, b).
(** Chunk: common/chunk.rs:197-204. *)
Definition enc_chunk (c : chunk) : wire :=
  WObj [("submission_id", enc_n (c_sub c)); ("chunk_index", enc_n (c_index c));
        ("input_content", enc_opt enc_bytes (c_input c)); ("retries", enc_n (c_retries c))].
Definition dec_chunk (w : wire) : option chunk :=
  l ← members w; a ← fld "submission_id" dec_u63 None l; b ← fld "chunk_index" dec_u63 None l;
  i ← fld "input_content" (dec_opt dec_bytes) (Some None) l; r ← fld "retries" dec_retries None l;
  Some (Chunk a b i r).
(** ChunkFailed: common/chunk.rs:215-223. *)
Definition enc_chunk_failed (c : chunk_failed) : wire :=
  WObj [("submission_id", enc_n (kf_sub c)); ("chunk_index", enc_n (kf_index c));
        ("input_content", enc_opt enc_bytes (kf_input c)); ("failure", WText (kf_failure c)); ("failed_at", enc_time (kf_at c))].
Definition dec_chunk_failed (w : wire) : option chunk_failed :=
  l ← members w; a ← fld "submission_id" dec_u63 None l; b ← fld "chunk_index" dec_u63 None l;
  i ← fld "input_content" (dec_opt dec_bytes) (Some None) l; f ← fld "failure" dec_text None l;
  t ← fld "failed_at" dec_time None l; Some (ChunkFailed a b i f t).
(** Submission, SubmissionCompleted, SubmissionFailed, SubmissionCancelled: common/submission.rs:153-213. *)
Definition enc_submission (s : submission) : wire :=
  WObj [("id", enc_n (s_id s)); ("prefix", enc_opt WText (s_prefix s)); ("chunks_total", enc_n (s_total s));
        ("chunks_done", enc_n (s_done s)); ("chunk_size", WNum (s_size s)); ("metadata", enc_opt enc_bytes (s_meta s));
        ("strategic_metadata", enc_strat (s_strat s)); ("otel_trace_carrier", WText (s_otel s))].
Definition dec_submission (w : wire) : option submission :=
  l ← members w; i ← fld "id" dec_u63 None l; p ← fld "prefix" (dec_opt dec_text) (Some None) l;
  n ← fld "chunks_total" dec_u63 None l; d ← fld "chunks_done" dec_u63 None l; z ← fld "chunk_size" dec_i64 None l;
  m ← fld "metadata" (dec_opt dec_bytes) (Some None) l; st ← fld "strategic_metadata" dec_strat (Some ∅) l;
  o ← fld "otel_trace_carrier" dec_text None l; Some (Submission i p n d z m st o).
Definition enc_completed (s : submission_completed) : wire :=
  WObj [("id", enc_n (sc_id s)); ("prefix", enc_opt WText (sc_prefix s)); ("chunks_total", enc_n (sc_total s));
        ("chunk_size", WNum (sc_size s)); ("metadata", enc_opt enc_bytes (sc_meta s));
        ("strategic_metadata", enc_strat (sc_strat s)); ("completed_at", enc_time (sc_at s)); ("otel_trace_carrier", WText (sc_otel s))].
Definition dec_completed (w : wire) : option submission_completed :=
  l ← members w; i ← fld "id" dec_u63 None l; p ← fld "prefix" (dec_opt dec_text) (Some None) l;
  n ← fld "chunks_total" dec_u63 None l; z ← fld "chunk_size" dec_i64 None l;
  m ← fld "metadata" (dec_opt dec_bytes) (Some None) l; st ← fld "strategic_metadata" dec_strat (Some ∅) l;
  t ← fld "completed_at" dec_time None l; o ← fld "otel_trace_carrier" dec_text None l;
  Some (SubmissionCompleted i p n z m st t o).
Definition enc_failed (s : submission_failed) : wire :=
  WObj [("id", enc_n (sf_id s)); ("prefix", enc_opt WText (sf_prefix s)); ("chunks_total", enc_n (sf_total s));
        ("chunks_done", enc_opt enc_n (sf_done s)); ("chunk_size", WNum (sf_size s)); ("metadata", enc_opt enc_bytes (sf_meta s));
        ("strategic_metadata", enc_strat (sf_strat s)); ("failed_at", enc_time (sf_at s)); ("failed_chunk_id", enc_n (sf_chunk s));
        ("otel_trace_carrier", WText (sf_otel s))].
Definition dec_failed (w : wire) : option submission_failed :=
  l ← members w; i ← fld "id" dec_u63 None l; p ← fld "prefix" (dec_opt dec_text) (Some None) l;
  n ← fld "chunks_total" dec_u63 None l; d ← fld "chunks_done" (dec_opt dec_u63) (Some None) l;
  z ← fld "chunk_size" dec_i64 None l;
  m ← fld "metadata" (dec_opt dec_bytes) (Some None) l; st ← fld "strategic_metadata" dec_strat (Some ∅) l;
  t ← fld "failed_at" dec_time None l; c ← fld "failed_chunk_id" dec_u63 None l;
  o ← fld "otel_trace_carrier" dec_text None l; Some (SubmissionFailed i p n d z m st t c o).
Definition enc_cancelled (s : submission_cancelled) : wire :=
  WObj [("id", enc_n (sx_id s)); ("prefix", enc_opt WText (sx_prefix s)); ("chunks_total", enc_n (sx_total s));
        ("chunks_done", enc_n (sx_done s)); ("metadata", enc_opt enc_bytes (sx_meta s));
        ("strategic_metadata", enc_strat (sx_strat s)); ("cancelled_at", enc_time (sx_at s))].
Definition dec_cancelled (w : wire) : option submission_cancelled :=
  l ← members w; i ← fld "id" dec_u63 None l; p ← fld "prefix" (dec_opt dec_text) (Some None) l;
  n ← fld "chunks_total" dec_u63 None l; d ← fld "chunks_done" dec_u63 None l;
  m ← fld "metadata" (dec_opt dec_bytes) (Some None) l; st ← fld "strategic_metadata" dec_strat (Some ∅) l;
  t ← fld "cancelled_at" dec_time None l; Some (SubmissionCancelled i p n d m st t).
(** SubmissionStatus, common/submission.rs:215-221, and SubmissionNotCancellable,
    common/errors.rs:40-47, which has the last three variants. *)
Definition enc_status (s : status) : wire :=
  match s with
  | InProgress s => WObj [("InProgress", enc_submission s)]
  | Completed s => WObj [("Completed", enc_completed s)]
  | Failed s c => WObj [("Failed", WList [enc_failed s; enc_chunk_failed c])]
  | Cancelled s => WObj [("Cancelled", enc_cancelled s)]
  end.
Definition dec_not_cancellable (w : wire) : option status :=
  v ← variant w;
  match v with
  | ("Completed", Some w) => Completed <$> dec_completed w
  | ("Failed", Some w) => p ← pair_of w; s ← dec_failed p.1; c ← dec_chunk_failed p.2; Some (Failed s c)
  | ("Cancelled", Some w) => Cancelled <$> dec_cancelled w
  | _ => None
  end.
Definition dec_status (w : wire) : option status :=
  v ← variant w;
  match v with
  | ("InProgress", Some w) => InProgress <$> dec_submission w
  | _ => dec_not_cancellable w
  end.

(** *** Requests of producers *)
(** InsertSubmission and ChunkContents: producer/common.rs:5-31. *)
Definition enc_contents (c : chunk_contents) : wire :=
  match c with
  | SeeObjectStorage p n => WObj [("SeeObjectStorage", WObj [("prefix", WText p); ("count", enc_n n)])]
  | Direct l => WObj [("Direct", WObj [("contents", enc_list (enc_opt enc_bytes) l)])]
  end.
Definition dec_contents (w : wire) : option chunk_contents :=
  v ← variant w;
  match v with
  | ("SeeObjectStorage", Some w) =>
    l ← members w; p ← fld "prefix" dec_text None l; n ← fld "count" dec_u63 None l; Some (SeeObjectStorage p n)
  | ("Direct", Some w) => l ← members w; c ← fld "contents" (dec_list (dec_opt dec_bytes)) None l; Some (Direct c)
  | _ => None
  end.
Definition enc_insert (c : chunk_contents) (m : option string) (st : strat_map) (z : option Z) : wire :=
  WObj [("chunk_contents", enc_contents c); ("metadata", enc_opt enc_bytes m); ("strategic_metadata", enc_strat st);
        ("chunk_size", enc_opt WNum z)].
Definition dec_insert (w : wire) : option request :=
  l ← members w; c ← fld "chunk_contents" dec_contents None l; m ← fld "metadata" (dec_opt dec_bytes) (Some None) l;
  st ← fld "strategic_metadata" dec_strat (Some ∅) l; z ← fld "chunk_size" (dec_opt dec_i64) (Some None) l;
  Some (PInsert c m st z).

(** Display of u63 and u64::from_str (which also accepts a plus sign, not modelled). *)
Definition show_n (n : N) : string := NilZero.string_of_uint (N.to_uint n).
Definition read_n (s : string) : option N := N.of_uint <$> NilZero.uint_of_string s.
(** A request on the wire. *)
Inductive method : Set := GET | POST.
Global Instance method_eq_dec : EqDecision method.
Proof. solve_decision. Defined.
Record http : Set := Http { h_method : method; h_path : string; h_body : option wire }.
(** producer/client.rs: base_url is the server's address with "/producer" (57-61); the paths are at
    82, 117, 163, 221, 255-257 and 290-292. (There is no client call for PCountCompleted; the route
    exists.) *)
Definition to_http (q : request) : http :=
  match q with
  | PInsert c m st z => Http POST "/producer/submissions" (Some (enc_insert c m st z))
  | PCancel i => Http POST ("/producer/submissions/cancel/" +:+ show_n i) None
  | PStatus i => Http GET ("/producer/submissions/" +:+ show_n i) None
  | PByPrefix p => Http GET ("/producer/submissions/lookup_id_by_prefix/" +:+ p) None
  | PByMeta m => Http POST "/producer/submissions/lookup_ids_by_strategic_metadata" (Some (enc_strat m))
  | PCount => Http GET "/producer/submissions/count" None
  | PCountCompleted => Http GET "/producer/submissions/count_completed" None
  end.

(** *** The router: producer/server.rs:62-86, nested at /producer by server.rs:119-121 *)
Inductive segment : Set := Word (s : string) | Param.
Inductive handler : Set := HInsert | HCancel | HCountCompleted | HCount | HByPrefix | HByMeta | HStatus | HVersion.
Definition routes : list (list segment * method * handler) := [
  ([Word "submissions"], POST, HInsert);
  ([Word "submissions"; Word "cancel"; Param], POST, HCancel);
  ([Word "submissions"; Word "count_completed"], GET, HCountCompleted);
  ([Word "submissions"; Word "count"], GET, HCount);
  ([Word "submissions"; Word "lookup_id_by_prefix"; Param], GET, HByPrefix);
  ([Word "submissions"; Word "lookup_ids_by_strategic_metadata"], POST, HByMeta);
  ([Word "submissions"; Param], GET, HStatus);
  ([Word "version"], GET, HVersion) ].
(** A pattern against the segments of a path (crate matchit): the values of its parameters, which
    cannot be empty. *)
Fixpoint fits_pattern (p : list segment) (l : list string) : option (list string) :=
  match p, l with
  | [], [] => Some []
  | Word w :: p, s :: l => if bool_decide (w = s) then fits_pattern p l else None
  | Param :: p, s :: l => if bool_decide (s = EmptyString) then None else cons s <$> fits_pattern p l
  | _, _ => None
  end.
(** A pattern of words goes before one with parameters. For these routes it is enough to look at the
    patterns without a parameter first. *)
Definition is_static (p : list segment) : bool := forallb (fun s => match s with Word _ => true | Param => false end) p.
Definition matching (l : list string) : list (list string * method * handler) :=
  omap (fun '(p, m, h) => (fun vs => (vs, m, h)) <$> fits_pattern p l) (filter (fun r => is_static r.1.1) routes ++ filter (fun r => negb (is_static r.1.1)) routes).
(** axum: 404 if no pattern fits, 405 if the first that fits is for another method. *)
Inductive routed : Set := RouteTo (h : handler) (params : list string) | RouteCode (c : N).
Definition route (m : method) (path : string) : routed :=
  match url_segments path with
  | x :: l =>
    if bool_decide (x = "producer") then
      match matching l with
      | (vs, m', h) :: _ => if bool_decide (m = m') then RouteTo h vs else RouteCode 405
      | [] => RouteCode 404
      end
    else RouteCode 404
  | [] => RouteCode 404
  end.
(** The extractors of the handlers (producer/server.rs:120-232): Path and Json. What they refuse is
    answered with a status of axum's: 400 for a parameter, 422 for a body of the wrong form (400 or
    415 if it is no JSON at all). *)
Inductive reading : Set := Reads (q : request) | ReadsVersion | RefusedWith (c : N).
Definition of_option (c : N) (o : option request) : reading := match o with Some q => Reads q | None => RefusedWith c end.
Definition param_id (s : string) : option N := n ← read_n (percent_decode s); if n <? 2 ^ 63 then Some n else None.
Definition from_http (h : http) : reading :=
  match route (h_method h) (h_path h), h_body h with
  | RouteCode c, _ => RefusedWith c
  | RouteTo HInsert _, Some b => of_option 422 (dec_insert b)
  | RouteTo HByMeta _, Some b => of_option 422 (PByMeta <$> dec_strat b)
  | RouteTo HInsert _, None | RouteTo HByMeta _, None => RefusedWith 415
  | RouteTo HCancel [s], _ => of_option 400 (PCancel <$> param_id s)
  | RouteTo HStatus [s], _ => of_option 400 (PStatus <$> param_id s)
  | RouteTo HByPrefix [s], _ => Reads (PByPrefix (percent_decode s))
  | RouteTo HCount _, _ => Reads PCount
  | RouteTo HCountCompleted _, _ => Reads PCountCompleted
  | RouteTo HVersion _, _ => ReadsVersion
  | RouteTo _ _, _ => RefusedWith 500   (* a pattern without its parameter: no such route *)
  end.

(** *** Answers to producers: producer/server.rs:88-116, 120-232 *)
(** The body of a 500 is never read by the client. *)
Definition enc_body (b : body) : option wire :=
  match b with
  | BNone => None | BId i => Some (enc_n i) | BMaybeId o => Some (enc_opt enc_n o) | BIds l => Some (enc_list enc_n l)
  | BStatus o => Some (enc_opt enc_status o) | BCount n => Some (enc_n n)
  end.
Definition to_answer (r : response) : N * option wire :=
  match r with
  | Http200 b => (200, enc_body b)
  | Http400 max => (400, Some (enc_n max))
  | Http404 id => (404, Some (enc_n id))
  | Http409 st => (409, Some (enc_status st))
  | Http500 _ | HttpPanic => (500, None)
  end.
(** producer/client.rs: what each call makes of the status and the body. serde_json::from_slice
    after error_for_status (79-95 and so on): a bad body is CJson; response.json() (174-185,
    302-314): a bad body is an error of reqwest that says is_decode(). *)
Definition parse {A} (f : wire -> option A) (bad : client_err) (w : option wire) : client_err + A :=
  match w with Some w => match f w with Some a => inr a | None => inl bad end | None => inl bad end.
Definition map_ok {A B} (f : A -> B) (r : client_err + A) : client_err + B := match r with inl e => inl e | inr a => inr (f a) end.
Definition as_err {A} (f : A -> client_err) (r : client_err + A) : client_err + body := match r with inl e => inl e | inr a => inl (f a) end.
Definition from_answer (q : request) (a : N * option wire) : client_err + body :=
  let '(c, w) := a in
  let after_status (k : client_err + body) := if (400 <=? c) && (c <? 600) then inl (CStatus c) else k in
  match q with
  | PInsert _ _ _ _ => after_status (map_ok BId (parse dec_u63 CJson w))
  | PStatus _ => after_status (map_ok BStatus (parse (dec_opt dec_status) CJson w))
  | PByPrefix _ => after_status (map_ok BMaybeId (parse (dec_opt dec_u63) CJson w))
  | PCount => after_status (map_ok BCount (parse (dec_n (2 ^ 32)) CJson w))
  | PCountCompleted => after_status (map_ok BCount (parse dec_u64 CJson w))
  | PCancel _ =>
    if c =? 200 then inr BNone
    else if c =? 404 then as_err CNotFound (parse dec_u63 (CHttp NDecode) w)
    else if c =? 409 then as_err CNotCancellable (parse dec_not_cancellable (CHttp NDecode) w)
    else inl (CUnexpected c)
  | PByMeta _ =>
    if c =? 200 then map_ok BIds (parse (dec_list dec_u63) (CHttp NDecode) w)
    else if c =? 400 then as_err CTooMany (parse dec_u64 (CHttp NDecode) w)
    else inl (CUnexpected c)
  end.

(** *** Messages of the consumer API: consumer/common.rs *)
(** ClientToServerMessage, 15-29, in its envelope, 57-61. *)
Inductive client_msg : Set :=
| WantToReserve (max : N) (s : strategy) | CompleteMsg (id : chunk_id) (out : content) | FailMsg (id : chunk_id) (failure : string).
Record client_envelope : Set := ToServer { e_nonce : N; e_msg : client_msg }.
(** ServerToClientMessage, 31-55: Sync with ChunksReserved (None: IncorrectUsage(LimitIsZero)),
    Async with ChunkReservationExpired, Init with ConsumerConfig, 65-85 (the Duration as seconds and
    nanoseconds). *)
Record consumer_config : Set := ConsumerConfig { g_missable : N; g_secs : N; g_nanos : N; g_version : string; g_conn : string }.
Inductive server_msg : Set :=
| SReserved (nonce : N) (l : option (list (chunk * submission))) | SExpired (id : chunk_id) | SInit (g : consumer_config).

(** Strategy: consumer/strategy.rs:10-33. *)
Fixpoint enc_strategy (s : strategy) : wire :=
  match s with
  | Oldest => WText "Oldest" | Newest => WText "Newest" | Random => WText "Random"
  | PreferDistinct k u => WObj [("PreferDistinct", WObj [("meta_key", WText k); ("underlying", enc_strategy u)])]
  end.
(** The reader is recursive in a value below; [fuel] is the nesting it follows. *)
Fixpoint dec_strategy (fuel : nat) (w : wire) : option strategy :=
  match fuel with
  | O => None
  | S fuel =>
    v ← variant w;
    match v with
    | ("Oldest", None) => Some Oldest | ("Newest", None) => Some Newest | ("Random", None) => Some Random
    | ("PreferDistinct", Some w) =>
      l ← members w; k ← fld "meta_key" dec_text None l; u ← fld "underlying" (dec_strategy fuel) None l; Some (PreferDistinct k u)
    | _ => None
    end
  end.
Fixpoint nesting (s : strategy) : nat := match s with PreferDistinct _ u => S (nesting u) | _ => 1 end.

Definition enc_client_msg (m : client_msg) : wire :=
  match m with
  | WantToReserve n s => WObj [("WantToReserveChunks", WObj [("max", enc_n n); ("strategy", enc_strategy s)])]
  | CompleteMsg k o => WObj [("CompleteChunk", WObj [("id", enc_cid k); ("output_content", enc_opt enc_bytes o)])]
  | FailMsg k f => WObj [("FailChunk", WObj [("id", enc_cid k); ("failure", WText f)])]
  end.
Definition dec_client_msg (fuel : nat) (w : wire) : option client_msg :=
  v ← variant w;
  match v with
  | ("WantToReserveChunks", Some w) =>
    l ← members w; n ← fld "max" dec_u64 None l; s ← fld "strategy" (dec_strategy fuel) None l; Some (WantToReserve n s)
  | ("CompleteChunk", Some w) =>
    l ← members w; k ← fld "id" dec_cid None l; o ← fld "output_content" (dec_opt dec_bytes) (Some None) l; Some (CompleteMsg k o)
  | ("FailChunk", Some w) => l ← members w; k ← fld "id" dec_cid None l; f ← fld "failure" dec_text None l; Some (FailMsg k f)
  | _ => None
  end.
Definition enc_to_server (e : client_envelope) : wire := WObj [("nonce", enc_n (e_nonce e)); ("contents", enc_client_msg (e_msg e))].
Definition dec_to_server (fuel : nat) (w : wire) : option client_envelope :=
  l ← members w; n ← fld "nonce" dec_u64 None l; m ← fld "contents" (dec_client_msg fuel) None l; Some (ToServer n m).

Definition enc_reserved (l : option (list (chunk * submission))) : wire :=
  match l with
  | Some l => WObj [("Ok", enc_list (fun cs => WList [enc_chunk cs.1; enc_submission cs.2]) l)]
  | None => WObj [("Err", WList [])]
  end.
Definition dec_reserved (w : wire) : option (option (list (chunk * submission))) :=
  v ← variant w;
  match v with
  | ("Ok", Some w) =>
    Some <$> dec_list (fun w => p ← pair_of w; c ← dec_chunk p.1; s ← dec_submission p.2; Some (c, s)) w
  | ("Err", Some (WList [])) => Some None
  | _ => None
  end.
Definition enc_to_client (m : server_msg) : wire :=
  match m with
  | SReserved n l => WObj [("Sync", WObj [("nonce", enc_n n); ("contents", WObj [("ChunksReserved", enc_reserved l)])])]
  | SExpired k => WObj [("Async", WObj [("ChunkReservationExpired", enc_cid k)])]
  | SInit g =>
    WObj [("Init", WObj [("max_missable_heartbeats", enc_n (g_missable g));
      ("heartbeat_interval", WObj [("secs", enc_n (g_secs g)); ("nanos", enc_n (g_nanos g))]);
      ("version_info", WText (g_version g)); ("conn_id", WText (g_conn g))])]
  end.
Definition dec_tagged {A} (tag : string) (f : wire -> option A) (w : wire) : option A :=
  v ← variant w; match v with (t, Some w) => if bool_decide (t = tag) then f w else None | _ => None end.
Definition dec_to_client (w : wire) : option server_msg :=
  v ← variant w;
  match v with
  | ("Sync", Some w) =>
    l ← members w; n ← fld "nonce" dec_u64 None l; r ← fld "contents" (dec_tagged "ChunksReserved" dec_reserved) None l; Some (SReserved n r)
  | ("Async", Some w) => SExpired <$> dec_tagged "ChunkReservationExpired" dec_cid w
  | ("Init", Some w) =>
    l ← members w; m ← fld "max_missable_heartbeats" dec_u64 None l;
    h ← fld "heartbeat_interval" (fun w => l ← members w; s ← fld "secs" dec_u64 None l; n ← fld "nanos" (dec_n (2 ^ 32)) None l; Some (s, n)) None l;
    v ← fld "version_info" dec_text None l; c ← fld "conn_id" dec_text None l; Some (SInit (ConsumerConfig m h.1 h.2 v c))
  | _ => None
  end.

(** *** Sizes *)
(** The compact text of serde_json, in bytes. A string is quoted; control characters, quotes and
    backslashes are escaped with up to six characters. No request carries a time. *)
Definition json_char (c : ascii) : N :=
  let n := N_of_ascii c in
  if (n =? 34) || (n =? 92) then 2 else if (n =? 8) || (n =? 9) || (n =? 10) || (n =? 12) || (n =? 13) then 2
  else if n <? 32 then 6 else 1.
Definition sum_n (l : list N) : N := foldr N.add 0 l.
Definition json_string (s : string) : N := 2 + sum_n (json_char <$> list_ascii_of_string s).
Definition len_n (n : N) : N := N.of_nat (String.length (show_n n)).
(** Separators between the elements, and the brackets. *)
Definition listed (l : list N) : N := 2 + sum_n l + (N.of_nat (length l) - 1).
Fixpoint json_len (w : wire) : N :=
  match w with
  | WNull => 4
  | WNum z => len_n (Z.abs_N z) + (if (z <? 0)%Z then 1 else 0)
  | WText s => json_string s
  | WList l => listed (json_len <$> l)
  | WObj l => listed ((fun x => json_string x.1 + 1 + json_len x.2) <$> l)
  end.
(** CBOR: a head of 1, 2, 3, 5 or 9 bytes with the number or the length, then the contents. *)
Definition cbor_head (n : N) : N :=
  if n <? 24 then 1 else if n <? 2 ^ 8 then 2 else if n <? 2 ^ 16 then 3 else if n <? 2 ^ 32 then 5 else 9.
Definition cbor_string (s : string) : N := cbor_head (N.of_nat (String.length s)) + N.of_nat (String.length s).
Fixpoint cbor_len (w : wire) : N :=
  match w with
  | WNull => 1
  | WNum z => cbor_head (if (z <? 0)%Z then Z.to_N (-1 - z) else Z.to_N z)
  | WText s => cbor_string s
  | WList l => cbor_head (N.of_nat (length l)) + sum_n (cbor_len <$> l)
  | WObj l => cbor_head (N.of_nat (length l)) + sum_n ((fun x => cbor_string x.1 + cbor_len x.2) <$> l)
  end.

(** axum's DefaultBodyLimit, which the router does not change: the body of a request to an extractor
    such as Json may have 2 MiB; beyond it the answer is 413, and the connection may be closed while
    the client is still writing. *)
Definition body_limit : N := 2 * 1024 * 1024.
Definition request_size (q : request) : N := match h_body (to_http q) with Some w => json_len w | None => 0 end.
(** tungstenite's max_frame_size, on the side that reads: connect_async (consumer/client.rs:276) and
    WebSocketUpgrade (consumer/server/mod.rs:115-128) leave it at 16 MiB. A message is sent as one frame. A
    larger one is an error of the reader's connection. *)
Definition frame_limit : N := 16 * 1024 * 1024.
Definition too_large (w : wire) : Prop := frame_limit < cbor_len w.
