(** Tracing contexts: opsqueue/src/tracing.rs, and the spans that the server opens around an insert. The libraries
    (opentelemetry, tracing-opentelemetry, tracing-subscriber) are modelled as they are documented. Not modelled:
    tracestate and baggage, the exporter, filters (RUST_LOG) that treat the modules of the server differently. *)
From Coq Require Import Ascii.
From Verif Require Export Bytes.
Local Open Scope N_scope.

(** SpanContext: the ids of a trace (128 bits) and of a span (64 bits), and whether the trace is recorded. *)
Record span_context : Set := SpanContext { sx_trace : N; sx_span : N; sx_sampled : bool }.
(** [w] digits. *)
Fixpoint hexw (w : nat) (n : N) : string := match w with O => "" | S w => hexw w (n / 16) +:+ String (hex (n mod 16)) "" end.
(** TraceContextPropagator::inject_context. *)
Definition write_parent (x : span_context) : string :=
  "00-" +:+ hexw 32 (sx_trace x) +:+ "-" +:+ hexw 16 (sx_span x) +:+ "-" +:+ (if sx_sampled x then "01" else "00").
Fixpoint split_dash (s : string) : list string :=
  match s with
  | EmptyString => [""%string]
  | String c r =>
    if ascii_dec c "-"%char then ""%string :: split_dash r
    else match split_dash r with x :: l => String c x :: l | [] => [String c ""] end
  end.
(** from_str_radix(16); a leading plus sign is not modelled. *)
Definition read_hex (s : string) : option N :=
  match s with
  | EmptyString => None
  | _ => foldl (fun (a : option N) c => n ← a; d ← unhex c; Some (16 * n + d)) (Some 0) (list_ascii_of_string s)
  end.
Definition upper (c : ascii) : bool := (65 <=? N_of_ascii c) && (N_of_ascii c <=? 90).
(** TraceContextPropagator::extract_span_context. *)
Definition read_parent (s : string) : option span_context :=
  match split_dash s with
  | v :: t :: p :: f :: rest =>
    ver ← read_hex v; tr ← read_hex t; sp ← read_hex p; fl ← read_hex f;
    if (254 <? ver) || ((ver =? 0) && negb (bool_decide (rest = []))) then None
    else if existsb upper (list_ascii_of_string t) || existsb upper (list_ascii_of_string p) then None
    else if (2 ^ 128 <=? tr) || (2 ^ 64 <=? sp) || (256 <=? fl) then None
    else if (ver =? 0) && (2 <? fl) then None
    else if (tr =? 0) || (sp =? 0) then None
    else Some (SpanContext tr sp (N.odd fl))
  | _ => None
  end.

(** *** The request *)
Notation carrier := (gmap string string).
(** http::HeaderName and HeaderValue: what is accepted; names are written in lower case. *)
Definition name_char (c : ascii) : bool :=
  let n := N_of_ascii c in
  (48 <=? n) && (n <=? 57) || (65 <=? n) && (n <=? 90) || (97 <=? n) && (n <=? 122) ||
  bool_decide (c ∈ ["!"; "#"; "$"; "%"; "&"; "'"; "*"; "+"; "-"; "."; "^"; "_"; "`"; "|"; "~"]%char).
Definition value_char (c : ascii) : bool := let n := N_of_ascii c in (n =? 9) || (32 <=? n) && negb (n =? 127).
Definition is_header (x : string * string) : bool :=
  negb (bool_decide (x.1 = ""%string)) && forallb name_char (list_ascii_of_string x.1) && forallb value_char (list_ascii_of_string x.2).
Definition lower (c : ascii) : ascii := if upper c then ascii_of_N (N_of_ascii c + 32) else c.
Definition lower_name (s : string) : string := string_of_list_ascii (lower <$> list_ascii_of_string s).
(** producer/client.rs:121: all headers or none. *)
Definition to_headers (c : carrier) : list (string * string) :=
  if forallb is_header (map_to_list c) then (fun x => (lower_name x.1, x.2)) <$> map_to_list c else [].
Definition header (name : string) (hs : list (string * string)) : option string := (fun x => x.2.2) <$> list_find (fun x => x.1 = name) hs.
(** context_from_headers, tracing.rs:10-13. *)
Definition context_from_headers (hs : list (string * string)) : option span_context := header "traceparent" hs ≫= read_parent.

(** *** Spans *)
Inductive level : Set := TRACE | DEBUG | INFO | WARN | ERROR.
Definition rank (l : level) : N := match l with TRACE => 0 | DEBUG => 1 | INFO => 2 | WARN => 3 | ERROR => 4 end.
(** The filter stands before all layers, so a span that it refuses does not exist for OpenTelemetry either: main.rs
    169-184. [None]: off. *)
Definition enabled (f : option level) (l : level) : bool := match f with Some m => rank m <=? rank l | None => false end.
(** main.rs:169-171, without RUST_LOG. *)
Definition default_filter : option level := Some INFO.
(** The ids that are drawn for a new span, and the sampler's choice for a new trace: main.rs:198-213. *)
Record draw : Set := Draw { d_trace : N; d_span : N; d_sampled : bool }.
(** Opening a span. [given]: the argument of set_parent; without it the parent is the current span. A child has the
    trace of its parent and is recorded if the parent is (ParentBased). *)
Definition enter (f : option level) (l : level) (given : option (option span_context)) (d : draw) (cur : option span_context) : option span_context :=
  if enabled f l then
    match default cur given with
    | Some p => Some (SpanContext (sx_trace p) (d_span d) (sx_sampled p))
    | None => Some (SpanContext (d_trace d) (d_span d) (d_sampled d))
    end
  else cur.
(** The current context in insert_submission_from_chunks, submission.rs:455, behind the spans of server.rs:126-132,
    producer/server.rs:183 and submission.rs:444. *)
Definition insert_context (f : option level) (d1 d2 d3 : draw) (hs : list (string * string)) : option span_context :=
  enter f INFO None d3 (enter f DEBUG None d2 (enter f DEBUG (Some (context_from_headers hs)) d1 None)).

(** *** The carrier in the database *)
(** context_to_json, tracing.rs:32-37. The order of the two entries is that of a hash table. *)
Definition context_to_json (x : option span_context) : string :=
  json_write (WObj (match x with Some x => [("traceparent", WText (write_parent x)); ("tracestate", WText "")] | None => [] end)).
(** json_to_carrier, tracing.rs:48-50. *)
Definition dec_carrier (w : wire) : option carrier :=
  match w with
  | WObj l => (fun l => list_to_map (rev l)) <$> mapM (fun x => match x.2 with WText s => Some (x.1, s) | _ => None end) l
  | _ => None
  end.
Definition json_to_carrier (s : string) : carrier := default ∅ (from_slice dec_carrier s).
