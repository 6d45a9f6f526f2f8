(** The labels of the histogram consumer_fetch_and_reserve_chunks_duration: consumer/server/state.rs:60-113,
    consumer/strategy.rs:10-33 (the derived Debug). *)
From stdpp Require Export list gmap strings pretty.
From Coq Require HexadecimalN.
Local Open Scope N_scope.

(** Texts are lists of Unicode code points here, because Debug escapes characters, not bytes. *)
Notation text := (list N) (only parsing).
Fixpoint txt (s : string) : text := match s with EmptyString => [] | String a r => Ascii.N_of_ascii a :: txt r end.
(** strategy.rs:10-33, with keys as texts (Strategy.v has their bytes). *)
Inductive plan : Set := Oldest | Newest | Random | PreferDistinct (meta_key : text) (underlying : plan).

(** The standard library's Debug of a character within a string: the characters with a short escape,
    those that are printed as they are, and the rest with their number in hexadecimal digits.
    [printable]: the standard library's tables, which are not modelled; the theorems hold for any. *)
Fixpoint hex_digits (d : Hexadecimal.uint) : text :=
  match d with
  | Hexadecimal.Nil => []
  | Hexadecimal.D0 r => 48 :: hex_digits r | Hexadecimal.D1 r => 49 :: hex_digits r | Hexadecimal.D2 r => 50 :: hex_digits r
  | Hexadecimal.D3 r => 51 :: hex_digits r | Hexadecimal.D4 r => 52 :: hex_digits r | Hexadecimal.D5 r => 53 :: hex_digits r
  | Hexadecimal.D6 r => 54 :: hex_digits r | Hexadecimal.D7 r => 55 :: hex_digits r | Hexadecimal.D8 r => 56 :: hex_digits r
  | Hexadecimal.D9 r => 57 :: hex_digits r | Hexadecimal.Da r => 97 :: hex_digits r | Hexadecimal.Db r => 98 :: hex_digits r
  | Hexadecimal.Dc r => 99 :: hex_digits r | Hexadecimal.Dd r => 100 :: hex_digits r | Hexadecimal.De r => 101 :: hex_digits r
  | Hexadecimal.Df r => 102 :: hex_digits r
  end.
Definition debug_char (printable : N -> bool) (c : N) : text :=
  if c =? 0 then [92; 48]             (* \0 *)
  else if c =? 9 then [92; 116]       (* \t *)
  else if c =? 13 then [92; 114]      (* \r *)
  else if c =? 10 then [92; 110]      (* \n *)
  else if c =? 34 then [92; 34]       (* the double quote *)
  else if c =? 92 then [92; 92]       (* the backslash *)
  else if printable c then [c]
  else [92; 117; 123] ++ hex_digits (N.to_hex_uint c) ++ [125].   (* \u{...} *)
Definition debug_text (printable : N -> bool) (k : text) : text := [34] ++ (k ≫= debug_char printable) ++ [34].
(** derive(Debug) of Strategy, strategy.rs:10. *)
Fixpoint debug_plan (printable : N -> bool) (s : plan) : text :=
  match s with
  | Oldest => txt "Oldest"
  | Newest => txt "Newest"
  | Random => txt "Random"
  | PreferDistinct k u =>
    txt "PreferDistinct { meta_key: " ++ debug_text printable k ++ txt ", underlying: " ++ debug_plan printable u ++ txt " }"
  end.

(** state.rs:104-111: the labels limit and strategy. *)
Definition labels (printable : N -> bool) (limit : N) (s : plan) : text * text := (txt (pretty limit), debug_plan printable s).
(** A request as fetch_and_reserve_chunks sees it (state.rs:60-82); [failed]: the search ended with a database error. *)
Record request : Set := Request { rq_limit : N; rq_plan : plan; rq_failed : bool }.
(** The series of the histogram after a request: the recorder keeps one for every set of labels it
    has seen, for the life of the process (metrics 0.24, registry of the exporter: no idle timeout is
    set in prometheus.rs:165-189). Requests that fail return before the histogram (state.rs:67-82). *)
Definition observe (printable : N -> bool) (known : list (text * text)) (q : request) : list (text * text) :=
  if (rq_limit q =? 0) || rq_failed q then known
  else let l := labels printable (rq_limit q) (rq_plan q) in if bool_decide (l ∈ known) then known else known ++ [l].
Definition series (printable : N -> bool) (qs : list request) : list (text * text) := foldl (observe printable) [] qs.
