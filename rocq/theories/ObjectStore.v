(** opsqueue/src/object_store/mod.rs: chunks in an object store. The crate object_store (0.14.1) is
    modelled, not verified: its stores as finite maps from paths to bytes, and the construction of a
    path from a string (object_store::path::{Path, PathPart}). Not modelled: URLs, options and
    retries of the transport (new, new_with_retry, mod.rs:113-206). *)
From Verif Require Export Types.
From stdpp Require Export pretty.
From Coq Require Import Strings.Ascii.
Local Open Scope N_scope.

(** ChunkType and its Display, mod.rs:38-55. *)
Inductive chunk_type : Set := Input | Output.
Global Instance chunk_type_eq_dec : EqDecision chunk_type.
Proof. solve_decision. Defined.
Definition type_name (t : chunk_type) : string := match t with Input => "in" | Output => "out" end.

(** *** Paths of the crate object_store *)
(** str::split on the delimiter: an empty string has one, empty, part. *)
Fixpoint split_slash (s : string) : list string :=
  match s with
  | EmptyString => [EmptyString]
  | String c s' =>
    if bool_decide (c = "/"%char) then EmptyString :: split_slash s'
    else match split_slash s' with p :: ps => String c p :: ps | [] => [String c EmptyString] end
  end.
(** PathPart::INVALID: control characters, everything that is not ASCII, and a list of others. *)
Definition invalid (c : Ascii.ascii) : bool :=
  let n := Ascii.N_of_ascii c in
  (n <? 32) || (127 <=? n) ||
  existsb (fun d => bool_decide (c = d))
    ["/"; "\"; "{"; "^"; "}"; "%"; "`"; "]"; """"; ">"; "["; "~"; "<"; "#"; "|"; "*"; "?"]%char.
Definition hex_digit (n : N) : Ascii.ascii := Ascii.ascii_of_N (if n <? 10 then 48 + n else 55 + n).
Definition percent_encode_char (c : Ascii.ascii) (s : string) : string :=
  if invalid c then String "%" (String (hex_digit (Ascii.N_of_ascii c / 16)) (String (hex_digit (Ascii.N_of_ascii c mod 16)) s))
  else String c s.
Fixpoint percent_encode (s : string) : string :=
  match s with EmptyString => EmptyString | String c s' => percent_encode_char c (percent_encode s') end.
(** PathPart::from. *)
Definition path_part (s : string) : string :=
  if bool_decide (s = ".") then "%2E" else if bool_decide (s = "..") then "%2E%2E" else percent_encode s.
(** Path::from(String): the parts that are not empty, joined by the delimiter. *)
Definition path_from (s : string) : string := String.concat "/" (filter (fun p => p <> "") (path_part <$> split_slash s)).

(** *** ObjectStoreClient *)
(** chunk_path, mod.rs:333-343. [base]: the client's base path in its string form. The index is
    shown in decimal (common/chunk.rs:101-105). *)
Definition chunk_path (base prefix : string) (i : N) (t : chunk_type) : string :=
  path_from (base +:+ "/" +:+ prefix +:+ "/" +:+ pretty i +:+ "-" +:+ type_name t +:+ ".bin").

Notation objects := (gmap string string) (only parsing).
(** What can happen to an upload: it succeeds, or it fails, before or after the object was written. *)
Inductive upload : Set := Uploaded | NotUploaded | UploadedUnnoticed.
(** store_chunk, mod.rs:254-276. *)
Definition store_chunk (base prefix : string) (i : N) (t : chunk_type) (c : string) (u : upload) (o : objects) : bool * objects :=
  let path := chunk_path base prefix i t in
  match u with
  | Uploaded => (true, <[path := c]> o)
  | NotUploaded => (false, o)
  | UploadedUnnoticed => (false, <[path := c]> o)
  end.
(** store_chunks, mod.rs:213-247. Each element of the stream is a chunk, or [None] when the
    producer's iterator fails. The number of chunks, or [None] on an error. The upload of another
    element does not begin before the one before it is done; other clients may act in between, which
    the end-to-end model (World.v) does with single uploads. *)
Fixpoint store_chunks_from (base prefix : string) (t : chunk_type) (i : N) (l : list (option string * upload)) (o : objects) : option N * objects :=
  match l with
  | [] => (Some i, o)
  | (None, _) :: _ => (None, o)
  | (Some c, u) :: l =>
    match store_chunk base prefix i t c u o with
    | (true, o') => store_chunks_from base prefix t (i + 1) l o'
    | (false, o') => (None, o')
    end
  end.
Definition store_chunks base prefix t l o := store_chunks_from base prefix t 0 l o.
(** retrieve_chunk, mod.rs:283-308. [None]: an error (here: no such object). *)
Definition retrieve_chunk (base prefix : string) (i : N) (t : chunk_type) (o : objects) : option string := o !! chunk_path base prefix i t.
(** retrieve_chunks, mod.rs:309-327: one element per index, an error being an element too. [at_ i]:
    the store when the chunk of index [i] is read. *)
Definition retrieve_chunks (base prefix : string) (count : N) (t : chunk_type) (at_ : N -> objects) : list (option string) :=
  (fun i => retrieve_chunk base prefix i t (at_ i)) <$> (N.of_nat <$> seq 0 (N.to_nat count)).
