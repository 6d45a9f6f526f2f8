(** The Python API that works with operations instead of chunks of bytes: run_submission and the
    streams of results (python/opsqueue/producer.py), run_each_op and run_each_chunk
    (python/opsqueue/consumer.py), and the serialisation between them (python/opsqueue/common.py).
    Other than in PyLib.v, the operations are Python values of any type, the formats change them as
    cbor2 and json do, and the caller's functions may keep state. Not modelled: tracing, floats,
    sets, dates and other types that cbor2 knows, the async variants (which use the same code). *)
From Verif Require Export RunLoop PyLib.
From stdpp Require Import pretty.
From Coq Require Import Ascii.
Local Open Scope N_scope.

(** A Python value. The keys of a dictionary are texts or integers. [OOther]: a value that no
    format can write, like a generator, a function or an object of a class of the caller. *)
Inductive dkey : Set := KText (s : string) | KInt (z : Z).
Inductive obj : Set :=
| ONone | OBool (b : bool) | OInt (z : Z) | OText (s : string) | OBytes (s : string)
| OList (l : list obj) | OTuple (l : list obj) | ODict (l : list (dkey * obj)) | OOther (type : string).

(** *** Serialisation: common.py *)
(** SerializationFormat, common.py:9-11; [None]: an exception. *)
Record pformat : Set := PFormat { pdumps : obj -> option string; ploads : string -> option obj }.
(** encode_chunk, common.py:34-37. *)
Definition encode_chunk (fmt : pformat) (v : obj) : option string := pdumps fmt v.
(** What a for loop over a value gives, if it is a collections.abc.Sequence: list, tuple, str or
    bytes. The characters of a str are those of ASCII. *)
Definition items (v : obj) : option (list obj) :=
  match v with
  | OList l | OTuple l => Some l
  | OText s => Some ((fun c => OText (String c "")) <$> String.list_ascii_of_string s)
  | OBytes s => Some ((fun c => OInt (Z.of_N (N_of_ascii c))) <$> String.list_ascii_of_string s)
  | _ => None
  end.
(** decode_chunk, common.py:40-47, with the loop that its callers make over the result: the
    operations, or an exception: of the format, or the AssertionError. *)
Definition decode_chunk (fmt : pformat) (c : string) : option (list obj) := ploads fmt c ≫= items.

(** *** Consumer: consumer.py *)
(** A function of the caller may keep state: what it does with a value can depend on all the values
    that it was called with before (the first argument, oldest first). *)
Notation op_function := (list obj -> obj -> (exception * string) + obj) (only parsing).
(** [op_callback(op) for op in chunk_ops], consumer.py:72-73: the values that the function is called
    with, and the results or the exception. *)
Fixpoint each_op (f : op_function) (before : list obj) (ops : list obj) : list obj * ((exception * string) + list obj) :=
  match ops with
  | [] => ([], inr [])
  | v :: ops =>
    match f before v with
    | inl x => ([v], inl x)
    | inr r =>
      let '(calls, rs) := each_op f (before ++ [v]) ops in
      (v :: calls, match rs with inl x => inl x | inr rs => inr (r :: rs) end)
    end
  end.
(** raw_chunk_callback of run_each_chunk, consumer.py:86-104: the bytes or the exception for one
    chunk, with whatever [f] says it did. The exceptions of decoding and encoding are Exceptions. *)
Definition raw_callback {T} (fmt : pformat) (f : list obj -> T * ((exception * string) + obj)) (none : T) (content : string) : T * fun_result :=
  match decode_chunk fmt content with
  | None => (none, RunLoop.Raises Ordinary "decoding")
  | Some ops =>
    match f ops with
    | (t, inl (x, text)) => (t, RunLoop.Raises x text)
    | (t, inr v) =>
      match encode_chunk fmt v with
      | Some out => (t, RunLoop.Output out)
      | None => (t, RunLoop.Raises Ordinary "encoding")
      end
    end
  end.
(** run_each_op, consumer.py:55-77: the values that the function is called with, and the result. *)
Definition each_op_callback (fmt : pformat) (f : op_function) (before : list obj) (content : string) : list obj * fun_result :=
  raw_callback fmt (fun ops => let '(calls, r) := each_op f before ops in
                               (calls, match r with inl x => inl x | inr rs => inr (OList rs) end)) [] content.
(** run_each_chunk, consumer.py:79-106, with a function for whole chunks. *)
Definition each_chunk_callback (fmt : pformat) (f : list obj -> (exception * string) + obj) (content : string) : fun_result :=
  (raw_callback fmt (fun ops => (tt, f ops)) tt content).2.

(** *** Producer: producer.py *)
(** _chunk_iterator, producer.py:395-403: each chunk is a tuple of itertools.batched. An element
    [None] is an exception of the format. [None]: ChunkSizeIsZeroError. *)
Definition op_chunks (fmt : pformat) (size : Z) (ops : list obj) : option (list (option string)) :=
  if (size <=? 0)%Z then None else Some ((fun b => encode_chunk fmt (OTuple b)) <$> batched (Z.to_nat size) ops).
(** _unchunk_iterator, producer.py:406-413: what is yielded, and whether the iteration ended without
    an exception. *)
Fixpoint op_results (fmt : pformat) (l : list string) : list obj * bool :=
  match l with
  | [] => ([], true)
  | c :: l =>
    match decode_chunk fmt c with
    | Some ops => let '(r, ok) := op_results fmt l in (ops ++ r, ok)
    | None => ([], false)
    end
  end.

(** *** What becomes of a value that is written and read again *)
Section through.
  (** Tuples are written as arrays, and arrays are read as lists. *)
  Fixpoint cbor_back (v : obj) : obj :=
    match v with
    | OList l | OTuple l => OList (List.map cbor_back l)
    | ODict l => ODict (List.map (fun x => (x.1, cbor_back x.2)) l)
    | v => v
    end.
  Fixpoint cbor_writes (v : obj) : bool :=
    match v with
    | OList l | OTuple l => forallb cbor_writes l
    | ODict l => forallb (fun x => cbor_writes x.2) l
    | OOther _ => false
    | _ => true
    end.
  (** JSON has no bytes and only texts as keys; of several members with the same key the last one
      counts, at the place of the first. *)
  Definition key_text (k : dkey) : string := match k with KText s => s | KInt z => pretty z end.
  Fixpoint dict_set (k : dkey) (v : obj) (l : list (dkey * obj)) : list (dkey * obj) :=
    match l with
    | [] => [(k, v)]
    | (k', v') :: l =>
      match k, k' with
      | KText a, KText b => if String.eqb a b then (k', v) :: l else (k', v') :: dict_set k v l
      | KInt a, KInt b => if (a =? b)%Z then (k', v) :: l else (k', v') :: dict_set k v l
      | _, _ => (k', v') :: dict_set k v l
      end
    end.
  Definition dict_of (l : list (dkey * obj)) : list (dkey * obj) := foldl (fun d x => dict_set x.1 x.2 d) [] l.
  Fixpoint json_back (v : obj) : obj :=
    match v with
    | OList l | OTuple l => OList (List.map json_back l)
    | ODict l => ODict (dict_of (List.map (fun x => (KText (key_text x.1), json_back x.2)) l))
    | v => v
    end.
  Fixpoint json_writes (v : obj) : bool :=
    match v with
    | OList l | OTuple l => forallb json_writes l
    | ODict l => forallb (fun x => json_writes x.2) l
    | OBytes _ | OOther _ => false
    | _ => true
    end.
End through.
(** The format writes the values of [writes], and what it wrote of [v] it reads as [back v]. *)
Definition reads_back (writes : obj -> bool) (back : obj -> obj) (fmt : pformat) : Prop :=
  forall v, if writes v then exists s, pdumps fmt v = Some s /\ ploads fmt s = Some (back v) else pdumps fmt v = None.
(** cbor2 (DEFAULT_SERIALIZATION_FORMAT, common.py:31), json_as_bytes (common.py:14-28). *)
Inductive library : Set := Cbor2 | Json.
Definition writes (k : library) : obj -> bool := match k with Cbor2 => cbor_writes | Json => json_writes end.
Definition back (k : library) : obj -> obj := match k with Cbor2 => cbor_back | Json => json_back end.
Definition is_format (k : library) (fmt : pformat) : Prop := reads_back (writes k) (back k) fmt.

(** *** Specification *)
(** No tuple anywhere in a value, and nothing that cannot be written. *)
Fixpoint cbor_plain (v : obj) : bool :=
  match v with
  | OList l => forallb cbor_plain l
  | ODict l => forallb (fun x => cbor_plain x.2) l
  | OTuple _ | OOther _ => false
  | _ => true
  end.
(** ... nor bytes, nor a dictionary with keys other than texts. *)
Fixpoint json_plain (v : obj) : bool :=
  match v with
  | OList l => forallb json_plain l
  | ODict l => forallb (fun x => match x.1 with KText _ => json_plain x.2 | KInt _ => false end) l
  | OTuple _ | OOther _ | OBytes _ => false
  | _ => true
  end.
(** Every dictionary has each key once, as in Python. *)
Fixpoint keys_once (v : obj) : Prop :=
  match v with
  | OList l | OTuple l => foldr (fun x P => keys_once x /\ P) True l
  | ODict l => NoDup l.*1 /\ foldr (fun x P => keys_once x.2 /\ P) True l
  | _ => True
  end.
(** The values that arrive as they were sent. *)
Definition plain (k : library) (v : obj) : Prop :=
  match k with Cbor2 => cbor_plain v = true | Json => json_plain v = true /\ keys_once v end.
(** The [i]th of the calls made for [ops] after [before]. *)
Definition call_result (f : op_function) (before ops : list obj) (i : nat) : option ((exception * string) + obj) :=
  f (before ++ take i ops) <$> ops !! i.
(** [u] is [v] or somewhere in it. *)
Inductive inside (u : obj) : obj -> Prop :=
| inside_itself : inside u u
| inside_list l v : v ∈ l -> inside u v -> inside u (OList l)
| inside_tuple l v : v ∈ l -> inside u v -> inside u (OTuple l)
| inside_dict l key v : (key, v) ∈ l -> inside u v -> inside u (ODict l).
(** The values that the libraries refuse: json has no bytes. *)
Definition unwritable (k : library) (v : obj) : Prop :=
  exists u, inside u v /\ ((exists t, u = OOther t) \/ (k = Json /\ exists s, u = OBytes s)).
(** Neither list, tuple, str nor bytes. *)
Definition no_sequence (v : obj) : Prop :=
  (forall l, v <> OList l /\ v <> OTuple l) /\ (forall s, v <> OText s /\ v <> OBytes s).
