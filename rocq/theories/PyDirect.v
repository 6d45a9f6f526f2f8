(** The Python API of producers: a submission that is sent with the contents of its chunks.
    libs/opsqueue_python/src/producer.rs. Not modelled: the conversion of the arguments by PyO3 (a
    size that is no u64 raises an OverflowError before anything happens), tracing, the GIL. *)
From Verif Require Import Ids.
From Verif Require Export PyApi.
Local Open Scope N_scope.

(** insert_submission_direct, producer.rs:247-280: the size is a u64 whose bits are taken for those
    of an i64 (265). [attempts]: what happens in the call of the client (ProducerClient.v); [None]
    while it still runs. *)
Definition py_insert_submission_direct (contents : list content) (meta : option string) (strat : option strat_map) (size : option N)
    (attempts : list attempt) (d : db) : option (ending N * db) :=
  match call (PInsert (Direct contents) meta (default ∅ strat) (cast_signed <$> size)) d attempts with
  | None => None
  | Some (inr (BId id), d', _) => Some (Returns id, d')
  | Some (_, d', _) => Some (RaisesOwn InternalProducerClientError "", d')
  end.
