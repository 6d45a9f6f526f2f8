(** Identifiers and limits: common/chunk.rs, common/submission.rs, common/mod.rs; and the migration
    that gave the metadata table its present key.

    An i64 is a [Z] in [-2^63, 2^63), a u64 an [N] below 2^64, a u63 an [N] below 2^63. *)
From Verif Require Export Types.
Local Open Scope N_scope.

Definition in_i64 (z : Z) : Prop := (- 2 ^ 63 <= z < 2 ^ 63)%Z.
Definition in_u64 (n : N) : Prop := n < 2 ^ 64.
Definition in_u63 (n : N) : Prop := n < 2 ^ 63.

(** The result of a conversion: a value, the error TryFromIntError, or a panic. *)
Inductive conv (A : Type) : Type := COk (a : A) | CErr | CPanic.
Global Arguments COk {_}. Global Arguments CErr {_}. Global Arguments CPanic {_}.

(** u63::MAX and u63::new of the crate ux; [new] asserts that the value fits. *)
Definition u63_max : N := 2 ^ 63 - 1.
Definition u63_new (n : N) : conv N := if n <=? u63_max then COk n else CPanic.
(** u64::cast_signed and i64::cast_unsigned: the same 64 bits. *)
Definition cast_signed (n : N) : Z := if n <? 2 ^ 63 then Z.of_N n else (Z.of_N n - 2 ^ 64)%Z.
Definition cast_unsigned (z : Z) : N := Z.to_N (z mod 2 ^ 64).

(** TryFrom<i64>: chunk.rs:130-140, submission.rs:125-135. *)
Definition try_from_i64 (z : Z) : conv N := if (z <? 0)%Z then CErr else u63_new (cast_unsigned z).
(** TryFrom<u64>: chunk.rs:142-150, submission.rs:115-123. *)
Definition try_from_u64 (n : N) : conv N := if u63_max <? n then CErr else u63_new n.
(** TryFrom<usize>: chunk.rs:152-157 (usize is 64 bits wide). *)
Definition try_from_usize (n : N) : conv N := try_from_u64 n.
(** From<..> for u64, u63: chunk.rs:102-119, submission.rs:91-101,111-113. *)
Definition to_u64 (n : N) : N := n.
(** From<..> for i64: chunk.rs:121-127, submission.rs:103-109. *)
Definition to_i64 (n : N) : Z := cast_signed n.
(** Serialize and Deserialize: chunk.rs:24-43, submission.rs:24-43; the format carries a u64. *)
Definition ser (n : N) : N := to_u64 n.
Definition de (n : N) : conv N := try_from_u64 n.

(** *** The generator of submission ids
    snowflaked::sync::Generator is a dependency. Its behaviour is trusted: an id consists of the
    milliseconds since the epoch (from bit 22), the instance (10 bits, here 0: submission.rs:16) and
    a sequence number (12 bits) that counts the ids of one millisecond; when it is used up, or when
    the clock has gone backwards, no id is made ([None]; the caller waits or panics). *)
Record gen : Set := Gen { g_ts : N; g_seq : N }.
Definition generate (now : N) (g : gen) : option gen :=
  if g_ts g <? now then Some (Gen now 0)
  else if (now =? g_ts g) && (g_seq g <? 4095) then Some (Gen now (g_seq g + 1)) else None.
Definition snowflake (g : gen) : N := N.shiftl (g_ts g) 22 + g_seq g.
(** Snowflake::timestamp. *)
Definition snowflake_ts (id : N) : N := N.shiftr id 22.
(** SubmissionId::new, submission.rs:53-56. *)
Definition submission_id_new (now : N) (g : gen) : option (gen * conv N) :=
  g' ← generate now g; Some (g', u63_new (snowflake g')).
(** SubmissionId::system_time, submission.rs:63-74; the epoch is 1970 ([Generator::new], line 16).
    Milliseconds; checked_add does not overflow for 42-bit values. *)
Definition system_time (id : N) : N := snowflake_ts (to_u64 id).
(** The ids made when the clock shows the given values. *)
Fixpoint new_ids (clock : list N) (g : gen) : option (list (conv N)) :=
  match clock with
  | [] => Some []
  | now :: rest => '(g', id) ← submission_id_new now g; l ← new_ids rest g'; Some (id :: l)
  end.

(** *** Limits of lookups *)
(** MaxSubmissions::new, common/mod.rs:29-35; a NonZero<u64> comes in. *)
Definition i64_max : N := 2 ^ 63 - 1.
Definition max_submissions_new (n : N) : option N := if n <? i64_max then Some n else None.
(** The limit bound in the query: submission.rs:604-605. *)
Definition query_limit (m : N) : Z := cast_signed ((m + 1) mod 2 ^ 64).

(** *** Migration 20260717143000_submission_metadata_pk_by_key *)
(** Before: rows (submission_id, metadata_key, metadata_value), all three being the primary key
    (20250104155558_add_strategic_metadata.up.sql:2-22). *)
Notation old_meta := (gset (sub_id * string * Z)) (only parsing).
Definition values_of (old : old_meta) (ik : sub_id * string) : list Z :=
  (filter (fun r => r.1 = ik) (elements old)).*2.
(** MAX of a non-empty column. *)
Definition sql_max (l : list Z) : Z := match l with [] => 0%Z | v :: l => foldr Z.max v l end.
(** up.sql:14-20: GROUP BY submission_id, metadata_key. *)
Definition migrate_up (old : old_meta) : gmap (sub_id * string) Z :=
  list_to_map ((fun ik => (ik, sql_max (values_of old ik))) <$> remove_dups (elements old).*1).
(** down.sql:10-15. *)
Definition migrate_down (new : gmap (sub_id * string) Z) : old_meta := list_to_set (map_to_list new).
