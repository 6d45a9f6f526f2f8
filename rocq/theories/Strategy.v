(** The order in which chunks are offered to a consumer: consumer/strategy.rs, and the SQL
    functions it calls back (consumer/dispatcher/mod.rs:26-158).

    A query is modelled as a relation between the database (with the in-flight counters and the
    set of reserved chunks) and the list of rows it yields. SQL leaves the order open where
    ORDER BY does not determine it; the relation allows every such order. [scan] below is one of
    them, namely the order of the indexes. *)
From Verif Require Export ChunkDb MetaState.
From Coq Require Export Sorted.
Local Open Scope N_scope.

(** Strategy, strategy.rs:10-33. *)
Inductive strategy : Set :=
| Oldest | Newest | Random
| PreferDistinct (meta_key : string) (underlying : strategy).

(** MetaKeysIter, strategy.rs:39-79: the keys of nested preferences, outermost first ... *)
Fixpoint meta_keys (s : strategy) : list string :=
  match s with PreferDistinct k u => k :: meta_keys u | _ => [] end.
(** ... and the strategy left when the iterator is exhausted. *)
Fixpoint innermost (s : strategy) : strategy :=
  match s with PreferDistinct _ u => innermost u | _ => s end.

(** The generated column chunks.random_order:
    migrations/20250803174028_better_random_order_formula.up.sql. *)
Definition chunk_random_order (id : sub_id) (ix : chunk_index) : N :=
  (((id + N.shiftr id 22 + ix) mod 65536) * 40503) mod 65536.
(** submissions.random_order: migrations/20260803133844_add_random_order_index_to_submissions.up.sql. *)
Definition sub_random_order (id : sub_id) : N := (((id + N.shiftr id 22) mod 65536) * 40503) mod 65536.
Definition c_random (c : chunk) : N := chunk_random_order (c_sub c) (c_index c).

(** All rows of the table chunks, as the record that "SELECT *" decodes to. *)
Definition all_chunks (d : db) : list chunk :=
  (fun '(id, ix, r) => Chunk id ix (ch_input r) (ch_retries r)) <$> map_to_list (t_chunk d).
(** "opsqueue_is_reserved(..) = FALSE", strategy.rs:97-98. The callback
    sqlite_reserved_chunk_lookup (dispatcher/mod.rs:26-76) converts the two integers back to a
    chunk id; both are in range because they were stored from such ids (Ids.v). *)
Definition available (d : db) (rsv : chunk_id -> bool) : list chunk :=
  filter (fun c => rsv (c_sub c, c_index c) = false) (all_chunks d).
(** All rows of the table submissions (the column id). *)
Definition all_subs (d : db) : list sub_id := (map_to_list (t_sub d)).*1.

(** push_random_order_query, strategy.rs:213-233: the rows at or after the offset, then the others. *)
Definition random_query {A} (pos : A -> N) (off : N) (rows : list A) (l : list A) : Prop :=
  exists l1 l2, l = l1 ++ l2 /\ l1 ≡ₚ filter (fun a => off <= pos a) rows /\ l2 ≡ₚ filter (fun a => pos a < off) rows.

(** sqlite3_value_text gives a C string, which ends at the first NUL (dispatcher/mod.rs:118-127). *)
Fixpoint cstr (s : string) : string :=
  match s with
  | EmptyString => EmptyString
  | String c r => if bool_decide (c = Ascii.zero) then EmptyString else String c (cstr r)
  end.
(** The CTE counts_i, strategy.rs:161-177, for one submission: every member of the JSON object
    whose key is the submission's value. *)
Definition count_rows (d : db) (m : metastate) (key : string) (id : sub_id) : list N :=
  omap (fun '(v, n) => if bool_decide (t_meta d !! (id, key) = Some v) then Some n else None) (counts_of m (cstr key)).
(** LEFT JOIN with one counts_i, strategy.rs:182-186. *)
Definition left_join (l : list N) : list (option N) := match l with [] => [None] | _ => Some <$> l end.
(** The columns count_0, count_1, ... of every row that the joins yield for one submission. *)
Fixpoint joined (d : db) (m : metastate) (keys : list string) (id : sub_id) : list (list (option N)) :=
  match keys with
  | [] => [[]]
  | k :: ks => c ← left_join (count_rows d m k id); v ← joined d m ks id; [c :: v]
  end.

(** "count ASC NULLS FIRST", strategy.rs:187-190. *)
Definition cmp_count (a b : option N) : comparison :=
  match a, b with
  | None, None => Eq | None, Some _ => Lt | Some _, None => Gt | Some x, Some y => x ?= y
  end.
(** Several sort columns. *)
Fixpoint cmp_counts (a b : list (option N)) : comparison :=
  match a, b with
  | x :: a', y :: b' => match cmp_count x y with Eq => cmp_counts a' b' | c => c end
  | [], [] => Eq | [], _ => Lt | _, [] => Gt
  end.
(** ORDER BY count_0, ..., underlying_row: strategy.rs:187-194. *)
Definition row_le (a b : list (option N) * nat) : Prop :=
  match cmp_counts a.1 b.1 with Lt => True | Eq => (a.2 <= b.2)%nat | Gt => False end.

(** The rows (submission, its counts, underlying_row) before sorting: strategy.rs:149-186. *)
Definition pd_rows (d : db) (m : metastate) (keys : list string) (inner : list sub_id) : list (sub_id * (list (option N) * nat)) :=
  concat (imap (fun row id => (fun cs => (id, (cs, row))) <$> joined d m keys id) inner).
(** build_query_snippet_returning_submission_ids, strategy.rs:128-197: the first three arms ... *)
Definition query_inner (s : strategy) (off : N) (d : db) (l : list sub_id) : Prop :=
  match s with
  | Oldest => l ≡ₚ all_subs d /\ StronglySorted N.le l
  | Newest => l ≡ₚ all_subs d /\ StronglySorted (flip N.le) l
  | Random => random_query sub_random_order off (all_subs d) l
  | PreferDistinct _ _ => False
  end.
(** ... and the last one. The inner query is never itself a PreferDistinct. *)
Definition query_subs (s : strategy) (off : N) (d : db) (m : metastate) (l : list sub_id) : Prop :=
  match s with
  | PreferDistinct _ _ =>
    exists inner rows, query_inner (innermost s) off d inner /\
      rows ≡ₚ pd_rows d m (meta_keys s) inner /\
      StronglySorted (fun a b => row_le a.2 b.2) rows /\ l = rows.*1
  | _ => query_inner s off d l
  end.
(** build_query_snippet_returning_chunks, strategy.rs:92-126. [off] is the random u16. *)
Definition offers (s : strategy) (off : N) (d : db) (m : metastate) (rsv : chunk_id -> bool) (l : list chunk) : Prop :=
  match s with
  | Oldest => l ≡ₚ available d rsv /\ StronglySorted (fun a b => c_sub a <= c_sub b) l
  | Newest => l ≡ₚ available d rsv /\ StronglySorted (fun a b => c_sub b <= c_sub a) l
  | Random => random_query c_random off (available d rsv) l
  | PreferDistinct _ _ =>
    exists ids groups, query_subs s off d m ids /\
      Forall2 (fun id g => g ≡ₚ filter (fun c => c_sub c = id) (available d rsv)) ids groups /\ l = concat groups
  end.

(** SQLite joins at most 64 tables, here "inner" and one for every key: with more than 63 keys the
    query cannot be prepared (SqlQuery.v, C75). *)
Definition can_ask (s : strategy) : bool := Nat.leb (length (meta_keys s)) 63.

(** *** Specification of PreferDistinct *)
(** How often a strategy says PreferDistinct. *)
Fixpoint preferences (s : strategy) : nat := match s with PreferDistinct _ u => S (preferences u) | _ => 0 end.
(** The in-flight counter of the value that a submission carries for a key; [None] when it carries
    none or there is no counter for it (counters that are zero do not exist, C31). *)
Definition in_flight (d : db) (m : metastate) (id : sub_id) (key : string) : option N :=
  v ← t_meta d !! (id, key); f ← m !! key; f !! v.
(** Position of a submission in a list. *)
Definition before (l : list sub_id) (a b : sub_id) : Prop := exists i j, l !! i = Some a /\ l !! j = Some b /\ (i < j)%nat.

(** *** One order that SQLite may choose: that of the primary key and of the indexes. *)
Definition chunk_le (a b : chunk) : Prop := c_sub a < c_sub b \/ c_sub a = c_sub b /\ c_index a <= c_index b.
Definition chunk_ge (a b : chunk) : Prop := c_sub b < c_sub a \/ c_sub a = c_sub b /\ c_index b <= c_index a.
Global Instance chunk_le_dec a b : Decision (chunk_le a b) := _.
Global Instance chunk_ge_dec a b : Decision (chunk_ge a b) := _.
Definition random_le (a b : chunk) : Prop := c_random a < c_random b \/ c_random a = c_random b /\ chunk_le a b.
Global Instance random_le_dec a b : Decision (random_le a b) := _.
Definition sub_random_le (a b : sub_id) : Prop := sub_random_order a < sub_random_order b \/ sub_random_order a = sub_random_order b /\ a <= b.
Global Instance sub_random_le_dec a b : Decision (sub_random_le a b) := _.
Global Instance row_le_dec a b : Decision (row_le a b).
Proof. unfold row_le. destruct (cmp_counts a.1 b.1); apply _. Defined.
Definition cut {A} (pos : A -> N) (off : N) (l : list A) : list A :=
  filter (fun a => off <= pos a) l ++ filter (fun a => pos a < off) l.

Definition scan_inner (s : strategy) (off : N) (d : db) : list sub_id :=
  match s with
  | Oldest => merge_sort N.le (all_subs d)
  | Newest => merge_sort (flip N.le) (all_subs d)
  | _ => cut sub_random_order off (merge_sort sub_random_le (all_subs d))
  end.
Definition scan (s : strategy) (off : N) (d : db) (m : metastate) (rsv : chunk_id -> bool) : list chunk :=
  match s with
  | Oldest => merge_sort chunk_le (available d rsv)
  | Newest => merge_sort chunk_ge (available d rsv)
  | Random => cut c_random off (merge_sort random_le (available d rsv))
  | PreferDistinct _ _ =>
    ids ← (merge_sort (fun a b => row_le a.2 b.2) (pd_rows d m (meta_keys s) (scan_inner (innermost s) off d))).*1;
    filter (fun c => c_sub c = ids) (merge_sort chunk_le (available d rsv))
  end.
