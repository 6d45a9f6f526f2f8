(** The queries that read many rows, as text: SELECT with joins, ORDER BY, LIMIT, UNION ALL and WITH,
    and what SQLite does with them; then those of consumer/strategy.rs, of the two lookups and of the
    backlog.

    What a query yields is a relation, because SQL leaves the order of rows open. What the model takes
    from SQLite's documentation is this: a table is read in any order; a subquery and a common table
    are read in the order in which they yield; UNION ALL yields the rows of its first part first; CROSS
    JOIN and LEFT JOIN run through their left side first (for CROSS JOIN that is what the code wants
    from it, strategy.rs:112-116); INNER JOIN yields in any order; ROW_NUMBER() OVER () numbers the rows
    in the order in which they come; ORDER BY puts NULL first when ascending.
    Simplifications: values other than numbers and NULL are not compared by ORDER BY; a name without
    qualifier that occurs in two tables, which SQLite refuses, means the first. *)
From Coq Require Export Sorted.
From stdpp Require Export pretty.
From Verif Require Export Strategy SqlText.
Local Open Scope Z_scope.

(** "e AS name", "t.*" (or "*"), "ROW_NUMBER() OVER () AS name". *)
Inductive out : Set := OExpr (e : expr) (name : string) | OStar (t : option string) | ORowNumber (name : string).
(** [QSum e name f] is "SELECT COALESCE(SUM(e * 1.0), 0.0) AS name FROM f". The flag in ORDER BY is
    DESC. [FJson e a] is "json_each(opsqueue_metadata_counts(e)) AS a". *)
Inductive query : Set :=
| QSelect (outs : list out) (from : source) (w : expr) (order : list (expr * bool)) (limit : option expr)
| QSum (e : expr) (name : string) (from : source)
| QUnionAll (a b : query)
| QWith (name : string) (a b : query)
with source : Set :=
| FTable (t alias : string)
| FSub (q : query) (alias : string)
| FJson (e : expr) (alias : string)
| FCross (a b : source) (on : expr)
| FInner (a b : source) (on : expr)
| FLeft (a b : source) (on : expr).
Definition yes : expr := ELit (VInt 1).

Definition plain (cs : list string) : header := Header ((fun c => Column c false VNull) <$> cs) [] [].

(** *** Preparing: the names of the columns that a query yields, if every name in it is known. *)
Section prepare.
Context (heads : gmap string header).
Definition names_of (hs : list (string * header)) : scope_names := (fun x => (x.1, col_names x.2)) <$> hs.
Definition out_ok (hs : list (string * header)) (o : out) : bool :=
  match o with
  | OExpr e _ => e_ok heads (names_of hs) e
  | OStar (Some t) => existsb (fun x => String.eqb x.1 t) hs
  | _ => true
  end.
Definition starred (t : option string) (a : string) : bool := match t with Some t => String.eqb a t | None => true end.
Definition out_cols (hs : list (string * header)) (o : out) : list string :=
  match o with
  | OExpr _ n | ORowNumber n => [n]
  | OStar t => concat ((fun x => col_names x.2) <$> List.filter (fun x => starred t x.1) hs)
  end.
Fixpoint q_cols (ct : list (string * list string)) (q : query) : option (list string) :=
  match q with
  | QSelect outs from w order limit =>
      hs ← s_heads ct from;
      if forallb (e_ok heads (names_of hs)) (w :: order.*1) && forallb (e_ok heads []) (option_list limit) && forallb (out_ok hs) outs
      then Some (concat (out_cols hs <$> outs)) else None
  | QSum e name from => hs ← s_heads ct from; if e_ok heads (names_of hs) e then Some [name] else None
  | QUnionAll a b => x ← q_cols ct a; y ← q_cols ct b; if Nat.eqb (length x) (length y) then Some x else None
  | QWith name a b => x ← q_cols ct a; q_cols ((name, x) :: ct) b
  end
with s_heads (ct : list (string * list string)) (f : source) : option (list (string * header)) :=
  match f with
  | FTable t a => match SqlLang.assoc t ct with Some cs => Some [(a, plain cs)] | None => h ← heads !! t; Some [(a, h)] end
  | FSub q a => cs ← q_cols ct q; Some [(a, plain cs)]
  | FJson e a => if e_ok heads [] e then Some [(a, plain ["key"; "value"])] else None
  | FCross x y on | FInner x y on | FLeft x y on =>
      hx ← s_heads ct x; hy ← s_heads ct y; if e_ok heads (names_of (hx ++ hy)) on then Some (hx ++ hy) else None
  end.
End prepare.

(** SQLite joins at most 64 tables in a SELECT (compile-time limit of the bundled version 3.46.0). *)
Definition join_limit : nat := 64.
Fixpoint tables (f : source) : nat :=
  match f with FCross x y _ | FInner x y _ | FLeft x y _ => tables x + tables y | _ => 1 end.
Fixpoint q_joins (q : query) : bool :=
  match q with
  | QSelect _ from _ _ _ | QSum _ _ from => Nat.leb (tables from) join_limit && s_joins from
  | QUnionAll a b | QWith _ a b => q_joins a && q_joins b
  end
with s_joins (f : source) : bool :=
  match f with
  | FTable _ _ | FJson _ _ => true
  | FSub q _ => q_joins q
  | FCross x y _ | FInner x y _ | FLeft x y _ => s_joins x && s_joins y
  end.

(** *** What a query yields *)
Definition v_cmp (a b : value) : comparison :=
  match a, b with
  | VNull, VNull => Eq | VNull, _ => Lt | _, VNull => Gt
  | VInt x, VInt y => x ?= y
  | _, _ => Eq
  end.
Fixpoint keys_cmp (a b : list (value * bool)) : comparison :=
  match a, b with
  | (x, desc) :: a', (y, _) :: b' =>
      match v_cmp x y with Eq => keys_cmp a' b' | c => if desc : bool then CompOpp c else c end
  | _, _ => Eq
  end.
Section yields.
(** The two callbacks, the parameters and the file. *)
Context (reserved : Z -> Z -> bool) (counts : string -> list (Z * N)) (ps : list value) (D : sdb).
Definition ev_q (sc : scope) (e : expr) : value := eval reserved ps (s_head D) (rows_in D) sc e.
Definition out_vals (i : nat) (sc : scope) (o : out) : list value :=
  match o with
  | OExpr e _ => [ev_q sc e]
  | ORowNumber _ => [VInt (Z.of_nat (S i))]
  | OStar t => concat ((fun x => (fun c => default VNull (cell x.2.1 x.2.2 c)) <$> col_names x.2.1) <$> List.filter (fun x => starred t x.1) sc)
  end.
Definition key_vals (order : list (expr * bool)) (sc : scope) : list (value * bool) := (fun x => (ev_q sc x.1, x.2)) <$> order.
Definition sorted_by (order : list (expr * bool)) (a b : scope) : Prop := keys_cmp (key_vals order a) (key_vals order b) <> Gt.
(** A negative LIMIT is none. *)
Definition limited {A} (limit : option expr) (l : list A) : list A :=
  match ev_q [] <$> limit with Some (VInt z) => if z <? 0 then l else take (Z.to_nat z) l | _ => l end.
Definition on_rows (on : expr) (sx : scope) (ly : list scope) : list scope :=
  List.filter (fun sc => holds (ev_q sc on)) ((fun sy => sx ++ sy) <$> ly).
Definition nulls (hs : list (string * header)) : scope := (fun x => (x.1, (x.2, replicate (length (h_cols x.2)) VNull))) <$> hs.
Definition or_nulls (hs : list (string * header)) (sx : scope) (l : list scope) : list scope :=
  match l with [] => [sx ++ nulls hs] | _ => l end.
Definition ints (l : list value) : list Z := omap (fun v => match v with VInt z => Some z | _ => None end) l.
Definition ctes : Type := list (string * (list string * list srow)).
Definition cte_cols (ct : ctes) : list (string * list string) := (fun x => (x.1, x.2.1)) <$> ct.

Fixpoint q_yields (ct : ctes) (q : query) (l : list srow) {struct q} : Prop :=
  match q with
  | QSelect outs from w order limit =>
      exists ls ls', s_yields ct from ls /\
        match order with
        | [] => ls' = List.filter (fun sc => holds (ev_q sc w)) ls
        | _ => ls' ≡ₚ List.filter (fun sc => holds (ev_q sc w)) ls /\ StronglySorted (sorted_by order) ls'
        end /\
        l = limited limit (imap (fun i sc => concat (out_vals i sc <$> outs)) ls')
  | QSum e name from =>
      exists ls, s_yields ct from ls /\ l = [[VInt (foldr Z.add 0 (ints ((fun sc => ev_q sc e) <$> ls)))]]
  | QUnionAll a b => exists la lb, q_yields ct a la /\ q_yields ct b lb /\ l = la ++ lb
  | QWith name a b => exists cs la, q_cols (s_head D) (cte_cols ct) a = Some cs /\ q_yields ct a la /\ q_yields ((name, (cs, la)) :: ct) b l
  end
with s_yields (ct : ctes) (f : source) (l : list scope) {struct f} : Prop :=
  match f with
  | FTable t a =>
      match SqlLang.assoc t ct with
      | Some (cs, rs) => l = (fun r => [(a, (plain cs, r))]) <$> rs
      | None => exists h rs, s_head D !! t = Some h /\ rs ≡ₚ rows_in D t /\ l = (fun r => [(a, (h, r))]) <$> rs
      end
  | FSub q a => exists cs rs, q_cols (s_head D) (cte_cols ct) q = Some cs /\ q_yields ct q rs /\ l = (fun r => [(a, (plain cs, r))]) <$> rs
  | FJson e a =>
      exists key rs, ev_q [] e = VText key /\ rs ≡ₚ counts key /\
        l = (fun x => [(a, (plain ["key"; "value"], [VText (pretty x.1); VInt (Z.of_N x.2)]))]) <$> rs
  | FCross x y on =>
      exists lx groups, s_yields ct x lx /\ Forall2 (fun sx g => exists ly, s_yields ct y ly /\ g = on_rows on sx ly) lx groups /\ l = concat groups
  | FInner x y on =>
      exists lx groups, s_yields ct x lx /\ Forall2 (fun sx g => exists ly, s_yields ct y ly /\ g = on_rows on sx ly) lx groups /\ l ≡ₚ concat groups
  | FLeft x y on =>
      exists lx hs groups, s_yields ct x lx /\ s_heads (s_head D) (cte_cols ct) y = Some hs /\
        Forall2 (fun sx g => exists ly, s_yields ct y ly /\ g = or_nulls hs sx (on_rows on sx ly)) lx groups /\ l = concat groups
  end.
(** The query can be prepared (its columns are [cs]) and may yield [l]. *)
Definition yields (q : query) (cs : list string) (l : list srow) : Prop :=
  q_joins q = true /\ q_cols (s_head D) [] q = Some cs /\ q_yields [] q l.
End yields.

(** *** consumer/strategy.rs *)
(** The QueryBuilder: push_bind writes "?", and the n-th "?" is the n-th value bound. Each function
    gets the number of values bound so far and returns its query with the values that it binds. *)
Definition built : Type := (query * list value)%type.
(** strategy.rs:97-98. FALSE is 0. *)
Definition is_not_reserved : expr := EEq (EReserved (tcol "chunks" "submission_id") (tcol "chunks" "chunk_index")) (ELit (VInt 0)).
(** 213-233 push_random_order_query; [off] is the random u16. *)
Definition b_random (outs : list out) (t : string) (cond : option expr) (off : N) (n : nat) : built :=
  let cond_and e := match cond with Some c => EAnd e c | None => e end in
  (QUnionAll (QSelect outs (FTable t t) (cond_and (EGe (col "random_order") (par (n + 1)))) [] None)
             (QSelect outs (FTable t t) (cond_and (ELt (col "random_order") (par (n + 2)))) [] None),
   [v_n off; v_n off]).
(** 128-136: the first three arms of build_query_snippet_returning_submission_ids. *)
Definition id_as_submission_id : list out := [OExpr (col "id") "submission_id"].
Definition b_ids_inner (s : strategy) (off : N) (n : nat) : built :=
  match s with
  | Newest => (QSelect id_as_submission_id (FTable "submissions" "submissions") yes [(col "id", true)] None, [])
  | Random => b_random id_as_submission_id "submissions" None off n
  | _ => (QSelect id_as_submission_id (FTable "submissions" "submissions") yes [(col "id", false)] None, [])
  end.
(** 161-177: the common table counts_i. *)
Definition counts_name (i : nat) : string := "counts_" +:+ pretty i.
Definition q_counts (n1 n2 : nat) : query :=
  QSelect [OExpr (tcol "sm" "submission_id") "submission_id"; OExpr (tcol "ffi_counts" "value") "count"]
    (FCross (FJson (par n1) "ffi_counts") (FTable "submissions_metadata" "sm") (EEq (tcol "sm" "metadata_value") (ECast (tcol "ffi_counts" "key"))))
    (EEq (tcol "sm" "metadata_key") (par n2)) [] None.
Fixpoint with_counts (i k n : nat) (q : query) : query :=
  match k with
  | O => q
  | S k' => QWith (counts_name i) (q_counts (n + 1) (n + 2)) (with_counts (S i) k' (n + 2) q)
  end.
(** 181-186: the left joins, for counts_i, counts_(i+1), ... *)
Fixpoint join_counts (i k : nat) (f : source) : source :=
  match k with
  | O => f
  | S k' => join_counts (S i) k' (FLeft f (FTable (counts_name i) (counts_name i))
      (EEq (tcol "inner" "submission_id") (tcol (counts_name i) "submission_id")))
  end.
(** 149-154 and 181-194. *)
Definition q_inner (q : query) : query :=
  QSelect [OExpr (col "submission_id") "submission_id"; ORowNumber "underlying_row"] (FSub q "") yes [] None.
Definition q_ranked (k : nat) : query :=
  QSelect [OExpr (tcol "inner" "submission_id") "submission_id"] (join_counts 0 k (FTable "inner" "inner")) yes
    (((fun i => (tcol (counts_name i) "count", false)) <$> seq 0 k) ++ [(tcol "inner" "underlying_row", false)]) None.
(** 137-195: the last arm. Every key is bound twice. *)
Definition b_ids (s : strategy) (off : N) (n : nat) : built :=
  match s with
  | PreferDistinct _ _ =>
      let keys := meta_keys s in
      let '(q, ps) := b_ids_inner (innermost s) off n in
      (QWith "inner" (q_inner q) (with_counts 0 (length keys) (n + length ps) (q_ranked (length keys))),
       ps ++ concat ((fun k => [VText k; VText k]) <$> keys))
  | _ => b_ids_inner s off n
  end.
(** 92-126 build_query_snippet_returning_chunks; 83-90 build_query. *)
Definition all_columns : list out := [OStar None].
Definition build_query (s : strategy) (off : N) : built :=
  match s with
  | Oldest => (QSelect all_columns (FTable "chunks" "chunks") is_not_reserved [(col "submission_id", false)] None, [])
  | Newest => (QSelect all_columns (FTable "chunks" "chunks") is_not_reserved [(col "submission_id", true)] None, [])
  | Random => b_random all_columns "chunks" (Some is_not_reserved) off 0
  | PreferDistinct _ _ =>
      let '(q, ps) := b_ids s off 0 in
      (QWith "underlying_submission_ids" q
        (QSelect [OStar (Some "chunks")]
          (FCross (FTable "underlying_submission_ids" "underlying_submission_ids") (FTable "chunks" "chunks")
            (EAnd (EEq (tcol "chunks" "submission_id") (tcol "underlying_submission_ids" "submission_id")) is_not_reserved))
          yes [] None), ps)
  end.
(** Chunk (common/chunk.rs:165-206) derives FromRow: by the names of the columns. *)
Definition row_cell (cs : list string) (r : srow) (c : string) : option value := i ← index_of c cs; r !! i.
Definition dec_chunk (cs : list string) (r : srow) : option chunk :=
  id ← row_cell cs r "submission_id" ≫= as_n; ix ← row_cell cs r "chunk_index" ≫= as_n;
  input ← row_cell cs r "input_content" ≫= as_blob; retries ← row_cell cs r "retries" ≫= as_n;
  Some (Chunk id ix input retries).
(** The callbacks: sqlite_reserved_chunk_lookup (dispatcher/mod.rs:26-76) and
    sqlite_metadata_counts_lookup (95-157). *)
Definition ask_reserved (rsv : chunk_id -> bool) (a b : Z) : bool := rsv (Z.to_N a, Z.to_N b).
Definition ask_counts (m : metastate) (key : string) : list (Z * N) := counts_of m (cstr key).

(** *** common/submission.rs:575-651, common/chunk.rs:681-683 *)
(** lookup_id_by_prefix. *)
Definition q_with_prefix (t : string) : query := QSelect [OExpr (col "id") "id"] (FTable t t) (EEq (col "prefix") (par 1)) [] None.
Definition q_by_prefix : query :=
  QUnionAll (QUnionAll (q_with_prefix "submissions") (q_with_prefix "submissions_completed")) (q_with_prefix "submissions_failed").
(** lookup_ids_by_strategic_metadata: without constraints ... *)
Definition q_all_ids : query := QSelect [OExpr (col "id") "id"] (FTable "submissions" "submissions") yes [(col "id", false)] (Some (par 1)).
(** ... and with [k] of them (lookup_ids_by_strategic_metadata_query, 631-651). *)
Definition meta_name (i : nat) : string := "s" +:+ pretty i.
Fixpoint join_metas (i k : nat) (f : source) : source :=
  match k with
  | O => f
  | S k' => join_metas (S i) k' (FInner f (FTable "submissions_metadata" (meta_name i))
      (EAnd (EAnd (EEq (tcol (meta_name i) "submission_id") (tcol "submissions" "id")) (EEq (tcol (meta_name i) "metadata_key") (par (2 * i + 1))))
            (EEq (tcol (meta_name i) "metadata_value") (par (2 * i + 2)))))
  end.
Definition q_by_metadata (k : nat) : query :=
  QSelect [OExpr (col "id") "id"] (join_metas 0 k (FTable "submissions" "submissions")) yes [(tcol (meta_name 0) "submission_id", false)] (Some (par (2 * k + 1))).
Definition b_by_metadata (m : list (string * Z)) (limit : N) : built :=
  match m with
  | [] => (q_all_ids, [v_n limit])
  | _ => (q_by_metadata (length m), concat ((fun kv => [VText kv.1; VInt kv.2]) <$> m) ++ [v_n limit])
  end.
Definition dec_id (r : srow) : option sub_id := match r with [v] => as_n v | _ => None end.
(** count_ops_in_backlog_estimate. *)
Definition q_backlog : query :=
  QSum (col "chunk_size") "count" (FInner (FTable "chunks" "chunks") (FTable "submissions" "submissions") (EEq (tcol "chunks" "submission_id") (tcol "submissions" "id"))).
