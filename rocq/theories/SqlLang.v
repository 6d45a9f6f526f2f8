(** The SQL that the code sends to SQLite, as text: the statements of db modules and migrations as
    syntax trees, and what SQLite does with them. SqlText.v contains the statements, Migrations.v
    those of the migrations.

    Simplifications: column types and affinities are left out (the code binds values of the type
    of the column only); a row is the list of the values of its stored columns. The rows of a
    table have no order that a statement could rely on: SqlProofs.v proves its results for tables
    whose rows are listed in any order. *)
From Verif Require Export Sqlite.
Local Open Scope Z_scope.

(** VTime is the double that julianday(..) makes of a date; the model keeps exact integers (as
    Types.v). VObj is the text made by json_group_object. *)
Inductive value : Set :=
| VNull | VInt (z : Z) | VText (s : string) | VBlob (s : string) | VTime (t : Z) | VObj (l : list (string * Z)).
Global Instance value_eq_dec : EqDecision value.
Proof. solve_decision. Defined.
Notation srow := (list value) (only parsing).

(** Formulas of generated columns. *)
Inductive gexpr : Set :=
| GCol (c : string) | GInt (z : Z) | GAdd (a b : gexpr) | GMul (a b : gexpr) | GMod (a b : gexpr) | GShr (a b : gexpr).

Record column : Set := Column { co_name : string; co_notnull : bool; co_default : value }.
(** What CREATE TABLE and ALTER TABLE determine: stored columns, primary key, virtual columns. *)
Record header : Set := Header { h_cols : list column; h_key : list string; h_gen : list (string * gexpr) }.
(** Indexes: name, table, columns. They do not influence results. *)
Record sdb : Set := Sdb { s_head : gmap string header; s_index : gmap string (string * list string); s_rows : gmap string (list srow) }.
Definition sdb_empty : sdb := Sdb ∅ ∅ ∅.
Definition rows_in (D : sdb) (t : string) : list srow := default [] (s_rows D !! t).
Definition put_rows (t : string) (l : list srow) (D : sdb) : sdb := Sdb (s_head D) (s_index D) (<[t := l]> (s_rows D)).

Fixpoint index_of (c : string) (l : list string) : option nat :=
  match l with
  | [] => None
  | x :: l' => if String.eqb x c then Some O else S <$> index_of c l'
  end.
Fixpoint assoc {A} (c : string) (l : list (string * A)) : option A :=
  match l with
  | [] => None
  | (x, a) :: l' => if String.eqb x c then Some a else assoc c l'
  end.
Definition stored (h : header) (r : srow) (c : string) : option value :=
  i ← index_of c (co_name <$> h_cols h); r !! i.
(** Sums that leave the 64 bits become doubles; the operator % converts its operands to integers
    again, clamped to the 64-bit range. The model keeps the exact sum and clamps in [GMod]. *)
Definition clamp (z : Z) : Z := Z.min z (2 ^ 63 - 1).
Definition int_op (f : Z -> Z -> Z) (a b : option value) : option value :=
  match a, b with
  | Some (VInt x), Some (VInt y) => Some (VInt (f x y))
  | Some _, Some _ => Some VNull
  | _, _ => None
  end.
Fixpoint geval (h : header) (r : srow) (g : gexpr) : option value :=
  match g with
  | GCol c => stored h r c
  | GInt z => Some (VInt z)
  | GAdd a b => int_op Z.add (geval h r a) (geval h r b)
  | GMul a b => int_op Z.mul (geval h r a) (geval h r b)
  | GMod a b => int_op (fun x y => Z.rem (clamp x) (clamp y)) (geval h r a) (geval h r b)
  | GShr a b => int_op Z.shiftr (geval h r a) (geval h r b)
  end.
(** The value of a column, stored or generated. *)
Definition cell (h : header) (r : srow) (c : string) : option value :=
  match stored h r c with
  | Some v => Some v
  | None => g ← assoc c (h_gen h); geval h r g
  end.
Definition col_names (h : header) : list string := (co_name <$> h_cols h) ++ (h_gen h).*1.

(** Expressions: [ECol q c] is "c" or "q.c", [EParam n] is "$n", [EIn a c t w] is
    "a IN (SELECT c FROM t WHERE w)", [EJson k v t w] is "(SELECT json_group_object(k, v) FROM t
    WHERE w)", [EJulian] is julianday, [ECast a] is CAST(a AS INTEGER), [EReserved a b] is
    opsqueue_is_reserved(a, b). *)
Inductive expr : Set :=
| ELit (v : value) | EParam (n : nat) | ECol (q : option string) (c : string)
| EEq (a b : expr) | ELt (a b : expr) | EGe (a b : expr) | EAnd (a b : expr) | EAdd (a b : expr)
| EJulian (a : expr) | ECast (a : expr) | EReserved (a b : expr)
| EIn (a : expr) (c : expr) (t : string) (w : expr)
| EJson (k v : expr) (t : string) (w : expr).

Definition truth (b : bool) : value := VInt (if b then 1 else 0).
Definition holds (v : value) : bool := match v with VInt z => negb (z =? 0) | _ => false end.
(** Comparisons with NULL are NULL. *)
Definition v_eq (a b : value) : value :=
  match a, b with VNull, _ | _, VNull => VNull | _, _ => truth (bool_decide (a = b)) end.
Definition v_lt (a b : value) : value :=
  match a, b with
  | VInt x, VInt y => truth (x <? y) | VTime x, VTime y => truth (x <? y) | _, _ => VNull end.
Definition v_ge (a b : value) : value :=
  match a, b with
  | VInt x, VInt y => truth (y <=? x) | VTime x, VTime y => truth (y <=? x) | _, _ => VNull end.
Definition v_and (a b : value) : value := truth (holds a && holds b).
Definition v_add (a b : value) : value := match a, b with VInt x, VInt y => VInt (x + y) | _, _ => VNull end.
(** julianday of a bound date. *)
Definition v_julian (a : value) : value := match a with VTime t => VTime t | _ => VNull end.
(** CAST of a text: the number at its beginning. Simplification: no leading spaces, no clamping to 64
    bits. *)
Definition digit_of (c : Ascii.ascii) : option Z :=
  let n := Ascii.N_of_ascii c in if (48 <=? n)%N && (n <=? 57)%N then Some (Z.of_N (n - 48)) else None.
Fixpoint digits (acc : Z) (s : string) : Z :=
  match s with
  | EmptyString => acc
  | String c s' => match digit_of c with Some k => digits (acc * 10 + k) s' | None => acc end
  end.
Definition int_text (s : string) : Z :=
  match s with
  | String c s' => if bool_decide (c = Ascii.ascii_of_nat 45) then - digits 0 s' else digits 0 s
  | EmptyString => 0
  end.
Definition v_cast (a : value) : value := match a with VInt z => VInt z | VText s => VInt (int_text s) | _ => VNull end.
Definition v_pair (k v : value) : option (string * Z) := match k, v with VText s, VInt z => Some (s, z) | _, _ => None end.

(** The rows that an expression refers to: alias, header, row; the innermost first. *)
Definition scope := list (string * (header * srow)).
Fixpoint resolve (sc : scope) (q : option string) (c : string) : value :=
  match sc with
  | [] => VNull
  | (a, (h, r)) :: sc' =>
      if match q with Some q => String.eqb a q | None => true end then
        match cell h r c with Some v => v | None => resolve sc' q c end
      else resolve sc' q c
  end.

Section eval.
(** The callback opsqueue_is_reserved, and the bound parameters. *)
Context (reserved : Z -> Z -> bool) (ps : list value).
Context (heads : gmap string header) (rows : string -> list srow).
Fixpoint eval (sc : scope) (e : expr) : value :=
  match e with
  | ELit v => v
  | EParam n => default VNull (ps !! Nat.pred n)
  | ECol q c => resolve sc q c
  | EEq a b => v_eq (eval sc a) (eval sc b)
  | ELt a b => v_lt (eval sc a) (eval sc b)
  | EGe a b => v_ge (eval sc a) (eval sc b)
  | EAnd a b => v_and (eval sc a) (eval sc b)
  | EAdd a b => v_add (eval sc a) (eval sc b)
  | EJulian a => v_julian (eval sc a)
  | ECast a => v_cast (eval sc a)
  | EReserved a b =>
      match eval sc a, eval sc b with VInt x, VInt y => truth (reserved x y) | _, _ => truth false end
  | EIn a c t w =>
      match heads !! t with
      | None => VNull
      | Some h =>
          let x := eval sc a in
          truth (existsb (fun r => holds (eval ((t, (h, r)) :: sc) w) && holds (v_eq x (eval ((t, (h, r)) :: sc) c))) (rows t))
      end
  | EJson k v t w =>
      match heads !! t with
      | None => VNull
      | Some h =>
          VObj (omap (fun r => if holds (eval ((t, (h, r)) :: sc) w) then v_pair (eval ((t, (h, r)) :: sc) k) (eval ((t, (h, r)) :: sc) v) else None) (rows t))
      end
  end.
End eval.

(** Preparing a statement fails when a name in it cannot be resolved. *)
Definition scope_names := list (string * list string).
Fixpoint resolves (sn : scope_names) (q : option string) (c : string) : bool :=
  match sn with
  | [] => false
  | (a, cs) :: sn' => (match q with Some q => String.eqb a q | None => true end && existsb (String.eqb c) cs) || resolves sn' q c
  end.
Fixpoint e_ok (heads : gmap string header) (sn : scope_names) (e : expr) : bool :=
  match e with
  | ELit _ | EParam _ => true
  | ECol q c => resolves sn q c
  | EEq a b | ELt a b | EGe a b | EAnd a b | EAdd a b | EReserved a b => e_ok heads sn a && e_ok heads sn b
  | EJulian a | ECast a => e_ok heads sn a
  | EIn a c t w =>
      match heads !! t with
      | None => false
      | Some h => e_ok heads sn a && e_ok heads ((t, col_names h) :: sn) c && e_ok heads ((t, col_names h) :: sn) w
      end
  | EJson k v t w =>
      match heads !! t with
      | None => false
      | Some h => e_ok heads ((t, col_names h) :: sn) k && e_ok heads ((t, col_names h) :: sn) v && e_ok heads ((t, col_names h) :: sn) w
      end
  end.

(** Statements on one table; [TCount] is "SELECT COUNT(1) FROM t". "RETURNING *" is written out. *)
Inductive statement : Set :=
| TInsert (t : string) (cols : list string) (vals : list (list expr))
| TInsertSelect (t : string) (cols : list string) (outs : list expr) (from : string) (w : expr)
| TUpdate (t : string) (c : string) (e : expr) (w : expr) (returning : list expr)
| TDelete (t : string) (w : expr) (returning : list expr)
| TSelect (outs : list expr) (from : string) (w : expr)
| TCount (from : string).

Definition stmt_ok (heads : gmap string header) (s : statement) : bool :=
  match s with
  | TInsert t cols vals =>
      match heads !! t with
      | None => false
      | Some h => forallb (fun c => existsb (String.eqb c) (co_name <$> h_cols h)) cols &&
          forallb (fun v => Nat.eqb (length v) (length cols) && forallb (e_ok heads []) v) vals
      end
  | TInsertSelect t cols outs from w =>
      match heads !! t, heads !! from with
      | Some h, Some hf => forallb (fun c => existsb (String.eqb c) (co_name <$> h_cols h)) cols &&
          Nat.eqb (length outs) (length cols) && forallb (e_ok heads [(from, col_names hf)]) (w :: outs)
      | _, _ => false
      end
  | TUpdate t c e w ret =>
      match heads !! t with
      | None => false
      | Some h => existsb (String.eqb c) (co_name <$> h_cols h) && forallb (e_ok heads [(t, col_names h)]) (e :: w :: ret)
      end
  | TDelete t w ret => match heads !! t with None => false | Some h => forallb (e_ok heads [(t, col_names h)]) (w :: ret) end
  | TSelect outs t w => match heads !! t with None => false | Some h => forallb (e_ok heads [(t, col_names h)]) (w :: outs) end
  | TCount t => bool_decide (is_Some (heads !! t))
  end.

(** A new row: the named columns get the given values, the others their defaults. *)
Definition make_row (h : header) (cols : list string) (vs : list value) : srow :=
  (fun c => match index_of (co_name c) cols with Some i => default VNull (vs !! i) | None => co_default c end) <$> h_cols h.
Definition key_of (h : header) (r : srow) : list (option value) := stored h r <$> h_key h.
Definition nulls_ok (h : header) (r : srow) : bool :=
  forallb (fun c => negb (co_notnull c) || negb (bool_decide (stored h r (co_name c) = Some VNull))) (h_cols h).
Fixpoint insert_rows (h : header) (news l : list srow) : sqlres (list srow) :=
  match news with
  | [] => SOk l
  | r :: news' =>
      if negb (nulls_ok h r) then SErr OtherSqlError
      else if existsb (fun x => bool_decide (key_of h x = key_of h r)) l then SErr UniqueViolation
      else insert_rows h news' (r :: l)
  end.
(** UPDATE of one column. *)
Definition set_cell (h : header) (c : string) (v : value) (r : srow) : srow :=
  match index_of c (co_name <$> h_cols h) with Some i => <[i := v]> r | None => r end.

Section exec.
Context (reserved : Z -> Z -> bool).
(** The result rows and the new database. An UPDATE that breaks a key or a NOT NULL constraint
    does not occur here and is not modelled. *)
Definition exec_stmt (s : statement) (ps : list value) (D : sdb) : sqlres (list srow * sdb) :=
  let ev := eval reserved ps (s_head D) (rows_in D) in
  if negb (stmt_ok (s_head D) s) then SErr OtherSqlError
  else match s with
  | TInsert t cols vals =>
      match s_head D !! t with
      | None => SErr OtherSqlError
      | Some h =>
          match insert_rows h ((fun v => make_row h cols (ev [] <$> v)) <$> vals) (rows_in D t) with
          | SOk l => SOk ([], put_rows t l D) | SErr e => SErr e end
      end
  | TInsertSelect t cols outs from w =>
      match s_head D !! t, s_head D !! from with
      | Some h, Some hf =>
          let sel := List.filter (fun r => holds (ev [(from, (hf, r))] w)) (rows_in D from) in
          match insert_rows h ((fun r => make_row h cols (ev [(from, (hf, r))] <$> outs)) <$> sel) (rows_in D t) with
          | SOk l => SOk ([], put_rows t l D) | SErr e => SErr e end
      | _, _ => SErr OtherSqlError
      end
  | TUpdate t c e w ret =>
      match s_head D !! t with
      | None => SErr OtherSqlError
      | Some h =>
          let p r := holds (ev [(t, (h, r))] w) in
          let u r := set_cell h c (ev [(t, (h, r))] e) r in
          SOk ((fun r => ev [(t, (h, r))] <$> ret) <$> (u <$> List.filter p (rows_in D t)),
               put_rows t ((fun r => if p r then u r else r) <$> rows_in D t) D)
      end
  | TDelete t w ret =>
      match s_head D !! t with
      | None => SErr OtherSqlError
      | Some h =>
          let p r := holds (ev [(t, (h, r))] w) in
          SOk ((fun r => ev [(t, (h, r))] <$> ret) <$> List.filter p (rows_in D t),
               put_rows t (List.filter (fun r => negb (p r)) (rows_in D t)) D)
      end
  | TSelect outs t w =>
      match s_head D !! t with
      | None => SErr OtherSqlError
      | Some h => SOk ((fun r => ev [(t, (h, r))] <$> outs) <$> List.filter (fun r => holds (ev [(t, (h, r))] w)) (rows_in D t), D)
      end
  | TCount t => SOk ([[VInt (Z.of_nat (length (rows_in D t)))]], D)
  end.
End exec.

(** Programs whose statements are text: as [prog] of Sqlite.v. *)
Inductive tprog (A : Type) : Type :=
| TRet (a : A)
| TBegin (k : option sql_error -> tprog A)
| TCommit (k : option sql_error -> tprog A)
| TRollback (k : tprog A)
| TSql (s : statement) (ps : list value) (k : sqlres (list srow) -> tprog A).
Global Arguments TRet {A} a.
Global Arguments TBegin {A} k.
Global Arguments TCommit {A} k.
Global Arguments TRollback {A} k.
Global Arguments TSql {A} s ps k.
Fixpoint tbind {A B} (p : tprog A) (g : A -> tprog B) : tprog B :=
  match p with
  | TRet a => g a
  | TBegin k => TBegin (fun r => tbind (k r) g)
  | TCommit k => TCommit (fun r => tbind (k r) g)
  | TRollback k => TRollback (tbind k g)
  | TSql s ps k => TSql s ps (fun r => tbind (k r) g)
  end.

Record tconn : Set := Tconn { tc_cur : sdb; tc_saved : list sdb }.
Definition no_callback : Z -> Z -> bool := fun _ _ => false.
(** As [run] of Sqlite.v. *)
Fixpoint trun {A} (p : tprog A) (c : tconn) (fs : faults) : A * tconn * faults :=
  match p with
  | TRet a => (a, c, fs)
  | TBegin k =>
      let '(b, fs) := next_fault fs in
      if b : bool then trun (k (Some OtherSqlError)) c fs
      else trun (k None) (Tconn (tc_cur c) (tc_cur c :: tc_saved c)) fs
  | TCommit k =>
      let '(b, fs) := next_fault fs in
      match tc_saved c with
      | [] => trun (k (Some OtherSqlError)) c fs
      | d :: ds =>
          if b : bool then trun (k (Some OtherSqlError)) (Tconn d ds) fs
          else trun (k None) (Tconn (tc_cur c) ds) fs
      end
  | TRollback k =>
      match tc_saved c with
      | [] => trun k c fs
      | d :: ds => trun k (Tconn d ds) fs
      end
  | TSql s ps k =>
      let '(b, fs) := next_fault fs in
      if b : bool then trun (k (SErr OtherSqlError)) c fs
      else match exec_stmt no_callback s ps (tc_cur c) with
           | SOk (r, d) => trun (k (SOk r)) (Tconn d (tc_saved c)) fs
           | SErr e => trun (k (SErr e)) c fs
           end
  end.
(** As [states] of Sqlite.v. *)
Fixpoint tstates {A} (p : tprog A) (c : tconn) (fs : faults) : list tconn :=
  c :: match p with
  | TRet a => []
  | TBegin k =>
      let '(b, fs) := next_fault fs in
      if b : bool then tstates (k (Some OtherSqlError)) c fs
      else tstates (k None) (Tconn (tc_cur c) (tc_cur c :: tc_saved c)) fs
  | TCommit k =>
      let '(b, fs) := next_fault fs in
      match tc_saved c with
      | [] => tstates (k (Some OtherSqlError)) c fs
      | d :: ds =>
          if b : bool then tstates (k (Some OtherSqlError)) (Tconn d ds) fs
          else tstates (k None) (Tconn (tc_cur c) ds) fs
      end
  | TRollback k =>
      match tc_saved c with
      | [] => tstates k c fs
      | d :: ds => tstates k (Tconn d ds) fs
      end
  | TSql s ps k =>
      let '(b, fs) := next_fault fs in
      if b : bool then tstates (k (SErr OtherSqlError)) c fs
      else match exec_stmt no_callback s ps (tc_cur c) with
           | SOk (r, d) => tstates (k (SOk r)) (Tconn d (tc_saved c)) fs
           | SErr e => tstates (k (SErr e)) c fs
           end
  end.
Definition texec {A} (p : tprog A) (d : sdb) (fs : faults) : A * sdb :=
  let '(r, c, _) := trun p (Tconn d []) fs in (r, tc_cur c).
Definition tdurable (c : tconn) : sdb := List.last (tc_saved c) (tc_cur c).
Definition tcrash_dbs {A} (p : tprog A) (d : sdb) (fs : faults) : list sdb := tdurable <$> tstates p (Tconn d []) fs.

(** Rust's [Result], as in Sqlite.v. *)
Definition T (A : Type) : Type := tprog (res A).
Definition tret {A} (a : A) : T A := TRet (Ok a).
Definition terr {A} (e : op_error) : T A := TRet (Err e).
Definition ttry {A B} (p : T A) (g : A -> T B) : T B :=
  tbind p (fun r => match r with Ok a => g a | Err e => TRet (Err e) | Panicked => TRet Panicked end).
Notation "x <-$ p ; k" := (ttry p (fun x => k)) (at level 100, p at next level, right associativity).
Notation "p ;;$ k" := (ttry p (fun _ => k)) (at level 100, right associativity).
Definition ttransaction {A} (body : T A) : T A :=
  TBegin (fun b =>
    match b with
    | Some e => TRet (Err (EDb e))
    | None =>
        tbind body (fun r =>
          match r with
          | Ok a => TCommit (fun b' => match b' with Some e => TRet (Err (EDb e)) | None => TRet (Ok a) end)
          | Err e => TRollback (TRet (Err e))
          | Panicked => TRollback (TRet Panicked)
          end)
    end).

(** sqlx: [execute] ignores rows, [fetch_one] wants a first row, [fetch_optional] takes the first
    row if there is one, [fetch_all] takes all. A row that cannot be decoded is an error. *)
Definition execute (s : statement) (ps : list value) : T unit :=
  TSql s ps (fun r => TRet (match r with SOk _ => Ok tt | SErr e => Err (EDb e) end)).
Definition fetch_one {A} (dec : srow -> option A) (s : statement) (ps : list value) : T A :=
  TSql s ps (fun r => TRet (match r with
    | SOk [] => Err (EDb RowNotFound)
    | SOk (x :: _) => match dec x with Some a => Ok a | None => Err (EDb OtherSqlError) end
    | SErr e => Err (EDb e) end)).
Definition fetch_optional {A} (dec : srow -> option A) (s : statement) (ps : list value) : T (option A) :=
  TSql s ps (fun r => TRet (match r with
    | SOk [] => Ok None
    | SOk (x :: _) => match dec x with Some a => Ok (Some a) | None => Err (EDb OtherSqlError) end
    | SErr e => Err (EDb e) end)).
Definition fetch_all {A} (dec : srow -> option A) (s : statement) (ps : list value) : T (list A) :=
  TSql s ps (fun r => TRet (match r with
    | SOk l => match mapM dec l with Some l => Ok l | None => Err (EDb OtherSqlError) end
    | SErr e => Err (EDb e) end)).
