(** The migrations (opsqueue/migrations), which sqlx runs when the server starts (db/mod.rs: every
    script that the database has not seen yet, in the order of their numbers, each in one
    transaction together with the note that it has been run). *)
From Verif Require Export SqlLang.
Local Open Scope string_scope.
Local Open Scope list_scope.

Global Instance gexpr_eq_dec : EqDecision gexpr.
Proof. solve_decision. Defined.
Global Instance column_eq_dec : EqDecision column.
Proof. solve_decision. Defined.
Global Instance header_eq_dec : EqDecision header.
Proof. solve_decision. Defined.

(** Statements that change the schema, and the two that fill a new table. [DCopyMax into ks v from]
    is "INSERT INTO into (ks, v) SELECT ks, MAX(v) FROM from GROUP BY ks", [DCopy into cs from] is
    "INSERT INTO into (cs) SELECT cs FROM from". *)
Inductive ddl : Set :=
| DCreateTable (t : string) (cols : list column) (key : list string)
| DAddColumn (t : string) (c : column)
| DAddGenerated (t : string) (c : string) (g : gexpr)
| DDropColumn (t c : string)
| DDropTable (t : string)
| DRename (t t' : string)
| DCreateIndex (i t : string) (cols : list string)
| DDropIndex (i : string)
| DCopyMax (into : string) (ks : list string) (v from : string)
| DCopy (into : string) (cs : list string) (from : string).

Fixpoint g_cols (g : gexpr) : list string :=
  match g with
  | GCol c => [c] | GInt _ => []
  | GAdd a b | GMul a b | GMod a b | GShr a b => g_cols a ++ g_cols b
  end.
Definition schema : Type := (gmap string header * gmap string (string * list string))%type.
(** What a statement does to the schema; [None]: SQLite refuses it. A column cannot be dropped while
    it is in the key, an index or a formula; an index goes with its table. *)
Definition ddl_schema (d : ddl) (s : schema) : option schema :=
  let '(hs, ix) := s in
  match d with
  | DCreateTable t cols key => match hs !! t with None => Some (<[t := Header cols key []]> hs, ix) | Some _ => None end
  | DAddColumn t c =>
      h ← hs !! t;
      if existsb (String.eqb (co_name c)) (col_names h) || (co_notnull c && bool_decide (co_default c = VNull)) then None
      else Some (<[t := Header (h_cols h ++ [c]) (h_key h) (h_gen h)]> hs, ix)
  | DAddGenerated t c g =>
      h ← hs !! t;
      if existsb (String.eqb c) (col_names h) || negb (forallb (fun x => existsb (String.eqb x) (co_name <$> h_cols h)) (g_cols g)) then None
      else Some (<[t := Header (h_cols h) (h_key h) (h_gen h ++ [(c, g)])]> hs, ix)
  | DDropColumn t c =>
      h ← hs !! t;
      if existsb (fun '(_, (t', cs)) => String.eqb t' t && existsb (String.eqb c) cs) (map_to_list ix)
         || existsb (String.eqb c) (h_key h) || negb (existsb (String.eqb c) (col_names h)) then None
      else if existsb (String.eqb c) (h_gen h).*1
      then Some (<[t := Header (h_cols h) (h_key h) (List.filter (fun p => negb (String.eqb p.1 c)) (h_gen h))]> hs, ix)
      else if existsb (fun p => existsb (String.eqb c) (g_cols p.2)) (h_gen h) then None
      else Some (<[t := Header (List.filter (fun x => negb (String.eqb (co_name x) c)) (h_cols h)) (h_key h) (h_gen h)]> hs, ix)
  | DDropTable t => _ ← hs !! t; Some (delete t hs, filter (fun p => p.2.1 <> t) ix)
  | DRename t t' =>
      h ← hs !! t;
      match hs !! t' with
      | Some _ => None
      | None => Some (<[t' := h]> (delete t hs), (fun p => if String.eqb p.1 t then (t', p.2) else p) <$> ix)
      end
  | DCreateIndex i t cols =>
      h ← hs !! t;
      match ix !! i with
      | Some _ => None
      | None => if forallb (fun c => existsb (String.eqb c) (col_names h)) cols then Some (hs, <[i := (t, cols)]> ix) else None
      end
  | DDropIndex i => _ ← ix !! i; Some (hs, delete i ix)
  | DCopyMax into ks v from =>
      h ← hs !! into; hf ← hs !! from;
      if forallb (fun c => existsb (String.eqb c) (co_name <$> h_cols h) && existsb (String.eqb c) (co_name <$> h_cols hf)) (ks ++ [v])
      then Some (hs, ix) else None
  | DCopy into cs from =>
      h ← hs !! into; hf ← hs !! from;
      if forallb (fun c => existsb (String.eqb c) (co_name <$> h_cols h) && existsb (String.eqb c) (co_name <$> h_cols hf)) cs
      then Some (hs, ix) else None
  end.

(** MAX over a group of rows; NULL is less than everything. *)
Definition v_max (a b : value) : value :=
  match a, b with VInt x, VInt y => VInt (Z.max x y) | VInt _, _ => a | _, _ => b end.
Fixpoint group_max (h : header) (ks : list string) (v : string) (l : list srow) : list (list value * value) :=
  match l with
  | [] => []
  | r :: l' =>
      let k := (fun c => default VNull (stored h r c)) <$> ks in
      let x := default VNull (stored h r v) in
      let g := group_max h ks v l' in
      match list_find (fun p => p.1 = k) g with
      | Some (i, (_, y)) => <[i := (k, v_max x y)]> g
      | None => (k, x) :: g
      end
  end.
(** What a statement does to the rows; [None]: a constraint is violated. *)
Definition ddl_rows (d : ddl) (hs : gmap string header) (rs : gmap string (list srow)) : option (gmap string (list srow)) :=
  match d with
  | DCreateTable t _ _ => Some (<[t := []]> rs)
  | DAddColumn t c => Some (alter (fmap (fun r => r ++ [co_default c])) t rs)
  | DDropColumn t c =>
      match hs !! t with
      | Some h => match index_of c (co_name <$> h_cols h) with Some i => Some (alter (fmap (delete i)) t rs) | None => Some rs end
      | None => Some rs
      end
  | DDropTable t => Some (delete t rs)
  | DRename t t' => Some (<[t' := default [] (rs !! t)]> (delete t rs))
  | DAddGenerated _ _ _ | DCreateIndex _ _ _ | DDropIndex _ => Some rs
  | DCopyMax into ks v from =>
      h ← hs !! into; hf ← hs !! from;
      match insert_rows h ((fun '(k, x) => make_row h (ks ++ [v]) (k ++ [x])) <$> group_max hf ks v (default [] (rs !! from))) (default [] (rs !! into)) with
      | SOk l => Some (<[into := l]> rs) | SErr _ => None end
  | DCopy into cs from =>
      h ← hs !! into; hf ← hs !! from;
      match insert_rows h ((fun r => make_row h cs ((fun c => default VNull (stored hf r c)) <$> cs)) <$> default [] (rs !! from)) (default [] (rs !! into)) with
      | SOk l => Some (<[into := l]> rs) | SErr _ => None end
  end.
Definition run_ddl (d : ddl) (D : sdb) : option sdb :=
  '(hs, ix) ← ddl_schema d (s_head D, s_index D); rs ← ddl_rows d (s_head D) (s_rows D); Some (Sdb hs ix rs).
Fixpoint run_script (l : list ddl) (D : sdb) : option sdb :=
  match l with [] => Some D | d :: l' => D' ← run_ddl d D; run_script l' D' end.

(** *** The scripts *)
(** A column that may be NULL, one that may not, one that may not and has a default. *)
Definition opt (c : string) : column := Column c false VNull.
Definition req (c : string) : column := Column c true VNull.
Definition dfl (c : string) (v : value) : column := Column c true v.

(** 20240704100242_submissions.sql *)
Definition m_submissions : list ddl :=
  [DCreateTable "submissions" [req "id"; opt "prefix"; dfl "chunks_total" (VInt 0); dfl "chunks_done" (VInt 0); opt "metadata"] ["id"];
   DCreateTable "submissions_completed" [req "id"; opt "prefix"; dfl "chunks_total" (VInt 0); opt "metadata"; req "completed_at"] ["id"];
   DCreateTable "submissions_failed" [req "id"; opt "prefix"; dfl "chunks_total" (VInt 0); opt "metadata"; req "failed_chunk_id"; req "failed_at"] ["id"]].
(** 20240704100449_chunks.sql *)
Definition m_chunks : list ddl :=
  [DCreateTable "chunks" [req "submission_id"; req "chunk_index"; opt "input_content"; dfl "retries" (VInt 0)] ["submission_id"; "chunk_index"];
   DCreateTable "chunks_completed" [req "submission_id"; req "chunk_index"; opt "output_content"; req "completed_at"] ["submission_id"; "chunk_index"];
   DCreateTable "chunks_failed" [req "submission_id"; req "chunk_index"; opt "input_content"; dfl "failure" (VText ""); req "failed_at"; dfl "skipped" (VInt 0)]
     ["submission_id"; "chunk_index"]].
(** The first formula: 20241104104445_random_chunks_index.up.sql:12-14. *)
Definition g_old : gexpr := GMod (GMul (GMod (GAdd (GCol "submission_id") (GCol "chunk_index")) (GInt 65536)) (GInt 40503)) (GInt 65536).
(** The present formula: 20250803174028_better_random_order_formula.up.sql:14-19. *)
Definition g_new : gexpr :=
  GMod (GMul (GMod (GAdd (GAdd (GCol "submission_id") (GShr (GCol "submission_id") (GInt 22))) (GCol "chunk_index")) (GInt 65536)) (GInt 40503)) (GInt 65536).
(** 20260803133844_add_random_order_index_to_submissions.up.sql:2-4. *)
Definition g_sub : gexpr := GMod (GMul (GMod (GAdd (GCol "id") (GShr (GCol "id") (GInt 22))) (GInt 65536)) (GInt 40503)) (GInt 65536).
Definition ix_chunks : ddl := DCreateIndex "random_chunks_order" "chunks" ["random_order"; "submission_id"; "chunk_index"].
Definition ix_meta1 : ddl :=
  DCreateIndex "random_chunks_metadata_order" "chunks_metadata" ["metadata_key"; "metadata_value"; "random_order"; "submission_id"; "chunk_index"].
Definition ix_meta2 : ddl :=
  DCreateIndex "random_chunks_metadata_order2" "chunks_metadata" ["metadata_key"; "random_order"; "metadata_value"; "submission_id"; "chunk_index"].
Definition ix_lookup : ddl :=
  DCreateIndex "lookup_submission_by_metadata" "submissions_metadata" ["metadata_key"; "metadata_value"; "submission_id"].
(** 20241104104445_random_chunks_index *)
Definition m_random_up : list ddl := [DAddGenerated "chunks" "random_order" g_old; ix_chunks].
Definition m_random_down : list ddl := [DDropIndex "random_chunks_order"; DDropColumn "chunks" "random_order"].
(** 20241117104740_submission_index_by_prefix *)
Definition m_prefix_up : list ddl :=
  [DCreateIndex "submissions_prefix" "submissions" ["prefix"; "id"]; DCreateIndex "submissions_completed_prefix" "submissions_completed" ["prefix"; "id"];
   DCreateIndex "submissions_failed_prefix" "submissions_failed" ["prefix"; "id"]].
Definition m_prefix_down : list ddl :=
  [DDropIndex "submissions_prefix"; DDropIndex "submissions_completed_prefix"; DDropIndex "submissions_failed_prefix"].
(** 20241122175706_add_tracecontext_to_submissions *)
Definition m_trace_up : list ddl :=
  [DAddColumn "submissions" (dfl "otel_trace_carrier" (VText "{}")); DAddColumn "submissions_completed" (dfl "otel_trace_carrier" (VText "{}"));
   DAddColumn "submissions_failed" (dfl "otel_trace_carrier" (VText "{}"))].
Definition m_trace_down : list ddl :=
  [DDropColumn "submissions" "otel_trace_carrier"; DDropColumn "submissions_completed" "otel_trace_carrier"; DDropColumn "submissions_failed" "otel_trace_carrier"].
(** 20250104155558_add_strategic_metadata *)
Definition m_metadata_up : list ddl :=
  [DCreateTable "submissions_metadata" [req "submission_id"; req "metadata_key"; req "metadata_value"] ["submission_id"; "metadata_key"; "metadata_value"];
   ix_lookup;
   DCreateTable "chunks_metadata" [req "submission_id"; req "chunk_index"; req "metadata_key"; req "metadata_value"]
     ["submission_id"; "chunk_index"; "metadata_key"; "metadata_value"];
   DAddGenerated "chunks_metadata" "random_order" g_old; ix_meta1; ix_meta2].
Definition m_metadata_down : list ddl :=
  [DDropIndex "random_chunks_metadata_order"; DDropIndex "random_chunks_metadata_order2"; DDropTable "chunks_metadata";
   DDropIndex "lookup_submission_by_metadata"; DDropTable "submissions_metadata"].
(** 20250416081453_track_chunk_size *)
Definition m_size_up : list ddl :=
  [DAddColumn "submissions" (opt "chunk_size"); DAddColumn "submissions_completed" (opt "chunk_size"); DAddColumn "submissions_failed" (opt "chunk_size")].
Definition m_size_down : list ddl :=
  [DDropColumn "submissions" "chunk_size"; DDropColumn "submissions_completed" "chunk_size"; DDropColumn "submissions_failed" "chunk_size"].
(** 20250803174028_better_random_order_formula *)
Definition m_formula (g : gexpr) : list ddl :=
  [DDropIndex "random_chunks_order"; DDropIndex "random_chunks_metadata_order"; DDropIndex "random_chunks_metadata_order2";
   DDropColumn "chunks" "random_order"; DDropColumn "chunks_metadata" "random_order";
   DAddGenerated "chunks" "random_order" g; DAddGenerated "chunks_metadata" "random_order" g; ix_chunks; ix_meta1; ix_meta2].
Definition m_formula_up : list ddl := m_formula g_new.
Definition m_formula_down : list ddl := m_formula g_old.
(** 20260225164600_submissions_cancelled.sql *)
Definition m_cancelled : list ddl :=
  [DCreateTable "submissions_cancelled"
     [req "id"; opt "prefix"; dfl "chunks_total" (VInt 0); dfl "chunks_done" (VInt 0); opt "metadata"; req "cancelled_at"] ["id"]].
(** 20260429173300_add_chunks_done_to_submissions_failed.sql *)
Definition m_failed_done : list ddl := [DAddColumn "submissions_failed" (opt "chunks_done")].
(** 20260710113337_drop_chunks_metadata.sql *)
Definition m_drop_chunks_metadata : list ddl := [DDropTable "chunks_metadata"].
(** 20260717143000_submission_metadata_pk_by_key *)
Definition m_pk_up : list ddl :=
  [DCreateTable "submissions_metadata_new" [req "submission_id"; req "metadata_key"; req "metadata_value"] ["submission_id"; "metadata_key"];
   DCopyMax "submissions_metadata_new" ["submission_id"; "metadata_key"] "metadata_value" "submissions_metadata";
   DDropIndex "lookup_submission_by_metadata"; DDropTable "submissions_metadata";
   DRename "submissions_metadata_new" "submissions_metadata"; ix_lookup].
Definition m_pk_down : list ddl :=
  [DCreateTable "submissions_metadata_old" [req "submission_id"; req "metadata_key"; req "metadata_value"] ["submission_id"; "metadata_key"; "metadata_value"];
   DCopy "submissions_metadata_old" ["submission_id"; "metadata_key"; "metadata_value"] "submissions_metadata";
   DDropIndex "lookup_submission_by_metadata"; DDropTable "submissions_metadata";
   DRename "submissions_metadata_old" "submissions_metadata"; ix_lookup].
(** 20260803133844_add_random_order_index_to_submissions *)
Definition m_random_sub_up : list ddl :=
  [DAddGenerated "submissions" "random_order" g_sub; DCreateIndex "random_submissions_order" "submissions" ["random_order"; "id"]].
Definition m_random_sub_down : list ddl := [DDropIndex "random_submissions_order"; DDropColumn "submissions" "random_order"].

(** All of them, in order, with the script that undoes it if there is one. *)
Definition migrations : list (list ddl * option (list ddl)) :=
  [(m_submissions, None); (m_chunks, None); (m_random_up, Some m_random_down); (m_prefix_up, Some m_prefix_down);
   (m_trace_up, Some m_trace_down); (m_metadata_up, Some m_metadata_down); (m_size_up, Some m_size_down);
   (m_formula_up, Some m_formula_down); (m_cancelled, None); (m_failed_done, None); (m_drop_chunks_metadata, None);
   (m_pk_up, Some m_pk_down); (m_random_sub_up, Some m_random_sub_down)].
(** sqlx's migrator: [done] scripts have been run already. *)
Fixpoint run_all (l : list (list ddl)) (D : sdb) : option sdb :=
  match l with [] => Some D | s :: l' => D' ← run_script s D; run_all l' D' end.
Definition migrate (done : nat) (D : sdb) : option sdb := run_all (drop done migrations.*1) D.

(** The tables that the program works on. *)
Definition h_submissions : header :=
  Header [req "id"; opt "prefix"; dfl "chunks_total" (VInt 0); dfl "chunks_done" (VInt 0); opt "metadata";
          dfl "otel_trace_carrier" (VText "{}"); opt "chunk_size"] ["id"] [("random_order", g_sub)].
Definition h_completed : header :=
  Header [req "id"; opt "prefix"; dfl "chunks_total" (VInt 0); opt "metadata"; req "completed_at"; dfl "otel_trace_carrier" (VText "{}"); opt "chunk_size"] ["id"] [].
Definition h_failed : header :=
  Header [req "id"; opt "prefix"; dfl "chunks_total" (VInt 0); opt "metadata"; req "failed_chunk_id"; req "failed_at";
          dfl "otel_trace_carrier" (VText "{}"); opt "chunk_size"; opt "chunks_done"] ["id"] [].
Definition h_cancelled : header :=
  Header [req "id"; opt "prefix"; dfl "chunks_total" (VInt 0); dfl "chunks_done" (VInt 0); opt "metadata"; req "cancelled_at"] ["id"] [].
Definition h_metadata : header := Header [req "submission_id"; req "metadata_key"; req "metadata_value"] ["submission_id"; "metadata_key"] [].
Definition h_chunks : header :=
  Header [req "submission_id"; req "chunk_index"; opt "input_content"; dfl "retries" (VInt 0)] ["submission_id"; "chunk_index"] [("random_order", g_new)].
Definition h_chunks_completed : header :=
  Header [req "submission_id"; req "chunk_index"; opt "output_content"; req "completed_at"] ["submission_id"; "chunk_index"] [].
Definition h_chunks_failed : header :=
  Header [req "submission_id"; req "chunk_index"; opt "input_content"; dfl "failure" (VText ""); req "failed_at"; dfl "skipped" (VInt 0)]
    ["submission_id"; "chunk_index"] [].
Definition heads : gmap string header :=
  {[ "submissions" := h_submissions; "submissions_completed" := h_completed; "submissions_failed" := h_failed; "submissions_cancelled" := h_cancelled;
     "submissions_metadata" := h_metadata; "chunks" := h_chunks; "chunks_completed" := h_chunks_completed; "chunks_failed" := h_chunks_failed ]}.
(** A new database file: all scripts on an empty one. *)
Definition sdb_new : sdb := default sdb_empty (migrate 0 sdb_empty).
Lemma sdb_new_ok : migrate 0 sdb_empty = Some sdb_new /\ s_head sdb_new = heads.
Proof.
  assert (H : (match migrate 0 sdb_empty with Some _ => true | None => false end) = true) by (vm_cast_no_check (eq_refl true)).
  split; [|apply (bool_decide_unpack _); vm_cast_no_check I].
  unfold sdb_new. revert H. generalize (migrate 0 sdb_empty). intros [D|]; [done|discriminate].
Qed.
Lemma sdb_new_rows t : rows_in sdb_new t = [].
Proof.
  assert (H : map_Forall (fun _ l => l = @nil srow) (s_rows sdb_new)) by (apply (bool_decide_unpack _); vm_cast_no_check I).
  unfold rows_in. destruct (s_rows sdb_new !! t) as [l|] eqn:E; [exact (H _ _ E)|done].
Qed.
