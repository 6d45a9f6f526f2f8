(** Database files written by earlier releases, that is: files on which only the first [k]
    migrations have been run. *)
From Verif Require Export SqlText.
Local Open Scope string_scope.
Local Open Scope list_scope.

(** The tables and indexes after the first [k] scripts. *)
Fixpoint schema_run (l : list ddl) (s : schema) : option schema :=
  match l with [] => Some s | d :: l' => s' ← ddl_schema d s; schema_run l' s' end.
Definition schema_at (k : nat) : schema := default (∅, ∅) (schema_run (concat (take k migrations.*1)) (∅, ∅)).
Definition head_at (k : nat) (t : string) : option header := fst (schema_at k) !! t.
(** The columns that table [t] had then, and the part of a present row that was stored in them. *)
Definition columns_at (k : nat) (t : string) : list string := match head_at k t with Some h => co_name <$> h_cols h | None => [] end.
Definition then_stored (k : nat) (t : string) (r : srow) : srow :=
  match heads !! t with Some h => omap (stored h r) (columns_at k t) | None => [] end.
(** The columns that were added since hold their defaults. *)
Definition since_default (k : nat) (t : string) (r : srow) : Prop :=
  match heads !! t with
  | Some h => forall c, c ∈ h_cols h -> co_name c ∉ columns_at k t -> stored h r (co_name c) = Some (co_default c)
  | None => False
  end.
(** Table [t] of an old file holds the rows [L], which are written here with all present columns. *)
Definition held (k : nat) (t : string) (D : sdb) (L : list srow) : Prop :=
  rows_in D t ≡ₚ then_stored k t <$> L /\ (forall r, r ∈ L -> since_default k t r) /\ (head_at k t = None -> L = []).
(** A row of the metadata table. *)
Definition says (D : sdb) (id : sub_id) (key : string) (z : Z) : Prop := enc_meta (id, key, z) ∈ rows_in D "submissions_metadata".
(** Until the twelfth migration a submission could have several values for one key. *)
Definition pk_by_key : nat := 12.
(** A file with the first [k] migrations stands for [d]: as [stands_for], with the columns it had
    then. Of several values for one key, the largest counts. *)
Record stood_for (k : nat) (D : sdb) (d : db) : Prop := StoodFor {
  of_schema : (s_head D, s_index D) = schema_at k;
  of_subs : held k "submissions" D (enc_sub <$> map_to_list (t_sub d));
  of_comps : held k "submissions_completed" D (enc_comp <$> map_to_list (t_comp d));
  of_fails : held k "submissions_failed" D (enc_fail <$> map_to_list (t_fail d));
  of_cancs : held k "submissions_cancelled" D (enc_canc <$> map_to_list (t_canc d));
  of_chunks : held k "chunks" D (enc_chunk <$> map_to_list (t_chunk d));
  of_cdones : held k "chunks_completed" D (enc_cdone <$> map_to_list (t_cdone d));
  of_cfails : held k "chunks_failed" D (enc_cfail <$> map_to_list (t_cfail d));
  of_metas_typed : forall r, r ∈ rows_in D "submissions_metadata" -> exists id key z, r = enc_meta (id, key, z);
  of_metas_none : head_at k "submissions_metadata" = None -> rows_in D "submissions_metadata" = [];
  of_metas_unique : NoDup (rows_in D "submissions_metadata");
  of_metas_key : (pk_by_key <= k)%nat -> forall id key z z', says D id key z -> says D id key z' -> z = z';
  of_metas : forall id key z, t_meta d !! (id, key) = Some z <-> says D id key z /\ forall z', says D id key z' -> (z' <= z)%Z }.
