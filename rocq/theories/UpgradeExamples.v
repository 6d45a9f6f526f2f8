(** An old database file, for the examples. *)
From Verif Require Export UpgradeProofs SqlCalm.
Local Open Scope string_scope.
Local Open Scope list_scope.

(** [held], computed. *)
Definition held_b (k : nat) (t : string) (D : sdb) (L : list srow) : bool :=
  bool_decide (rows_in D t = then_stored k t <$> L) &&
  match heads !! t with
  | Some h => forallb (fun r => forallb (fun c => existsb (String.eqb (co_name c)) (columns_at k t) || bool_decide (stored h r (co_name c) = Some (co_default c))) (h_cols h)) L
  | None => false
  end && match head_at k t with None => match L with [] => true | _ => false end | Some _ => true end.
Lemma held_b_ok k t D L : held_b k t D L = true -> held k t D L.
Proof.
  unfold held_b. intros H. apply andb_prop in H as [H H3]. apply andb_prop in H as [H1 H2]. apply bool_decide_eq_true in H1. split_and!.
  - rewrite H1. reflexivity.
  - intros r Hr. unfold since_default. destruct (heads !! t) as [h|]; [|discriminate]. rewrite forallb_forall in H2.
    specialize (H2 r (proj1 (elem_of_list_In _ _) Hr)). rewrite forallb_forall in H2. intros c Hc Hn. specialize (H2 c (proj1 (elem_of_list_In _ _) Hc)).
    apply orb_prop in H2 as [H2|H2]; [|by apply bool_decide_eq_true in H2]. apply existsb_elem in H2. contradiction.
  - destruct (head_at k t) as [h|]; [discriminate|]. intros _. destruct L; [reflexivity|discriminate].
Qed.
(** A file of the sixth version: one submission of two chunks, the first done, and two values for
    the key "tenant". There was no [chunk_size] yet, no table of cancelled submissions, and
    [submissions_failed] had no [chunks_done]. *)
Definition old_version : nat := 6.
Definition old_file : sdb :=
  let s := schema_at old_version in
  Sdb (fst s) (snd s)
    (list_to_map [("submissions", [[VInt 7; VText "p"; VInt 2; VInt 1; VNull; VText "{}"]]);
      ("submissions_completed", [[VInt 5; VNull; VInt 0; VBlob "m"; VTime 90; VText "{}"]]);
      ("chunks", [[VInt 7; VInt 1; VBlob "b"; VInt 3]]);
      ("chunks_completed", [[VInt 7; VInt 0; VNull; VTime 100]]);
      ("chunks_metadata", [[VInt 7; VInt 1; VText "tenant"; VInt 4]]);
      ("submissions_metadata", [[VInt 7; VText "tenant"; VInt 4]; [VInt 7; VText "tenant"; VInt 9]])]).
Definition old_db : db :=
  Db {[ 7%N := SubRow (Some "p") 2 1 None "{}" None ]} {[ 5%N := CompRow None 0 (Some "m") 90 "{}" None ]} ∅ ∅ {[ (7%N, "tenant") := 9%Z ]}
    {[ (7%N, 1%N) := ChunkRow (Some "b") 3 ]} {[ (7%N, 0%N) := ChunkCompRow None 100 ]} ∅.
Lemma old_stood : stood_for old_version old_file old_db.
Proof.
  assert (Hm : rows_in old_file "submissions_metadata" = [enc_meta (7%N, "tenant", 4%Z); enc_meta (7%N, "tenant", 9%Z)])
    by (apply (bool_decide_unpack _); vm_cast_no_check I).
  assert (Hs : forall id key z, says old_file id key z <-> id = 7%N /\ key = "tenant" /\ (z = 4%Z \/ z = 9%Z)).
  { intros id key z. unfold says. rewrite Hm, !elem_of_cons, elem_of_nil. split.
    - intros [H|[H|[]]]; apply enc_meta_inj in H; injection H as -> -> ->; (split_and!; [reflexivity|reflexivity|lia]).
    - intros (-> & -> & [->| ->]); [by left|by right; left]. }
  constructor.
  - unfold old_file. cbn [s_head s_index]. destruct (schema_at old_version); reflexivity.
  - apply held_b_ok. vm_cast_no_check (eq_refl true).
  - apply held_b_ok. vm_cast_no_check (eq_refl true).
  - apply held_b_ok. vm_cast_no_check (eq_refl true).
  - apply held_b_ok. vm_cast_no_check (eq_refl true).
  - apply held_b_ok. vm_cast_no_check (eq_refl true).
  - apply held_b_ok. vm_cast_no_check (eq_refl true).
  - apply held_b_ok. vm_cast_no_check (eq_refl true).
  - rewrite Hm. intros r. rewrite !elem_of_cons, elem_of_nil. intros [->|[->|[]]]; do 3 eexists; reflexivity.
  - assert (Hh : head_at old_version "submissions_metadata" <> None) by (apply (bool_decide_unpack _); vm_cast_no_check I). intros Hx. contradiction.
  - rewrite Hm. apply (bool_decide_unpack _). vm_cast_no_check I.
  - unfold pk_by_key, old_version. lia.
  - intros id key z. setoid_rewrite Hs. cbn [t_meta old_db]. rewrite lookup_singleton_Some. split.
    + intros [H <-]. injection H as <- <-. split_and!; [reflexivity|reflexivity|lia|]. intros z' (_ & _ & H). lia.
    + intros [(-> & -> & Hz) Hmax]. split; [reflexivity|]. assert (9 <= z)%Z by (apply Hmax; split_and!; [reflexivity|reflexivity|lia]). lia.
Qed.
