(** What the migrations do to the rows of an old file. *)
From Verif Require Export Upgrade.
From Verif Require Import SqlTable SqlProofs SqlStatements.
Local Open Scope string_scope.
Local Open Scope list_scope.

(** *** Schema and rows apart *)
Fixpoint rows_run (l : list ddl) (s : schema) (rs : gmap string (list srow)) : option (gmap string (list srow)) :=
  match l with
  | [] => Some rs
  | d :: l' => s' ← ddl_schema d s; rs' ← ddl_rows d (fst s) rs; rows_run l' s' rs'
  end.
Lemma run_script_split l : forall D s' rs', schema_run l (s_head D, s_index D) = Some s' -> rows_run l (s_head D, s_index D) (s_rows D) = Some rs' ->
  run_script l D = Some (Sdb (fst s') (snd s') rs').
Proof.
  induction l as [|d l IH]; intros [hs ix rs] s' rs' Hs Hr; cbn [schema_run rows_run s_head s_index s_rows fst] in Hs, Hr.
  - injection Hs as <-. injection Hr as <-. done.
  - cbn [run_script]. unfold run_ddl. cbn [s_head s_index s_rows]. destruct (ddl_schema d (hs, ix)) as [[hs1 ix1]|] eqn:E; [|done].
    cbn [mbind option_bind] in Hs, Hr |- *. destruct (ddl_rows d hs rs) as [rs1|] eqn:E1; [|done]. cbn [mbind option_bind] in Hr |- *. by apply IH.
Qed.

(** *** The rows of one table that no script reads *)
(** Emptied?, and the values appended to each row. [None]: something else happens to the table. *)
Definition effect (hs : gmap string header) (t : string) (d : ddl) : option (bool * list value) :=
  match d with
  | DCreateTable t' _ _ => if String.eqb t' t then Some (true, []) else Some (false, [])
  | DAddColumn t' c => if String.eqb t' t then Some (false, [co_default c]) else Some (false, [])
  | DDropColumn t' c =>
      match hs !! t' with
      | Some h => match index_of c (co_name <$> h_cols h) with Some _ => if String.eqb t' t then None else Some (false, []) | None => Some (false, []) end
      | None => Some (false, [])
      end
  | DDropTable t' => if String.eqb t' t then None else Some (false, [])
  | DRename t1 t2 => if String.eqb t1 t || String.eqb t2 t then None else Some (false, [])
  | DCopyMax into _ _ _ | DCopy into _ _ => if String.eqb into t then None else Some (false, [])
  | _ => Some (false, [])
  end.
Definition apply_effect (e : bool * list value) (l : list srow) : list srow := if fst e then [] else (fun r => r ++ snd e) <$> l.
Definition then_effect (a b : bool * list value) : bool * list value := if fst b then b else (fst a, snd a ++ snd b).
Fixpoint effects (l : list ddl) (s : schema) (t : string) : option (bool * list value) :=
  match l with
  | [] => Some (false, [])
  | d :: l' => s' ← ddl_schema d s; e ← effect (fst s) t d; e' ← effects l' s' t; Some (then_effect e e')
  end.
Lemma apply_none l : apply_effect (false, []) l = l.
Proof. unfold apply_effect. cbn. erewrite list_fmap_ext; [apply list_fmap_id|]. intros. apply app_nil_r. Qed.
Lemma apply_then a b l : apply_effect (then_effect a b) l = apply_effect b (apply_effect a l).
Proof.
  destruct a as [[] va], b as [[] vb]; unfold apply_effect, then_effect; cbn; try done.
  rewrite <- list_fmap_compose. apply list_fmap_ext. intros i r _. unfold compose. by rewrite app_assoc.
Qed.
Lemma effect_rows hs t d e rs rs' : effect hs t d = Some e -> ddl_rows d hs rs = Some rs' ->
  default [] (rs' !! t) = apply_effect e (default [] (rs !! t)).
Proof.
  intros He Hr. destruct d; cbn [effect ddl_rows] in He, Hr.
  - injection Hr as <-. destruct (String.eqb_spec t0 t) as [->|Hne]; injection He as <-; [by rewrite lookup_insert|by rewrite lookup_insert_ne, apply_none].
  - injection Hr as <-. destruct (String.eqb_spec t0 t) as [->|Hne]; injection He as <-.
    + rewrite lookup_alter. by destruct (rs !! t).
    + by rewrite lookup_alter_ne, apply_none.
  - injection Hr as <-. injection He as <-. by rewrite apply_none.
  - destruct (hs !! t0) as [h|]; [|injection Hr as <-; injection He as <-; by rewrite apply_none].
    destruct (index_of c _) as [i|]; [|injection Hr as <-; injection He as <-; by rewrite apply_none].
    injection Hr as <-. destruct (String.eqb_spec t0 t) as [->|Hne]; [done|]. injection He as <-. by rewrite lookup_alter_ne, apply_none.
  - injection Hr as <-. destruct (String.eqb_spec t0 t) as [->|Hne]; [done|]. injection He as <-. by rewrite lookup_delete_ne, apply_none.
  - injection Hr as <-. destruct (String.eqb_spec t0 t) as [->|Hne]; [done|]. destruct (String.eqb_spec t' t) as [->|Hne']; [done|]. injection He as <-.
    by rewrite lookup_insert_ne, lookup_delete_ne, apply_none.
  - injection Hr as <-. injection He as <-. by rewrite apply_none.
  - injection Hr as <-. injection He as <-. by rewrite apply_none.
  - destruct (hs !! into) as [h|]; [|done]. destruct (hs !! from) as [hf|]; [|done]. cbn in Hr. destruct (insert_rows _ _ _); [|done]. injection Hr as <-.
    destruct (String.eqb_spec into t) as [->|Hne]; [done|]. injection He as <-. by rewrite lookup_insert_ne, apply_none.
  - destruct (hs !! into) as [h|]; [|done]. destruct (hs !! from) as [hf|]; [|done]. cbn in Hr. destruct (insert_rows _ _ _); [|done]. injection Hr as <-.
    destruct (String.eqb_spec into t) as [->|Hne]; [done|]. injection He as <-. by rewrite lookup_insert_ne, apply_none.
Qed.
Lemma effects_rows l t : forall s e rs rs', effects l s t = Some e -> rows_run l s rs = Some rs' ->
  default [] (rs' !! t) = apply_effect e (default [] (rs !! t)).
Proof.
  induction l as [|d l IH]; intros s e rs rs' He Hr; cbn [effects rows_run] in He, Hr.
  - injection He as <-. injection Hr as <-. by rewrite apply_none.
  - destruct (ddl_schema d s) as [s1|]; [|done]. cbn in He, Hr. destruct (effect (fst s) t d) as [e1|] eqn:E1; [|done]. cbn in He.
    destruct (effects l s1 t) as [e2|] eqn:E2; [|done]. cbn in He. injection He as <-. destruct (ddl_rows d (fst s) rs) as [rs1|] eqn:E3; [|done]. cbn in Hr.
    rewrite (IH s1 e2 rs1 rs' E2 Hr), apply_then. by rewrite (effect_rows _ _ _ _ _ _ E1 E3).
Qed.
(** Scripts that copy nothing cannot fail on the rows. *)
Definition copies (d : ddl) : bool := match d with DCopyMax _ _ _ _ | DCopy _ _ _ => true | _ => false end.
Lemma rows_run_ok l : forall s s' rs, forallb (fun d => negb (copies d)) l = true -> schema_run l s = Some s' -> is_Some (rows_run l s rs).
Proof.
  induction l as [|d l IH]; intros s s' rs Hc Hs; [by eexists|]. cbn [forallb schema_run rows_run] in Hc, Hs |- *. apply andb_prop in Hc as [Hd Hc].
  destruct (ddl_schema d s) as [s1|]; [|done]. cbn in Hs |- *.
  assert (Hr : is_Some (ddl_rows d (fst s) rs)). { destruct d; try done; cbn; repeat case_match; by eexists. }
  destruct Hr as [rs1 ->]. cbn. by apply (IH s1 s').
Qed.

(** *** What the thirteen scripts do, by computation *)
Definition script (k : nat) : list ddl := default [] (migrations.*1 !! k).
Definition tables : list string :=
  ["submissions"; "submissions_completed"; "submissions_failed"; "submissions_cancelled"; "chunks"; "chunks_completed"; "chunks_failed"].
Definition new_cols (k : nat) (t : string) : list column :=
  match heads !! t with
  | Some h => List.filter (fun c => existsb (String.eqb (co_name c)) (columns_at (S k) t) && negb (existsb (String.eqb (co_name c)) (columns_at k t))) (h_cols h)
  | None => []
  end.
Definition table_step_ok (k : nat) (t : string) : bool :=
  match head_at k t with
  | None => match effects (script k) (schema_at k) t with Some _ => true | None => false end
  | Some _ => bool_decide (columns_at (S k) t = columns_at k t ++ (co_name <$> new_cols k t))
      && bool_decide (effects (script k) (schema_at k) t = Some (false, co_default <$> new_cols k t))
      && match head_at (S k) t with Some _ => true | None => false end
  end.
Definition meta_step_ok (k : nat) : bool :=
  Nat.eqb k 11 || match head_at k "submissions_metadata" with
  | None => match effects (script k) (schema_at k) "submissions_metadata" with Some _ => true | None => false end
  | Some _ => bool_decide (effects (script k) (schema_at k) "submissions_metadata" = Some (false, []))
      && match head_at (S k) "submissions_metadata" with Some _ => true | None => false end
  end.
Definition step_ok (k : nat) : bool :=
  bool_decide (schema_run (script k) (schema_at k) = Some (schema_at (S k))) && forallb (table_step_ok k) tables && meta_step_ok k
  && (Nat.eqb k 11 || forallb (fun d => negb (copies d)) (script k)).
Lemma steps_ok : forallb step_ok (seq 0 13) = true.
Proof. vm_cast_no_check (eq_refl true). Qed.
Lemma step_is_ok k : (k < 13)%nat -> step_ok k = true.
Proof. intros Hk. apply (proj1 (forallb_forall _ _) steps_ok). apply in_seq. lia. Qed.
Local Opaque schema_at head_at columns_at heads script.

Lemma existsb_elem (c : string) (l : list string) : existsb (String.eqb c) l = true <-> c ∈ l.
Proof.
  rewrite existsb_exists. split.
  - intros (x & Hx & E). apply String.eqb_eq in E as ->. by apply elem_of_list_In.
  - intros Hc. exists c. split; [by apply elem_of_list_In|apply String.eqb_refl].
Qed.
Lemma omap_app_eq {A B} (f : A -> option B) l1 l2 : omap f (l1 ++ l2) = omap f l1 ++ omap f l2.
Proof. induction l1 as [|x l1 IH]; [done|]. cbn. destruct (f x); cbn; [f_equal|]; exact IH. Qed.
(** One table, one script. *)
Lemma held_step k t D D' L : (k < 13)%nat -> t ∈ tables -> (s_head D, s_index D) = schema_at k ->
  rows_run (script k) (schema_at k) (s_rows D) = Some (s_rows D') -> held k t D L -> held (S k) t D' L.
Proof.
  intros Hk Ht HD Hr (Hrows & Hdef & Hnone).
  assert (Hok : table_step_ok k t = true).
  { pose proof (step_is_ok k Hk) as Hs. unfold step_ok in Hs. apply andb_prop in Hs as [Hs _]. apply andb_prop in Hs as [Hs _]. apply andb_prop in Hs as [_ Hs].
    rewrite forallb_forall in Hs. apply Hs. by apply elem_of_list_In. }
  unfold table_step_ok in Hok. destruct (head_at k t) as [h|] eqn:Eh.
  - apply andb_prop in Hok as [Hok Hh]. apply andb_prop in Hok as [Hc He]. apply bool_decide_eq_true in Hc. apply bool_decide_eq_true in He.
    assert (Hsub : forall c, c ∈ columns_at k t -> c ∈ columns_at (S k) t) by (intros c Hin; rewrite Hc; apply elem_of_app; by left).
    split_and!.
    + unfold rows_in at 1. rewrite (effects_rows _ _ _ _ _ _ He Hr). fold (rows_in D t). unfold apply_effect. cbn [fst snd]. rewrite Hrows, <- list_fmap_compose.
      erewrite list_fmap_ext; [reflexivity|]. intros i r Hi. apply elem_of_list_lookup_2 in Hi. specialize (Hdef r Hi). unfold compose, then_stored.
      assert (Hall : forall hh, heads !! t = Some hh -> forall c, c ∈ new_cols k t -> stored hh r (co_name c) = Some (co_default c)).
      { intros hh Ehh c Hin. unfold new_cols in Hin. unfold since_default in Hdef. rewrite Ehh in Hin, Hdef.
        apply elem_of_list_In, filter_In in Hin as [Hin Hb]. apply andb_prop in Hb as [_ Hb]. apply Hdef; [by apply elem_of_list_In|].
        intros Hx. apply existsb_elem in Hx. by rewrite Hx in Hb. }
      unfold since_default in Hdef. destruct (heads !! t) as [hh|]; [|done]. specialize (Hall hh eq_refl). rewrite Hc, omap_app_eq. f_equal.
      clear -Hall. revert Hall. generalize (new_cols k t).
      intros l Hall. induction l as [|c l IH]; [done|]. cbn [fmap list_fmap omap list_omap]. rewrite (Hall c) by left. f_equal. apply IH. intros c' Hc'. apply Hall. by right.
    + intros r Hin. specialize (Hdef r Hin). unfold since_default in *. destruct (heads !! t) as [hh|]; [|done]. intros c Hc1 Hc2. apply Hdef; [done|]. auto.
    + by destruct (head_at (S k) t).
  - rewrite (Hnone eq_refl) in *. destruct (effects _ _ _) as [e|] eqn:He; [|done]. split_and!.
    + unfold rows_in. rewrite (effects_rows _ _ _ _ _ _ He Hr). fold (rows_in D t). cbn in Hrows. apply Permutation_nil_r in Hrows. rewrite Hrows.
      unfold apply_effect. by destruct (fst e).
    + intros r Hin. exfalso. exact (not_elem_of_nil _ Hin).
    + intros _. reflexivity.
Qed.
Lemma meta_rows_step k D D' : (k < 13)%nat -> k <> 11%nat -> rows_run (script k) (schema_at k) (s_rows D) = Some (s_rows D') ->
  (head_at k "submissions_metadata" = None -> rows_in D "submissions_metadata" = []) ->
  rows_in D' "submissions_metadata" = rows_in D "submissions_metadata" /\ (head_at (S k) "submissions_metadata" = None -> rows_in D' "submissions_metadata" = []).
Proof.
  intros Hk Hne Hr Hnone. pose proof (step_is_ok k Hk) as Hs. unfold step_ok in Hs. apply andb_prop in Hs as [Hs _]. apply andb_prop in Hs as [_ Hs].
  unfold meta_step_ok in Hs. destruct (Nat.eqb_spec k 11) as [?|_]; [done|]. cbn [orb] in Hs. destruct (head_at k _) as [h|].
  - apply andb_prop in Hs as [He Hh]. apply bool_decide_eq_true in He. unfold rows_in. rewrite (effects_rows _ _ _ _ _ _ He Hr). split; [by rewrite apply_none|].
    by destruct (head_at (S k) _).
  - destruct (effects _ _ _) as [e|] eqn:He; [|done]. specialize (Hnone eq_refl). unfold rows_in in *. rewrite (effects_rows _ _ _ _ _ _ He Hr), Hnone.
    unfold apply_effect. by destruct (fst e).
Qed.
(** The scripts other than the twelfth. *)
Lemma step_plain k D d : (k < 13)%nat -> k <> 11%nat -> stood_for k D d -> exists D', run_script (script k) D = Some D' /\ stood_for (S k) D' d.
Proof.
  intros Hk Hne HD. pose proof (step_is_ok k Hk) as Hs. unfold step_ok in Hs. apply andb_prop in Hs as [Hs Hc]. apply andb_prop in Hs as [Hs _]. apply andb_prop in Hs as [Hs _].
  apply bool_decide_eq_true in Hs. destruct (Nat.eqb_spec k 11) as [?|_]; [done|]. cbn [orb] in Hc.
  destruct (rows_run_ok (script k) (schema_at k) _ (s_rows D) Hc Hs) as [rs' Hr].
  exists (Sdb (fst (schema_at (S k))) (snd (schema_at (S k))) rs'). pose proof (of_schema _ _ _ HD) as HS. split.
  { apply run_script_split; rewrite HS; [exact Hs|exact Hr]. }
  destruct (meta_rows_step k D (Sdb (fst (schema_at (S k))) (snd (schema_at (S k))) rs') Hk Hne Hr (of_metas_none _ _ _ HD)) as [Hm Hn].
  assert (Hh : forall t L, t ∈ tables -> held k t D L -> held (S k) t (Sdb (fst (schema_at (S k))) (snd (schema_at (S k))) rs') L).
  { intros t L Ht HL. refine (held_step k t D (Sdb _ _ rs') L Hk Ht HS Hr HL). }
  assert (Hsays : forall id key z, says (Sdb (fst (schema_at (S k))) (snd (schema_at (S k))) rs') id key z <-> says D id key z) by (intros; unfold says; by rewrite Hm).
  destruct HD as [_ Hf1 Hf2 Hf3 Hf4 Hf5 Hf6 Hf7 Hty Hno Huq Hky Hme]. constructor.
  - cbn [s_head s_index]. destruct (schema_at (S k)); reflexivity.
  - apply Hh; [apply existsb_elem; reflexivity|assumption].
  - apply Hh; [apply existsb_elem; reflexivity|assumption].
  - apply Hh; [apply existsb_elem; reflexivity|assumption].
  - apply Hh; [apply existsb_elem; reflexivity|assumption].
  - apply Hh; [apply existsb_elem; reflexivity|assumption].
  - apply Hh; [apply existsb_elem; reflexivity|assumption].
  - apply Hh; [apply existsb_elem; reflexivity|assumption].
  - rewrite Hm. assumption.
  - exact Hn.
  - rewrite Hm. assumption.
  - intros Hle id key z z' H1 H2. apply Hsays in H1. apply Hsays in H2. refine (Hky _ id key z z' H1 H2). unfold pk_by_key in *. lia.
  - intros id key z. rewrite Hme, Hsays. setoid_rewrite Hsays. reflexivity.
Qed.

(** *** The twelfth: one value per key *)
Definition keep_max (z : Z) (o : option Z) : option Z := Some (match o with Some y => Z.max z y | None => z end).
Definition largest (M : list (sub_id * string * Z)) : gmap (sub_id * string) Z := foldr (fun kz m => partial_alter (keep_max kz.2) kz.1 m) ∅ M.
Lemma largest_lookup M k z : largest M !! k = Some z <-> (k, z) ∈ M /\ forall z', (k, z') ∈ M -> (z' <= z)%Z.
Proof.
  revert z. induction M as [|[k' x] M IH]; intros z; cbn [largest foldr].
  - rewrite lookup_empty. split; [done|]. intros [H _]. by apply elem_of_nil in H.
  - fold (largest M). cbn [fst snd]. destruct (decide (k' = k)) as [->|Hne].
    + rewrite lookup_partial_alter. unfold keep_max. destruct (largest M !! k) as [y|] eqn:E.
      * pose proof (proj1 (IH y) eq_refl) as [Hy1 Hy2]. split.
        -- intros [= <-]. split.
           ++ destruct (Z.max_spec x y) as [[_ ->]|[_ ->]]; [by right|by left].
           ++ intros z' [[= <-]|Hz']%elem_of_cons; [lia|]. specialize (Hy2 z' Hz'). lia.
        -- intros [Hin Hmax]. f_equal. assert (x <= z)%Z by (apply Hmax; by left). assert (y <= z)%Z by (apply Hmax; by right).
           apply elem_of_cons in Hin as [[= ->]|Hin]; [lia|]. specialize (Hy2 z Hin). lia.
      * assert (Hno : forall z', (k, z') ∉ M).
        { intros z' Hin. assert (Hex : exists y, largest M !! k = Some y) by (clear -Hin; induction M as [|[k2 x2] M IH]; [by apply elem_of_nil in Hin|];
            cbn [largest foldr]; fold (largest M); cbn [fst snd]; apply elem_of_cons in Hin as [[= -> ->]|Hin];
            [rewrite lookup_partial_alter; by eexists|]; destruct (decide (k2 = k)) as [->|Hne]; [rewrite lookup_partial_alter; by eexists|];
            rewrite lookup_partial_alter_ne by done; auto).
          destruct Hex as [y Hy]. congruence. }
        split.
        -- intros [= <-]. split; [by left|]. intros z' [[= <-]|Hz']%elem_of_cons; [lia|]. by apply Hno in Hz'.
        -- intros [[[= ->]|Hin]%elem_of_cons _]; [done|]. by apply Hno in Hin.
    + rewrite lookup_partial_alter_ne by done. rewrite IH. split.
      * intros [H1 H2]. split; [by right|]. intros z' [[= -> ->]|Hz']%elem_of_cons; [done|auto].
      * intros [[[= -> ->]|H1]%elem_of_cons H2]; [done|]. split; [done|]. intros z' Hz'. apply H2. by right.
Qed.
Definition enc_group (x : sub_id * string * Z) : list value * value := ([v_n x.1.1; VText x.1.2], VInt x.2).
Definition h_meta_old : header := Header [req "submission_id"; req "metadata_key"; req "metadata_value"] ["submission_id"; "metadata_key"; "metadata_value"] [].
Lemma delete_insert_same {A} (l : list A) i x : delete i (<[i := x]> l) = delete i l.
Proof. revert i. induction l as [|y l IH]; intros [|i]; try done. cbn. f_equal. apply IH. Qed.
Lemma group_key_inj k k' : [v_n k.1; VText k.2] = [v_n k'.1; VText k'.2] -> k = k'.
Proof. destruct k, k'. cbn. intros [= E ->]. f_equal. lia. Qed.
Lemma group_largest M : group_max h_meta_old ["submission_id"; "metadata_key"] "metadata_value" (enc_meta <$> M) ≡ₚ enc_group <$> map_to_list (largest M).
Proof.
  induction M as [|[[id key] z] M IH]; [done|]. cbn [fmap list_fmap group_max].
  change ((fun c : string => default VNull (stored h_meta_old (enc_meta (id, key, z)) c)) <$> ["submission_id"; "metadata_key"]) with [v_n id; VText key].
  change (default VNull (stored h_meta_old (enc_meta (id, key, z)) "metadata_value")) with (VInt z).
  fold (enc_meta <$> M). set (g := group_max _ _ _ (enc_meta <$> M)) in *. clearbody g. cbn [largest foldr]. fold (largest M). cbn [fst snd].
  destruct (list_find _ g) as [[i [k' y']]|] eqn:E.
  - apply list_find_Some in E as (Hi & Hk & _). cbn in Hk. subst k'.
    assert (Hin : ([v_n id; VText key], y') ∈ enc_group <$> map_to_list (largest M)) by (rewrite <- IH; by apply elem_of_list_lookup_2 in Hi).
    apply elem_of_list_fmap in Hin as ([k2 y] & Heq & Hin). unfold enc_group in Heq. injection Heq as E1 E2 ->. cbn in E1, E2.
    assert (k2 = (id, key)) as -> by (destruct k2; cbn in *; subst; f_equal; lia). apply elem_of_map_to_list in Hin.
    assert (Em : partial_alter (keep_max z) (id, key) (largest M) = <[(id, key) := Z.max z y]> (largest M)).
    { apply map_eq. intros j. destruct (decide (j = (id, key))) as [->|Hne].
      - rewrite lookup_partial_alter, lookup_insert, Hin. done.
      - by rewrite lookup_partial_alter_ne, lookup_insert_ne by done. }
    rewrite Em. rewrite <- insert_delete_insert, map_to_list_insert by apply lookup_delete. cbn [fmap list_fmap].
    assert (Hlen : (i < length g)%nat) by (by apply lookup_lt_Some in Hi).
    rewrite (delete_Permutation (<[i := _]> g) i _ (list_lookup_insert _ _ _ Hlen)), delete_insert_same. apply perm_skip.
    apply (Permutation_cons_inv (a := ([v_n id; VText key], VInt y))). rewrite <- (delete_Permutation g i _ Hi), IH.
    rewrite <- (fin_maps.insert_id (largest M) (id, key) y Hin) at 1. rewrite <- insert_delete_insert, map_to_list_insert by apply lookup_delete. done.
  - apply list_find_None in E. assert (Hnone : largest M !! (id, key) = None).
    { destruct (largest M !! (id, key)) as [y|] eqn:El; [|done]. exfalso. apply elem_of_map_to_list in El.
      assert (Hin : enc_group (id, key, y) ∈ g) by (rewrite IH; apply elem_of_list_fmap; by exists (id, key, y)).
      rewrite Forall_forall in E. exact (E _ Hin eq_refl). }
    assert (Em : partial_alter (keep_max z) (id, key) (largest M) = <[(id, key) := z]> (largest M)).
    { apply map_eq. intros j. destruct (decide (j = (id, key))) as [->|Hne].
      - by rewrite lookup_partial_alter, lookup_insert, Hnone.
      - by rewrite lookup_partial_alter_ne, lookup_insert_ne by done. }
    rewrite Em, map_to_list_insert by done. cbn [fmap list_fmap]. by apply perm_skip.
Qed.
Lemma typed_rows (l : list srow) : (forall r, r ∈ l -> exists id key z, r = enc_meta (id, key, z)) -> exists M, l = enc_meta <$> M.
Proof.
  induction l as [|r l IH]; intros Ht; [by exists []|]. destruct IH as [M ->]; [intros; apply Ht; by right|].
  destruct (Ht r ltac:(by left)) as (id & key & z & ->). by exists ((id, key, z) :: M).
Qed.
Lemma enc_meta_inj x y : enc_meta x = enc_meta y -> x = y.
Proof. destruct x as [[]], y as [[]]. cbn. intros [= E -> ->]. repeat f_equal. lia. Qed.
Lemma pk_schema : fst (schema_at 11) !! "submissions_metadata_new" = None /\ fst (schema_at 11) !! "submissions_metadata" = Some h_meta_old /\ script 11 = m_pk_up.
Proof.
  split_and!; [apply (bool_decide_unpack _); vm_cast_no_check I|apply (bool_decide_unpack _); vm_cast_no_check I|].
  Local Transparent script. reflexivity. Local Opaque script.
Qed.
Lemma rows_run_cons d l s rs : rows_run (d :: l) s rs = s' ← ddl_schema d s; rs' ← ddl_rows d (fst s) rs; rows_run l s' rs'.
Proof. reflexivity. Qed.
Lemma schema_run_cons d l s : schema_run (d :: l) s = s' ← ddl_schema d s; schema_run l s'.
Proof. reflexivity. Qed.
Lemma rows_run_pk hs ix s' rs l : hs !! "submissions_metadata_new" = None -> hs !! "submissions_metadata" = Some h_meta_old -> schema_run m_pk_up (hs, ix) = Some s' ->
  insert_rows h_metadata ((fun '(k, x) => make_row h_metadata ["submission_id"; "metadata_key"; "metadata_value"] (k ++ [x])) <$>
    group_max h_meta_old ["submission_id"; "metadata_key"] "metadata_value" (default [] (rs !! "submissions_metadata"))) [] = SOk l ->
  exists rs', rows_run m_pk_up (hs, ix) rs = Some rs' /\ rs' !! "submissions_metadata" = Some l.
Proof.
  intros H1 H2 Hs Hl. unfold m_pk_up in *. rewrite schema_run_cons in Hs. rewrite rows_run_cons. cbn [fst ddl_rows].
  assert (E : ddl_schema (DCreateTable "submissions_metadata_new" [req "submission_id"; req "metadata_key"; req "metadata_value"] ["submission_id"; "metadata_key"]) (hs, ix) =
    Some (<["submissions_metadata_new" := h_metadata]> hs, ix)) by (cbn [ddl_schema]; by rewrite H1).
  rewrite E in Hs |- *. cbn [mbind option_bind] in Hs |- *. clear E. rewrite schema_run_cons in Hs. rewrite rows_run_cons. cbn [fst ddl_rows].
  destruct (ddl_schema (DCopyMax _ _ _ _) _) as [s2|]; [|discriminate]. cbn [mbind option_bind] in Hs |- *.
  assert (E1 : <["submissions_metadata_new" := h_metadata]> hs !! "submissions_metadata_new" = Some h_metadata) by apply lookup_insert.
  assert (E2 : <["submissions_metadata_new" := h_metadata]> hs !! "submissions_metadata" = Some h_meta_old) by (rewrite lookup_insert_ne by discriminate; exact H2).
  assert (E3 : <["submissions_metadata_new" := []]> rs !! "submissions_metadata_new" = Some []) by apply lookup_insert.
  assert (E4 : <["submissions_metadata_new" := []]> rs !! "submissions_metadata" = rs !! "submissions_metadata") by (apply lookup_insert_ne; discriminate).
  rewrite E1. cbn [mbind option_bind]. rewrite E2. cbn [mbind option_bind]. rewrite E3, E4. cbn [default from_option id app]. cbn [app] in Hl. rewrite Hl. cbn [mbind option_bind].
  rewrite schema_run_cons in Hs. rewrite rows_run_cons. destruct (ddl_schema _ s2) as [s3|]; [|discriminate]. cbn [mbind option_bind ddl_rows] in Hs |- *.
  rewrite schema_run_cons in Hs. rewrite rows_run_cons. destruct (ddl_schema _ s3) as [s4|]; [|discriminate]. cbn [mbind option_bind ddl_rows] in Hs |- *.
  rewrite schema_run_cons in Hs. rewrite rows_run_cons. destruct (ddl_schema _ s4) as [s5|]; [|discriminate]. cbn [mbind option_bind ddl_rows] in Hs |- *.
  rewrite schema_run_cons in Hs. rewrite rows_run_cons. destruct (ddl_schema _ s5) as [s6|]; [|discriminate]. cbn [mbind option_bind ddl_rows ix_lookup] in Hs |- *.
  eexists. split; [reflexivity|]. rewrite lookup_insert, lookup_delete_ne, lookup_insert by discriminate. reflexivity.
Qed.
Lemma pk_insert M : exists l, insert_rows h_metadata ((fun '(k, x) => make_row h_metadata ["submission_id"; "metadata_key"; "metadata_value"] (k ++ [x])) <$>
    group_max h_meta_old ["submission_id"; "metadata_key"] "metadata_value" (enc_meta <$> M)) [] = SOk l /\ l ≡ₚ enc_meta <$> map_to_list (largest M).
Proof.
  destruct (Permutation_map_inv _ _ (group_largest M)) as (L & HL & HP). change (map enc_group L) with (enc_group <$> L) in HL. rewrite HL, <- list_fmap_compose.
  assert (Hrows : ((fun '(k, x) => make_row h_metadata ["submission_id"; "metadata_key"; "metadata_value"] (k ++ [x])) ∘ enc_group) <$> L = enc_meta <$> L).
  { apply list_fmap_ext. intros i [[id key] z] _. reflexivity. }
  rewrite Hrows. pose proof (table_ins_many enc_meta h_metadata keym meta_key keym_inj meta_nn L [] ∅) as Hi.
  assert (He : table_of enc_meta [] (∅ : gmap (sub_id * string) Z)) by (unfold table_of; by rewrite map_to_list_empty).
  specialize (Hi He). rewrite (ins_many_perm L (largest M) ∅) in Hi by (by symmetry). unfold ins_rows in Hi.
  rewrite decide_True in Hi by (intros k a _; apply lookup_empty). destruct Hi as (l & El & Hl). exists l. split; [exact El|].
  unfold table_of in Hl. by rewrite (right_id_L ∅ (∪)) in Hl.
Qed.
Lemma largest_meta D d M : stood_for 11 D d -> rows_in D "submissions_metadata" = enc_meta <$> M -> largest M = t_meta d.
Proof.
  intros HD HM. apply map_eq. intros [id key]. apply option_eq. intros z. rewrite largest_lookup, (of_metas _ _ _ HD). unfold says. rewrite HM.
  assert (E : forall x, enc_meta x ∈ enc_meta <$> M <-> x ∈ M).
  { intros x. rewrite elem_of_list_fmap. split; [|intros H; by exists x]. intros (y & Hy & H). apply enc_meta_inj in Hy as ->. exact H. }
  rewrite E. setoid_rewrite E. reflexivity.
Qed.
Lemma step_pk D d : stood_for 11 D d -> exists D', run_script (script 11) D = Some D' /\ stood_for 12 D' d.
Proof.
  intros HD. assert (Hk : (11 < 13)%nat) by lia. pose proof (step_is_ok 11 Hk) as Hs. unfold step_ok in Hs.
  apply andb_prop in Hs as [Hs _]. apply andb_prop in Hs as [Hs _]. apply andb_prop in Hs as [Hs _]. apply bool_decide_eq_true in Hs.
  destruct pk_schema as (P1 & P2 & P3). pose proof (of_schema _ _ _ HD) as HS.
  destruct (typed_rows _ (of_metas_typed _ _ _ HD)) as [M HM]. destruct (pk_insert M) as (l & El & Hl). rewrite (largest_meta D d M HD HM) in Hl.
  rewrite <- HM in El. unfold rows_in in El.
  assert (Hr : exists rs', rows_run (script 11) (schema_at 11) (s_rows D) = Some rs' /\ rs' !! "submissions_metadata" = Some l).
  { rewrite P3 in Hs |- *. destruct (schema_at 11) as [hs ix]. exact (rows_run_pk hs ix _ (s_rows D) l P1 P2 Hs El). }
  destruct Hr as (rs' & Hr & Hrl). set (D' := Sdb (fst (schema_at 12)) (snd (schema_at 12)) rs').
  assert (Hm : rows_in D' "submissions_metadata" ≡ₚ enc_meta <$> map_to_list (t_meta d)) by (unfold rows_in, D'; cbn [s_rows]; rewrite Hrl; exact Hl).
  assert (Hsays : forall id key z, says D' id key z <-> t_meta d !! (id, key) = Some z).
  { intros id key z. unfold says. rewrite Hm, elem_of_list_fmap, <- elem_of_map_to_list. split; [|intros H; exists (id, key, z); split; [reflexivity|exact H]].
    intros (y & Hy & H). apply enc_meta_inj in Hy as <-. exact H. }
  assert (Hh : forall t L, t ∈ tables -> held 11 t D L -> held 12 t D' L).
  { intros t L Ht HL. refine (held_step 11 t D D' L Hk Ht HS Hr HL). }
  exists D'. split.
  { apply run_script_split; rewrite HS; [exact Hs|exact Hr]. }
  assert (Hhead : head_at 12 "submissions_metadata" <> None) by (apply (bool_decide_unpack _); vm_cast_no_check I).
  destruct HD as [_ Hf1 Hf2 Hf3 Hf4 Hf5 Hf6 Hf7 Hty Hno Huq Hky Hme]. constructor.
  - unfold D'. cbn [s_head s_index]. destruct (schema_at 12); reflexivity.
  - apply Hh; [apply existsb_elem; reflexivity|assumption].
  - apply Hh; [apply existsb_elem; reflexivity|assumption].
  - apply Hh; [apply existsb_elem; reflexivity|assumption].
  - apply Hh; [apply existsb_elem; reflexivity|assumption].
  - apply Hh; [apply existsb_elem; reflexivity|assumption].
  - apply Hh; [apply existsb_elem; reflexivity|assumption].
  - apply Hh; [apply existsb_elem; reflexivity|assumption].
  - intros r Hin. rewrite Hm in Hin. apply elem_of_list_fmap in Hin as ([[id key] z] & -> & _). exists id, key, z. reflexivity.
  - intros Hx. contradiction.
  - rewrite Hm. apply NoDup_fmap_2; [intros x y; apply enc_meta_inj|apply NoDup_map_to_list].
  - intros _ id key z z' H1 H2. apply Hsays in H1. apply Hsays in H2. congruence.
  - intros id key z. setoid_rewrite Hsays. split; [|intros [H _]; exact H]. intros H. split; [exact H|]. intros z' H'. rewrite H in H'. injection H' as ->. lia.
Qed.
Lemma step_up k D d : (k < 13)%nat -> stood_for k D d -> exists D', run_script (script k) D = Some D' /\ stood_for (S k) D' d.
Proof. intros Hk HD. destruct (decide (k = 11%nat)) as [->|Hne]; [exact (step_pk D d HD)|exact (step_plain k D d Hk Hne HD)]. Qed.
(** *** With all thirteen *)
Lemma held_last t D L (h : header) : heads !! t = Some h -> columns_at 13 t = co_name <$> h_cols h ->
  (forall r, r ∈ L -> omap (stored h r) (co_name <$> h_cols h) = r) -> held 13 t D L -> rows_in D t ≡ₚ L.
Proof.
  intros Eh Ec Hr (H & _ & _). rewrite H. unfold then_stored. rewrite Eh, Ec. erewrite list_fmap_ext; [by rewrite list_fmap_id|].
  intros i r Hi. cbn. apply Hr. by apply elem_of_list_lookup_2 in Hi.
Qed.
Definition last_ok (t : string) : bool :=
  match heads !! t with Some h => bool_decide (columns_at 13 t = co_name <$> h_cols h) | None => false end.
Lemma all_last_ok : forallb last_ok tables = true.
Proof. vm_cast_no_check (eq_refl true). Qed.
Lemma last_heads : fst (schema_at 13) = heads.
Proof. apply (bool_decide_unpack _). vm_cast_no_check I. Qed.
Lemma held_all t D L (h : header) : t ∈ tables -> heads !! t = Some h ->
  (forall r, r ∈ L -> omap (stored h r) (co_name <$> h_cols h) = r) -> held 13 t D L -> rows_in D t ≡ₚ L.
Proof.
  intros Ht Eh. apply held_last; [exact Eh|]. pose proof all_last_ok as Ho. rewrite forallb_forall in Ho. specialize (Ho t (proj1 (elem_of_list_In _ _) Ht)).
  unfold last_ok in Ho. rewrite Eh in Ho. apply bool_decide_eq_true in Ho. exact Ho.
Qed.
Lemma all_rows {A} (enc : A -> srow) (L : list A) (h : header) : (forall x, omap (stored h (enc x)) (co_name <$> h_cols h) = enc x) ->
  forall r, r ∈ enc <$> L -> omap (stored h r) (co_name <$> h_cols h) = r.
Proof. intros H r Hr. apply elem_of_list_fmap in Hr as (x & -> & _). apply H. Qed.
Lemma now_stands D d : stood_for 13 D d -> stands_for D d.
Proof.
  intros HD. pose proof (of_schema _ _ _ HD) as HS. destruct HD as [_ Hf1 Hf2 Hf3 Hf4 Hf5 Hf6 Hf7 Hty Hno Huq Hky Hme]. constructor.
  - apply (f_equal fst) in HS. cbn [fst] in HS. rewrite HS. exact last_heads.
  - refine (held_all _ D _ h_submissions _ heads_subs _ Hf1); [apply existsb_elem; reflexivity|]. apply all_rows. intros []; reflexivity.
  - refine (held_all _ D _ h_completed _ heads_comps _ Hf2); [apply existsb_elem; reflexivity|]. apply all_rows. intros []; reflexivity.
  - refine (held_all _ D _ h_failed _ heads_fails _ Hf3); [apply existsb_elem; reflexivity|]. apply all_rows. intros []; reflexivity.
  - refine (held_all _ D _ h_cancelled _ heads_cancs _ Hf4); [apply existsb_elem; reflexivity|]. apply all_rows. intros []; reflexivity.
  - apply NoDup_Permutation; [exact Huq|apply NoDup_fmap_2; [intros x y; apply enc_meta_inj|apply NoDup_map_to_list]|].
    intros r. rewrite elem_of_list_fmap. split.
    + intros Hr. destruct (Hty r Hr) as (id & key & z & ->). exists (id, key, z). split; [reflexivity|]. apply elem_of_map_to_list, Hme. split; [exact Hr|].
      intros z' Hz'. enough (z' = z) as -> by lia. refine (Hky _ id key z' z Hz' Hr). unfold pk_by_key. lia.
    + intros ([[id key] z] & -> & Hin). apply elem_of_map_to_list, Hme in Hin as [Hin _]. exact Hin.
  - refine (held_all _ D _ h_chunks _ heads_chunks _ Hf5); [apply existsb_elem; reflexivity|]. apply all_rows. intros [[]]; reflexivity.
  - refine (held_all _ D _ h_chunks_completed _ heads_cdones _ Hf6); [apply existsb_elem; reflexivity|]. apply all_rows. intros [[]]; reflexivity.
  - refine (held_all _ D _ h_chunks_failed _ heads_cfails _ Hf7); [apply existsb_elem; reflexivity|]. apply all_rows. intros [[]]; reflexivity.
Qed.

Lemma migrations_script k : (k < 13)%nat -> drop k migrations.*1 = script k :: drop (S k) migrations.*1.
Proof.
  intros Hk. apply drop_S. Local Transparent script. change (script k) with (default [] (migrations.*1 !! k)).
  destruct (migrations.*1 !! k) as [l|] eqn:E; [reflexivity|]. apply lookup_ge_None in E. change (length migrations.*1) with 13%nat in E. lia. Local Opaque script.
Qed.
Lemma migrate_all n : forall k D d, (k + n = 13)%nat -> stood_for k D d -> exists D', migrate k D = Some D' /\ stood_for 13 D' d.
Proof.
  induction n as [|n IH]; intros k D d Hk HD.
  - replace k with 13%nat in * by lia. exists D. split; [reflexivity|exact HD].
  - destruct (step_up k D d) as (D1 & E1 & H1); [lia|exact HD|]. destruct (IH (S k) D1 d) as (D' & E' & H'); [lia|exact H1|].
    exists D'. split; [|exact H']. unfold migrate in *. rewrite migrations_script by lia. cbn [run_all]. rewrite E1. exact E'.
Qed.
Lemma upgrade k D d : (k <= 13)%nat -> stood_for k D d -> exists D', migrate k D = Some D' /\ stands_for D' d.
Proof.
  intros Hk HD. destruct (migrate_all (13 - k) k D d) as (D' & E & H); [lia|exact HD|]. exists D'. split; [exact E|exact (now_stands D' d H)].
Qed.
