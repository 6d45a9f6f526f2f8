(** What the texts of the lookups and of the backlog estimate yield (the queries of SqlQuery.v). *)
From Verif Require Import SubmissionDb SqliteProofs Backlog SqlTable SqlStatements SqlRefine.
From Verif Require Export SqlQueryProofs.
Local Open Scope N_scope.
Local Opaque heads.

Section queries.
Context (rsv : chunk_id -> bool) (m : metastate) (D : sdb) (d : db) (HD : stands_for D d).
Local Notation qy ps := (q_yields (ask_reserved rsv) (ask_counts m) ps D).
Local Notation sy ps := (s_yields (ask_reserved rsv) (ask_counts m) ps D).

(** *** Lookup by prefix *)
Lemma holds_opttext a p : holds (v_eq (v_text a) (VText p)) = bool_decide (a = Some p).
Proof.
  destruct a as [a|]; cbn [v_text]; [rewrite holds_text; apply bool_decide_ext; split; congruence|]. by rewrite bool_decide_eq_false_2.
Qed.
Lemma perm_sorted_ids {A : Set} (mm : gmap sub_id A) (get : A -> option string) p L :
  L ≡ₚ filter (fun kv => get kv.2 = Some p) (map_to_list mm) -> L.*1 ≡ₚ ids_with_prefix get p mm.
Proof. intros HL. unfold ids_with_prefix, sorted_ids. rewrite merge_sort_Permutation, HL. by rewrite map_filter_list. Qed.
Lemma y_prefix_part {A : Set} ps t h (mm : gmap sub_id A) (enc : sub_id * A -> srow) (get : A -> option string) p l :
  ps !! 0%nat = Some (VText p) -> heads !! t = Some h -> rows_in D t ≡ₚ enc <$> map_to_list mm ->
  (forall x, resolve [(t, (h, enc x))] None "id" = v_n x.1) -> (forall x, resolve [(t, (h, enc x))] None "prefix" = v_text (get x.2)) ->
  qy ps [] (q_with_prefix t) l <-> exists ids, ids ≡ₚ ids_with_prefix get p mm /\ l = out_id <$> ids.
Proof.
  intros Hp Hh Hr Hid Hpre. unfold q_with_prefix.
  rewrite (y_select_any rsv m D ps [] _ _ _ (fun x => [(t, (h, enc x))]) (map_to_list mm) (fun x => get x.2 = Some p) (fun x => out_id x.1)).
  - split.
    + intros (L & HL & ->). exists L.*1. split; [by apply perm_sorted_ids|by rewrite <- list_fmap_compose].
    + intros (ids & Hi & ->). assert (Hi' : ids ≡ₚ (filter (fun kv => get kv.2 = Some p) (map_to_list mm)).*1) by (rewrite Hi; symmetry; by apply perm_sorted_ids).
      apply perm_fmap in Hi' as (L & -> & HL). exists L. split; [done|by rewrite <- list_fmap_compose].
  - intros ls. cbn [s_yields SqlLang.assoc]. rewrite (sf_heads _ _ HD), Hh. split.
    + intros (h' & rs & [= <-] & Hrs & ->). rewrite Hr in Hrs. apply perm_fmap in Hrs as (L & -> & HL). exists L. split; [done|by rewrite <- list_fmap_compose].
    + intros (L & HL & ->). exists h, (enc <$> L). split_and!; [done|by rewrite Hr, HL|by rewrite <- list_fmap_compose].
  - intros x _. unfold ev_q, col, par. cbn [eval Nat.pred]. rewrite Hpre, Hp. cbn [default from_option]. apply holds_opttext.
  - intros i x. unfold ev_q, col. cbn [fmap list_fmap out_vals concat app]. unfold ev_q. cbn [eval]. by rewrite Hid.
Qed.
Lemma query_by_prefix p rows :
  yields (ask_reserved rsv) (ask_counts m) [VText p] D q_by_prefix ["id"] rows <->
  exists a b c, a ≡ₚ ids_with_prefix sr_prefix p (t_sub d) /\ b ≡ₚ ids_with_prefix cr_prefix p (t_comp d) /\ c ≡ₚ ids_with_prefix fr_prefix p (t_fail d) /\
    rows = out_id <$> a ++ b ++ c.
Proof.
  unfold yields. rewrite (sf_heads _ _ HD).
  assert (Hj : q_joins q_by_prefix = true) by reflexivity.
  assert (Hc : q_cols heads [] q_by_prefix = Some ["id"]) by (cbn [q_by_prefix q_with_prefix q_cols s_heads SqlLang.assoc]; rewrite heads_subs, heads_comps, heads_fails; reflexivity).
  assert (Hy : qy [VText p] [] q_by_prefix rows <-> exists a b c, a ≡ₚ ids_with_prefix sr_prefix p (t_sub d) /\ b ≡ₚ ids_with_prefix cr_prefix p (t_comp d) /\
    c ≡ₚ ids_with_prefix fr_prefix p (t_fail d) /\ rows = out_id <$> a ++ b ++ c); [|tauto].
  change (qy [VText p] [] q_by_prefix rows) with (exists la lb, (exists lc ld, qy [VText p] [] (q_with_prefix "submissions") lc /\
    qy [VText p] [] (q_with_prefix "submissions_completed") ld /\ la = lc ++ ld) /\ qy [VText p] [] (q_with_prefix "submissions_failed") lb /\ rows = la ++ lb).
  pose proof (fun l => y_prefix_part [VText p] "submissions" h_submissions (t_sub d) enc_sub sr_prefix p l eq_refl heads_subs (sf_subs _ _ HD) ltac:(by intros []) ltac:(by intros [? []])) as H1.
  pose proof (fun l => y_prefix_part [VText p] "submissions_completed" h_completed (t_comp d) enc_comp cr_prefix p l eq_refl heads_comps (sf_comps _ _ HD) ltac:(by intros []) ltac:(by intros [? []])) as H2.
  pose proof (fun l => y_prefix_part [VText p] "submissions_failed" h_failed (t_fail d) enc_fail fr_prefix p l eq_refl heads_fails (sf_fails _ _ HD) ltac:(by intros []) ltac:(by intros [? []])) as H3.
  split.
  - intros (la & lb & (lc & ld & Ha & Hb & ->) & Hcc & ->). apply H1 in Ha as (a & Ha & ->). apply H2 in Hb as (b & Hb & ->). apply H3 in Hcc as (c & Hcc & ->).
    exists a, b, c. split_and!; [done..|]. by rewrite !fmap_app, app_assoc.
  - intros (a & b & c & Ha & Hb & Hcc & ->). exists (out_id <$> a ++ b), (out_id <$> c). split; [|split].
    + exists (out_id <$> a), (out_id <$> b). split; [|split]; [refine (proj2 (H1 _) _); exists a; split; [exact Ha|reflexivity]|refine (proj2 (H2 _) _); exists b; split; [exact Hb|reflexivity]|by rewrite fmap_app].
    + refine (proj2 (H3 _) _). exists c; split; [exact Hcc|reflexivity].
    + by rewrite app_assoc, fmap_app.
Qed.

(** *** Lookup by metadata *)
Definition meta_sc (i : nat) (id : sub_id) (kv : string * Z) : string * (header * srow) := (meta_name i, (h_metadata, enc_meta (id, kv.1, kv.2))).
Definition meta_scs (i : nat) (kvs : list (string * Z)) (id : sub_id) : scope := imap (fun j kv => meta_sc (i + j) id kv) kvs.
Definition has_all (kvs : list (string * Z)) (x : sub_id * sub_row) : Prop := Forall (fun kv => t_meta d !! (x.1, kv.1) = Some kv.2) kvs.
Definition e_meta (i : nat) : expr := EAnd (EAnd (EEq (tcol (meta_name i) "submission_id") (tcol "submissions" "id")) (EEq (tcol (meta_name i) "metadata_key") (par (2 * i + 1))))
  (EEq (tcol (meta_name i) "metadata_value") (par (2 * i + 2))).
Lemma concat_if {A B} (P : A -> Prop) `{forall x, Decision (P x)} (f : A -> B) (l : list A) : concat ((fun a => if bool_decide (P a) then [f a] else []) <$> l) = f <$> filter P l.
Proof.
  induction l as [|a l IH]; [done|]. cbn [fmap list_fmap concat]. rewrite filter_cons. rewrite IH.
  destruct (decide (P a)); [by rewrite bool_decide_eq_true_2|by rewrite bool_decide_eq_false_2].
Qed.
Lemma meta_group ps i k v (sx : scope) id L : ps !! (2 * i)%nat = Some (VText k) -> ps !! (2 * i + 1)%nat = Some (VInt v) -> L ≡ₚ map_to_list (t_meta d) ->
  (forall t, resolve (sx ++ t) (Some "submissions") "id" = v_n id) -> (forall y, y ∈ sx -> y.1 <> meta_name i) ->
  on_rows (ask_reserved rsv) ps D (e_meta i) sx (sc_meta (meta_name i) <$> L) = if bool_decide (t_meta d !! (id, k) = Some v) then [sx ++ [meta_sc i id (k, v)]] else [].
Proof.
  intros H1 H2 HL Hi Hn. unfold on_rows. rewrite <- list_fmap_compose.
  rewrite (filter_fmap _ _ (fun y : sub_id * string * Z => y.1.1 = id /\ y.1.2 = k /\ y.2 = v)).
  2: { intros [[a b] w]. cbn [compose]. unfold ev_q, e_meta, tcol, par. replace (2 * i + 1)%nat with (S (2 * i)) in * by lia. replace (2 * i + 2)%nat with (S (S (2 * i))) by lia.
    cbn [eval Nat.pred]. rewrite H1, H2, Hi. cbn [default from_option]. rewrite !resolve_app_none by exact Hn. unfold sc_meta. cbn [resolve]. rewrite String.eqb_refl.
    change (cell h_metadata (enc_meta (a, b, w)) "submission_id") with (Some (v_n a)). change (cell h_metadata (enc_meta (a, b, w)) "metadata_key") with (Some (VText b)).
    change (cell h_metadata (enc_meta (a, b, w)) "metadata_value") with (Some (VInt w)). cbn beta iota.
    unfold Datatypes.id. rewrite !holds_and, holds_n, holds_text, holds_int. cbn [fst snd]. rewrite <- !bool_decide_and. apply bool_decide_ext. tauto. }
  pose proof (count_group d k id (v, 0) L HL) as E. cbn [fst] in E. rewrite E. by destruct (bool_decide _).
Qed.
Lemma submissions_not_meta j : "submissions" <> meta_name j.
Proof. unfold meta_name. intros E. apply (f_equal (String.get 1)) in E. revert E. unfold pretty, pretty_nat, pretty, pretty_N.
  case_decide as H0; [done|]. destruct (go_head (N.of_nat j) ltac:(lia) "") as (k & s' & Hk & ->). cbn. intros [= E]. apply (f_equal digit_of) in E. rewrite digit_char in E by done. discriminate. Qed.
Lemma y_metas_joined ps kvs : forall i f (g : sub_id * sub_row -> scope) all,
  (forall j kv, kvs !! j = Some kv -> ps !! (2 * (i + j))%nat = Some (VText kv.1) /\ ps !! (2 * (i + j) + 1)%nat = Some (VInt kv.2)) ->
  (forall lf, sy ps [] f lf <-> exists L, L ≡ₚ all /\ lf = g <$> L) ->
  (forall x t, resolve (g x ++ t) (Some "submissions") "id" = v_n x.1) -> (forall x y j, y ∈ g x -> (i <= j)%nat -> y.1 <> meta_name j) ->
  forall l, sy ps [] (join_metas i (length kvs) f) l <-> exists L, L ≡ₚ filter (has_all kvs) all /\ l = (fun x => g x ++ meta_scs i kvs x.1) <$> L.
Proof.
  induction kvs as [|[k v] kvs IH]; intros i f g all Hps Hf Hi Hn l; cbn [length join_metas].
  - rewrite Hf. assert (E : filter (has_all []) all = all) by (clear; induction all as [|x all IH]; [done|]; rewrite filter_cons_True; [by rewrite IH|constructor]). rewrite E.
    split; intros (L & HL & ->); exists L; (split; [done|]); apply list_fmap_ext; intros ? x; by rewrite app_nil_r.
  - destruct (Hps 0%nat (k, v) eq_refl) as [H1 H2]. rewrite Nat.add_0_r in H1, H2. cbn [fst snd] in H1, H2.
    set (P0 := fun x : sub_id * sub_row => t_meta d !! (x.1, k) = Some v).
    rewrite (IH (S i) _ (fun x => g x ++ [meta_sc i x.1 (k, v)]) (filter P0 all)).
    + assert (E : forall x, (g x ++ [meta_sc i x.1 (k, v)]) ++ meta_scs (S i) kvs x.1 = g x ++ meta_scs i ((k, v) :: kvs) x.1).
      { intros x. rewrite <- app_assoc. f_equal. unfold meta_scs. rewrite imap_cons. cbn [app]. rewrite Nat.add_0_r. f_equal. apply imap_ext. intros j kk _. cbn [compose]. unfold meta_sc. do 2 f_equal. lia. }
      assert (E2 : filter (has_all kvs) (filter P0 all) = filter (has_all ((k, v) :: kvs)) all).
      { rewrite list_filter_filter. apply filter_same. intros x. unfold has_all. rewrite Forall_cons. unfold P0. tauto. }
      rewrite E2. split; intros (L & HL & ->); exists L; (split; [done|]); apply list_fmap_ext; intros ? x; by rewrite E.
    + intros j kv Hj. destruct (Hps (S j) kv Hj) as [E1 E2]. split; [rewrite <- E1|rewrite <- E2]; f_equal; lia.
    + fold (e_meta i). intros lf.
      assert (Hg : forall x L, L ≡ₚ map_to_list (t_meta d) -> on_rows (ask_reserved rsv) ps D (e_meta i) (g x) (sc_meta (meta_name i) <$> L) = if bool_decide (P0 x) then [g x ++ [meta_sc i x.1 (k, v)]] else []).
      { intros x L HL. apply (meta_group ps i k v (g x) x.1 L); [done..|apply Hi|]. intros y Hy. by apply (Hn x y i Hy). }
      assert (Hx : forall x gg, (exists ly, sy ps [] (FTable "submissions_metadata" (meta_name i)) ly /\ gg = on_rows (ask_reserved rsv) ps D (e_meta i) (g x) ly) <->
        gg = if bool_decide (P0 x) then [g x ++ [meta_sc i x.1 (k, v)]] else []).
      { intros x gg. split.
        - intros (ly & Hly & ->). apply (y_metas rsv m D d HD) in Hly as (L & HL & ->); [|done]. by apply Hg.
        - intros ->. exists (sc_meta (meta_name i) <$> map_to_list (t_meta d)). split; [apply (y_metas rsv m D d HD); [done|by eexists]|]. by rewrite Hg. }
      change (sy ps [] (FInner ?x ?y ?on) lf) with (exists lx groups, sy ps [] x lx /\ Forall2 (fun sx gg => exists ly, sy ps [] y ly /\ gg = on_rows (ask_reserved rsv) ps D on sx ly) lx groups /\ lf ≡ₚ concat groups).
      split.
      * intros (lx & groups & Hlx & Hgr & Hlf). apply Hf in Hlx as (L & HL & ->). apply Forall2_fmap_l' in Hgr. apply (Forall2_iff _ _ _ _ Hx) in Hgr. apply Forall2_fun in Hgr as ->.
        rewrite concat_if in Hlf. apply perm_fmap in Hlf as (L' & -> & HL'). exists L'. split; [by rewrite HL', HL|done].
      * intros (L & HL & ->). exists (g <$> all), ((fun x => if bool_decide (P0 x) then [g x ++ [meta_sc i x.1 (k, v)]] else []) <$> all). split_and!.
        -- apply Hf. by exists all.
        -- apply Forall2_fmap_l'. apply (Forall2_iff _ _ _ _ Hx). by apply Forall2_fun.
        -- rewrite concat_if. by rewrite HL.
    + intros x t. rewrite <- app_assoc. apply Hi.
    + intros x y j Hy Hj. apply elem_of_app in Hy as [Hy|Hy]; [apply (Hn x y j Hy); lia|]. apply elem_of_list_singleton in Hy as ->. cbn. intros E%meta_name_inj. lia.
Qed.

Lemma sorted_same (a b : list N) : a ≡ₚ b -> StronglySorted N.le a -> StronglySorted N.le b -> a = b.
Proof. intros Hp Ha Hb. by apply (StronglySorted_unique N.le). Qed.
Lemma sorted_filter {A} (R : A -> A -> Prop) (P : A -> Prop) `{forall x, Decision (P x)} l : StronglySorted R l -> StronglySorted R (filter P l).
Proof.
  induction 1 as [|a l Hl IH Ha]; [constructor|]. rewrite filter_cons. destruct (decide (P a)); [|done]. constructor; [done|].
  apply Forall_forall. intros y Hy. apply elem_of_list_filter in Hy as [_ Hy]. rewrite Forall_forall in Ha. by apply Ha.
Qed.
Lemma sorted_of (Q : sub_id -> Prop) `{forall x, Decision (Q x)} (L : list (sub_id * sub_row)) :
  L ≡ₚ filter (fun x => Q x.1) (map_to_list (t_sub d)) -> StronglySorted (fun a b => a.1 <= b.1) L -> L.*1 = filter Q (sorted_ids (t_sub d)).
Proof.
  intros HL Hs. apply sorted_same.
  - rewrite HL. unfold sorted_ids. rewrite merge_sort_Permutation. by rewrite (filter_of_fmap fst Q).
  - by apply (sorted_fmap fst).
  - apply sorted_filter. apply (StronglySorted_merge_sort N.le).
Qed.
Lemma sorted_exists (Q : sub_id -> Prop) `{forall x, Decision (Q x)} : exists L : list (sub_id * sub_row),
  L ≡ₚ filter (fun x => Q x.1) (map_to_list (t_sub d)) /\ StronglySorted (fun a b => a.1 <= b.1) L /\ L.*1 = filter Q (sorted_ids (t_sub d)).
Proof.
  assert (E : filter Q (sorted_ids (t_sub d)) ≡ₚ (filter (fun x => Q x.1) (map_to_list (t_sub d))).*1).
  { unfold sorted_ids. rewrite merge_sort_Permutation. by rewrite (filter_of_fmap fst Q). }
  apply perm_fmap in E as (L & E & HL). exists L. split_and!; [done| |done]. apply (sorted_fmap fst). rewrite <- E.
  apply sorted_filter. apply (StronglySorted_merge_sort N.le).
Qed.
Lemma limited_n {A} ps e n (l : list A) : ev_q (ask_reserved rsv) ps D [] e = v_n n -> limited (ask_reserved rsv) ps D (Some e) l = take (N.to_nat n) l.
Proof. intros H. unfold limited. cbn [fmap option_fmap option_map]. rewrite H. unfold v_n. rewrite (proj2 (Z.ltb_ge _ _)) by lia. by rewrite N_nat_Z || (f_equal; lia). Qed.
Lemma sorted_selection ps outs from (sc : sub_id * sub_row -> scope) (Q : sub_id -> Prop) `{forall x, Decision (Q x)} e (limit : expr) n l :
  (forall ls, sy ps [] from ls <-> exists L, L ≡ₚ filter (fun x => Q x.1) (map_to_list (t_sub d)) /\ ls = sc <$> L) ->
  (forall i x, concat (out_vals (ask_reserved rsv) ps D i (sc x) <$> outs) = out_id x.1) ->
  (forall x, ev_q (ask_reserved rsv) ps D (sc x) e = v_n x.1) -> ev_q (ask_reserved rsv) ps D [] limit = v_n n ->
  qy ps [] (QSelect outs from yes [(e, false)] (Some limit)) l <-> l = out_id <$> take (N.to_nat n) (filter Q (sorted_ids (t_sub d))).
Proof.
  intros Hf Ho He Hl.
  rewrite (y_select_gen rsv m D ps [] outs from yes [(e, false)] sc (filter (fun x => Q x.1) (map_to_list (t_sub d))) (fun _ => True) (fun a b => a.1 <= b.1) (fun x => out_id x.1) (Some limit) l).
  - assert (E : forall L0 : list (sub_id * sub_row), filter (fun _ : sub_id * sub_row => True) L0 = L0) by (intros L0; induction L0 as [|x L IH]; [done|by rewrite filter_cons_True, IH]).
    rewrite E. assert (E2 : forall L : list (sub_id * sub_row), L.*1 = filter Q (sorted_ids (t_sub d)) ->
      limited (ask_reserved rsv) ps D (Some limit) ((fun x => out_id x.1) <$> L) = out_id <$> take (N.to_nat n) (filter Q (sorted_ids (t_sub d)))).
    { intros L <-. rewrite (limited_n ps limit n) by done. rewrite <- !fmap_take. by rewrite <- list_fmap_compose. }
    split.
    + intros (L & HL & Hs & ->). by apply E2, sorted_of.
    + intros ->. destruct (sorted_exists Q) as (L & HL & Hs & E1). exists L. split_and!; [done|done|]. symmetry. by apply E2.
  - intros ls. apply Hf.
  - exists (filter (fun x => Q x.1) (map_to_list (t_sub d))). split; [done|]. apply Hf. by eexists.
  - by intros x.
  - done.
  - done.
  - intros x y _ _. apply (sorted_one rsv D ps e (sc x) (sc y) x.1 y.1 false); apply He.
Qed.
Lemma cols_all_ids : q_cols heads [] q_all_ids = Some ["id"].
Proof. unfold q_all_ids. cbn [q_cols s_heads SqlLang.assoc]. rewrite heads_subs. reflexivity. Qed.
Lemma heads_metas_joined k : forall i f hs, s_heads heads [] f = Some hs -> resolves (names_of hs) (Some "submissions") "id" = true ->
  exists ext, s_heads heads [] (join_metas i k f) = Some (hs ++ ext) /\ ((0 < k)%nat -> resolves (names_of ext) (Some (meta_name i)) "submission_id" = true).
Proof.
  induction k as [|k IH]; intros i f hs Hf Hi.
  - exists []. split; [by rewrite app_nil_r|]. lia.
  - cbn [join_metas]. fold (e_meta i). set (hc := [(meta_name i, h_metadata)]).
    assert (Hn : forall c, resolves (names_of [("a", h_metadata)]) (Some "a") c = true -> resolves (names_of hc) (Some (meta_name i)) c = true).
    { intros c. unfold hc, names_of. cbn [fmap list_fmap resolves fst snd]. rewrite !String.eqb_refl. done. }
    destruct (IH (S i) (FInner f (FTable "submissions_metadata" (meta_name i)) (e_meta i)) (hs ++ hc)) as (ext & H1 & _).
    + change (s_heads heads [] (FInner ?x ?y ?on)) with
        (hx ← s_heads heads [] x; hy ← s_heads heads [] y; if e_ok heads (names_of (hx ++ hy)) on then Some (hx ++ hy) else None).
      rewrite Hf. cbn [mbind option_bind]. cbn [s_heads SqlLang.assoc]. rewrite heads_metas. cbn [mbind option_bind]. fold hc.
      assert (E : e_ok heads (names_of (hs ++ hc)) (e_meta i) = true).
      { unfold e_meta. cbn [e_ok tcol par]. rewrite names_app, !resolves_app, Hi. rewrite (Hn "submission_id" eq_refl), (Hn "metadata_key" eq_refl), (Hn "metadata_value" eq_refl). by rewrite !orb_true_r. }
      by rewrite E.
    + by rewrite names_app, resolves_app, Hi.
    + exists (hc ++ ext). split; [by rewrite H1, <- app_assoc|]. intros _. rewrite names_app, resolves_app. by rewrite (Hn "submission_id" eq_refl).
Qed.
Lemma cols_by_metadata k : (0 < k)%nat -> q_cols heads [] (q_by_metadata k) = Some ["id"].
Proof.
  intros Hk. unfold q_by_metadata.
  destruct (heads_metas_joined k 0 (FTable "submissions" "submissions") [("submissions", h_submissions)]) as (ext & H1 & H2).
  - cbn [s_heads SqlLang.assoc]. by rewrite heads_subs.
  - reflexivity.
  - change (q_cols heads [] (QSelect ?o ?f ?w ?r ?l)) with
    (hs ← s_heads heads [] f; if forallb (e_ok heads (names_of hs)) (w :: r.*1) && forallb (e_ok heads []) (option_list l) && forallb (out_ok heads hs) o then Some (concat (out_cols hs <$> o)) else None).
    rewrite H1. cbn [mbind option_bind]. set (hs := [("submissions", h_submissions)] ++ ext).
    assert (E : forallb (e_ok heads (names_of hs)) (yes :: [(tcol (meta_name 0) "submission_id", false)].*1) = true).
    { cbn [forallb fmap list_fmap fst]. rewrite andb_true_r. cbn [e_ok tcol]. unfold hs. rewrite names_app, resolves_app, (H2 Hk). by rewrite orb_true_r. }
    rewrite E. reflexivity.
Qed.
Lemma bound_metas (kvs : list (string * Z)) n : forall j kv, kvs !! j = Some kv ->
  (concat ((fun kv => [VText kv.1; VInt kv.2]) <$> kvs) ++ [v_n n]) !! (2 * j)%nat = Some (VText kv.1) /\
  (concat ((fun kv => [VText kv.1; VInt kv.2]) <$> kvs) ++ [v_n n]) !! (2 * j + 1)%nat = Some (VInt kv.2).
Proof.
  induction kvs as [|x kvs IH]; intros j kv Hj; [done|]. destruct j as [|j]; [by injection Hj as ->|].
  replace (2 * S j)%nat with (S (S (2 * j))) by lia. cbn [Nat.add]. by apply IH.
Qed.
Lemma bound_limit (kvs : list (string * Z)) n : (concat ((fun kv => [VText kv.1; VInt kv.2]) <$> kvs) ++ [v_n n]) !! (2 * length kvs)%nat = Some (v_n n).
Proof. induction kvs as [|x kvs IH]; [done|]. cbn [length]. replace (2 * S (length kvs))%nat with (S (S (2 * length kvs))) by lia. exact IH. Qed.
Lemma tables_metas k : forall i f, tables (join_metas i k f) = (tables f + k)%nat /\ s_joins (join_metas i k f) = s_joins f.
Proof.
  induction k as [|k IH]; intros i f; cbn [join_metas]; [split; [lia|done]|]. fold (e_meta i).
  destruct (IH (S i) (FInner f (FTable "submissions_metadata" (meta_name i)) (e_meta i))) as [-> ->].
  cbn [tables s_joins]. split; [lia|by rewrite andb_true_r].
Qed.
Lemma joins_by_metadata kvs n : q_joins (b_by_metadata kvs n).1 = Nat.leb (length kvs) 63.
Proof.
  destruct kvs as [|kv kvs]; [done|]. cbn [b_by_metadata fst]. set (k := length (kv :: kvs)). unfold q_by_metadata. cbn [q_joins].
  destruct (tables_metas k 0 (FTable "submissions" "submissions")) as [-> ->]. cbn [tables s_joins]. by rewrite andb_true_r.
Qed.
Theorem query_by_metadata (mm : strat_map) kvs n rows : kvs ≡ₚ map_to_list mm -> (length kvs <= 63)%nat ->
  yields (ask_reserved rsv) (ask_counts m) (b_by_metadata kvs n).2 D (b_by_metadata kvs n).1 ["id"] rows <-> rows = out_id <$> take (N.to_nat n) (matching_ids mm d).
Proof.
  intros Hk Hl. unfold yields. rewrite (sf_heads _ _ HD). pose proof (joins_by_metadata kvs n) as Hj. rewrite (proj2 (Nat.leb_le _ _) Hl) in Hj. clear Hl. revert Hj.
  destruct kvs as [|kv0 kvs0] eqn:Ek.
  - cbn [b_by_metadata fst snd]. rewrite cols_all_ids. unfold matching_ids.
    assert (mm = ∅) as -> by (apply map_to_list_empty_iff; symmetry; by apply Permutation_nil_l in Hk). rewrite decide_True by done.
    assert (Hy : qy [v_n n] [] q_all_ids rows <-> rows = out_id <$> take (N.to_nat n) (filter (fun _ => True) (sorted_ids (t_sub d)))).
    { unfold q_all_ids. apply (sorted_selection _ _ _ sc_sub).
      - intros ls. rewrite (y_subs rsv m D d HD) by done. assert (E : filter (fun _ : sub_id * sub_row => True) (map_to_list (t_sub d)) = map_to_list (t_sub d)) by (induction (map_to_list (t_sub d)) as [|x L IH]; [done|by rewrite filter_cons_True, IH]).
        by rewrite E.
      - by intros i [].
      - by intros [].
      - reflexivity. }
    assert (E : filter (fun _ : N => True) (sorted_ids (t_sub d)) = sorted_ids (t_sub d)) by (clear; generalize (sorted_ids (t_sub d)); intros L; induction L as [|x L IH]; [reflexivity|by rewrite filter_cons_True, IH]).
    rewrite E in Hy. tauto.
  - rewrite <- Ek in *. assert (Eb : b_by_metadata kvs n = (q_by_metadata (length kvs), concat ((fun kv => [VText kv.1; VInt kv.2]) <$> kvs) ++ [v_n n])) by (by subst kvs).
    rewrite Eb. cbn [fst snd]. rewrite cols_by_metadata by (subst kvs; cbn; lia). unfold matching_ids.
    rewrite decide_False. 2: { intros ->. rewrite map_to_list_empty in Hk. apply Permutation_nil_r in Hk. congruence. }
    set (ps := concat _ ++ _).
    assert (Hy : qy ps [] (q_by_metadata (length kvs)) rows <-> rows = out_id <$> take (N.to_nat n) (filter (fun id => Forall (fun kv => t_meta d !! (id, kv.1) = Some kv.2) kvs) (sorted_ids (t_sub d)))).
    { unfold q_by_metadata. apply (sorted_selection _ _ _ (fun x => sc_sub x ++ meta_scs 0 kvs x.1)).
      - apply (y_metas_joined ps kvs 0 _ sc_sub (map_to_list (t_sub d))).
        + intros j kv Hj. by apply bound_metas.
        + intros lf. by apply (y_subs rsv m D d HD).
        + by intros [].
        + intros x y j Hy _. apply elem_of_list_singleton in Hy as ->. apply submissions_not_meta.
      - by intros i [].
      - intros x. unfold ev_q, tcol. cbn [eval]. rewrite resolve_app_none by (intros y Hy; apply elem_of_list_singleton in Hy as ->; apply submissions_not_meta).
        subst kvs. unfold meta_scs. rewrite imap_cons. cbn [resolve meta_sc Nat.add]. unfold meta_sc. cbn [resolve]. rewrite String.eqb_refl. reflexivity.
      - unfold ev_q, par. cbn [eval]. replace (Nat.pred (2 * length kvs + 1)) with (2 * length kvs)%nat by lia. unfold ps. by rewrite bound_limit. }
    assert (E : filter (fun id => Forall (fun kv => t_meta d !! (id, kv.1) = Some kv.2) kvs) (sorted_ids (t_sub d)) =
      filter (fun id => Forall (fun kv => t_meta d !! (id, kv.1) = Some kv.2) (map_to_list mm)) (sorted_ids (t_sub d))) by (apply filter_same; intros id; by rewrite Hk).
    rewrite <- E. tauto.
Qed.

(** *** The sum of the backlog *)
Definition size_of (c : chunk) : Z := match t_sub d !! c_sub c with Some s => default 0%Z (sr_size s) | None => 0%Z end.
Lemma sum_app a b : foldr Z.add 0%Z (a ++ b) = (foldr Z.add 0 a + foldr Z.add 0 b)%Z.
Proof. induction a as [|x a IH]; [done|]. cbn. lia. Qed.
Lemma sum_perm a b : a ≡ₚ b -> foldr Z.add 0%Z a = foldr Z.add 0%Z b.
Proof. induction 1; cbn; lia. Qed.
Lemma ints_app a b : ints (a ++ b) = ints a ++ ints b.
Proof. apply omap_app. Qed.
Lemma ints_perm (f : scope -> value) a b : a ≡ₚ b -> foldr Z.add 0%Z (ints (f <$> a)) = foldr Z.add 0%Z (ints (f <$> b)).
Proof.
  induction 1 as [|x a b _ IH|x y a|a b c _ IH1 _ IH2]; [reflexivity| | |by rewrite IH1].
  - cbn [fmap list_fmap]. change (ints (?v :: ?l)) with (ints ([v] ++ l)). by rewrite !ints_app, !sum_app, IH.
  - cbn [fmap list_fmap]. change (ints (?v :: ?w :: ?l)) with (ints ([v] ++ [w] ++ l)). rewrite !ints_app, !sum_app. lia.
Qed.
Definition e_of : expr := EEq (tcol "chunks" "submission_id") (tcol "submissions" "id").
Lemma size_group ps c L : L ≡ₚ map_to_list (t_sub d) ->
  foldr Z.add 0%Z (ints ((fun sc => ev_q (ask_reserved rsv) ps D sc (col "chunk_size")) <$> on_rows (ask_reserved rsv) ps D e_of (sc_chunk c) (sc_sub <$> L))) = size_of c.
Proof.
  intros HL. unfold on_rows. rewrite <- list_fmap_compose.
  rewrite (filter_fmap _ _ (fun x : sub_id * sub_row => x.1 = c_sub c)).
  2: { intros [id r]. unfold ev_q, e_of, tcol. cbn [eval compose]. change (resolve _ (Some "chunks") "submission_id") with (v_n (c_sub c)). change (resolve _ (Some "submissions") "id") with (v_n id).
    rewrite holds_n. apply bool_decide_ext. cbn. naive_solver. }
  unfold size_of.
  assert (E : filter (fun x : sub_id * sub_row => x.1 = c_sub c) L ≡ₚ match t_sub d !! c_sub c with Some s => [(c_sub c, s)] | None => [] end).
  { rewrite HL. apply NoDup_Permutation; [apply NoDup_filter, NoDup_map_to_list|destruct (t_sub d !! c_sub c); [apply NoDup_singleton|constructor]|].
    intros [id r]. rewrite elem_of_list_filter, elem_of_map_to_list. cbn [fst]. split.
    - intros [-> ->]. by apply elem_of_list_singleton.
    - destruct (t_sub d !! c_sub c) eqn:Es; intros Hx; [|by apply elem_of_nil in Hx]. apply elem_of_list_singleton in Hx as [= -> ->]. done. }
  rewrite (ints_perm _ _ _ (fmap_Permutation _ _ _ E)).
  destruct (t_sub d !! c_sub c) as [r|]; [|done]. cbn [fmap list_fmap compose]. unfold ev_q, col. cbn [eval].
  change (resolve _ None "chunk_size") with (v_int (sr_size r)). destruct (sr_size r); cbn; lia.
Qed.
Lemma y_joined_sum ps L : forall groups, Forall2 (fun sx g => exists ly, sy ps [] (FTable "submissions" "submissions") ly /\ g = on_rows (ask_reserved rsv) ps D e_of sx ly) (sc_chunk <$> L) groups ->
  foldr Z.add 0%Z (ints ((fun sc => ev_q (ask_reserved rsv) ps D sc (col "chunk_size")) <$> concat groups)) = foldr Z.add 0%Z (size_of <$> L).
Proof.
  induction L as [|c L IH]; intros groups Hg; inversion Hg as [|? g ? gs (ly & Hly & ->) Hg']; subst; [done|].
  cbn [concat fmap list_fmap foldr]. rewrite fmap_app, ints_app, sum_app. apply (y_subs rsv m D d HD) in Hly as (L' & HL' & ->); [|done].
  rewrite size_group by done. f_equal. by apply IH.
Qed.
Theorem query_backlog rows :
  yields (ask_reserved rsv) (ask_counts m) [] D q_backlog ["count"] rows <-> rows = [[VInt (foldr Z.add 0%Z (size_of <$> all_chunks d))]].
Proof.
  unfold yields. rewrite (sf_heads _ _ HD).
  assert (Hj : q_joins q_backlog = true) by reflexivity.
  assert (Hc : q_cols heads [] q_backlog = Some ["count"]) by (unfold q_backlog; cbn [q_cols s_heads SqlLang.assoc]; rewrite heads_chunks, heads_subs; reflexivity).
  assert (Hy : qy [] [] q_backlog rows <-> rows = [[VInt (foldr Z.add 0%Z (size_of <$> all_chunks d))]]); [|tauto].
  unfold q_backlog. fold e_of.
  change (qy [] [] (QSum (col "chunk_size") "count" (FInner ?x ?y ?on)) rows) with
    (exists ls, (exists lx groups, sy [] [] x lx /\ Forall2 (fun sx g => exists ly, sy [] [] y ly /\ g = on_rows (ask_reserved rsv) [] D on sx ly) lx groups /\ ls ≡ₚ concat groups) /\
      rows = [[VInt (foldr Z.add 0%Z (ints ((fun sc => ev_q (ask_reserved rsv) [] D sc (col "chunk_size")) <$> ls)))]]).
  assert (Hsum : forall ls L groups, L ≡ₚ all_chunks d -> Forall2 (fun sx g => exists ly, sy [] [] (FTable "submissions" "submissions") ly /\ g = on_rows (ask_reserved rsv) [] D e_of sx ly) (sc_chunk <$> L) groups ->
    ls ≡ₚ concat groups -> foldr Z.add 0%Z (ints ((fun sc => ev_q (ask_reserved rsv) [] D sc (col "chunk_size")) <$> ls)) = foldr Z.add 0%Z (size_of <$> all_chunks d)).
  { intros ls L groups HL Hg Hls. rewrite (ints_perm _ _ _ Hls).
    rewrite (y_joined_sum [] L groups Hg). apply sum_perm. by rewrite HL. }
  split.
  - intros (ls & (lx & groups & Hlx & Hg & Hls) & ->). apply (y_chunks rsv m D d HD) in Hlx as (L & HL & ->); [|done]. by rewrite (Hsum ls L groups HL Hg Hls).
  - intros ->. set (ly := sc_sub <$> map_to_list (t_sub d)).
    assert (Hly : sy [] [] (FTable "submissions" "submissions") ly) by (refine (proj2 (y_subs rsv m D d HD [] [] _ eq_refl) _); exists (map_to_list (t_sub d)); split; reflexivity).
    set (groups := (fun c => on_rows (ask_reserved rsv) [] D e_of (sc_chunk c) ly) <$> all_chunks d).
    assert (Hg : Forall2 (fun sx g => exists ly, sy [] [] (FTable "submissions" "submissions") ly /\ g = on_rows (ask_reserved rsv) [] D e_of sx ly) (sc_chunk <$> all_chunks d) groups).
    { apply Forall2_fmap_l'. unfold groups. apply Forall2_fmap_r, Forall_Forall2_diag, Forall_forall. intros c _. exists ly. split; [exact Hly|reflexivity]. }
    exists (concat groups). split; [|by rewrite (Hsum (concat groups) (all_chunks d) groups (reflexivity _) Hg (reflexivity _))].
    exists (sc_chunk <$> all_chunks d), groups. split; [refine (proj2 (y_chunks rsv m D d HD [] [] _ eq_refl) _); exists (all_chunks d); split; reflexivity|]. split; [exact Hg|reflexivity].
Qed.
Lemma backlog_sum : fst (exec count_ops_in_backlog_estimate d []) = Ok (foldr Z.add 0%Z (size_of <$> all_chunks d)).
Proof.
  unfold count_ops_in_backlog_estimate, read. rewrite exec_sql. cbn [fst]. f_equal. unfold map_fold, all_chunks. cbn [compose]. rewrite <- list_fmap_compose.
  induction (map_to_list (t_chunk d)) as [|[[id ix] r] L IH]; [done|]. rewrite fmap_cons. cbn [foldr]. rewrite <- IH.
  match goal with |- uncurry ?f (?k, ?x) ?a = _ => change (uncurry f (k, x) a) with (f k x a) end.
  unfold size_of, compose. cbn [c_sub fst]. destruct (t_sub d !! id); [reflexivity|by rewrite Z.add_0_l].
Qed.
End queries.
