(** Paths are injective; storing and retrieving (C47). *)
From Verif Require Export ObjectStore.
From Coq Require Import Strings.Ascii.
Local Open Scope N_scope.

(** *** Strings *)
Definition no_char (c : Ascii.ascii) (s : string) : Prop := forall a b, s <> a +:+ String c b.
Lemma no_char_cons c d s : no_char c (String d s) <-> d <> c /\ no_char c s.
Proof.
  split.
  - intros H. split; [intros ->; exact (H "" s eq_refl)|]. intros a b ->. exact (H (String d a) b eq_refl).
  - intros [H1 H2] [|d' a] b E; injection E as E1 E2; [congruence|]. by apply (H2 a b).
Qed.
Lemma no_char_nil c : no_char c "".
Proof. intros [|] b; discriminate. Qed.
Fixpoint no_char_b (c : Ascii.ascii) (s : string) : bool :=
  match s with EmptyString => true | String d s' => negb (Ascii.eqb d c) && no_char_b c s' end.
Lemma no_char_by c s : no_char_b c s = true -> no_char c s.
Proof.
  induction s as [|d s IH]; intros H; [apply no_char_nil|]. cbn in H. apply andb_true_iff in H as [H1 H2]. apply no_char_cons. split; [|by apply IH].
  intros ->. by rewrite Ascii.eqb_refl in H1.
Qed.
Lemma no_char_app c s t : no_char c (s +:+ t) <-> no_char c s /\ no_char c t.
Proof.
  induction s as [|d s IH]; cbn.
  - split; [intros H; split; [apply no_char_nil|done]|tauto].
  - change (String d s +:+ t) with (String d (s +:+ t)). rewrite !no_char_cons, IH. tauto.
Qed.
Lemma cut_inj c s1 s2 t1 t2 : no_char c s1 -> no_char c s2 -> s1 +:+ String c t1 = s2 +:+ String c t2 -> s1 = s2 /\ t1 = t2.
Proof.
  revert s2. induction s1 as [|d s1 IH]; intros [|d2 s2] H1 H2 E.
  - injection E as ->. done.
  - injection E as -> E. apply no_char_cons in H2 as [H2 _]. done.
  - injection E as -> E. apply no_char_cons in H1 as [H1 _]. done.
  - injection E as -> E. apply no_char_cons in H1 as [_ H1]. apply no_char_cons in H2 as [_ H2]. destruct (IH s2 H1 H2 E) as [-> ->]. done.
Qed.
(** *** Splitting at the delimiter *)
Lemma split_ne s : split_slash s <> [].
Proof. destruct s; cbn; [done|]. case_bool_decide; [done|]. by destruct (split_slash s). Qed.
Lemma split_one s : no_char "/" s -> split_slash s = [s].
Proof.
  induction s as [|c s IH]; intros H; [done|]. apply no_char_cons in H as [H1 H2]. cbn. rewrite bool_decide_eq_false_2 by done. by rewrite (IH H2).
Qed.
Lemma split_app s t : split_slash (s +:+ "/" +:+ t) = split_slash s ++ split_slash t.
Proof.
  induction s as [|c s IH]; [done|]. change (String c s +:+ "/" +:+ t) with (String c (s +:+ "/" +:+ t)). cbn [split_slash]. rewrite IH.
  destruct (bool_decide _); [done|]. pose proof (split_ne s). by destruct (split_slash s).
Qed.
Lemma split_join l : l <> [] -> Forall (no_char "/") l -> split_slash (String.concat "/" l) = l.
Proof.
  intros Hn H. destruct l as [|p l]; [done|]. clear Hn. revert p H. induction l as [|q l IH]; intros p H; cbn [String.concat].
  - apply Forall_cons_1 in H as [H _]. by apply split_one.
  - apply Forall_cons_1 in H as [H1 H2]. change (split_slash (p +:+ "/" +:+ String.concat "/" (q :: l)) = p :: q :: l). rewrite split_app, split_one by done. by rewrite IH.
Qed.
Lemma join_inj l1 l2 : l1 <> [] -> l2 <> [] -> Forall (no_char "/") l1 -> Forall (no_char "/") l2 -> String.concat "/" l1 = String.concat "/" l2 -> l1 = l2.
Proof. intros N1 N2 H1 H2 E. rewrite <- (split_join l1), <- (split_join l2) by done. by rewrite E. Qed.

(** *** Percent encoding *)
Definition hex_value (c : Ascii.ascii) : N := let n := Ascii.N_of_ascii c in if n <? 58 then n - 48 else n - 55.
Definition decode_one (s : string) : Ascii.ascii * string :=
  match s with
  | String c s' =>
    if bool_decide (c = "%"%char) then
      match s' with String h (String l s2) => (Ascii.ascii_of_N (16 * hex_value h + hex_value l), s2) | _ => (c, s') end
    else (c, s')
  | EmptyString => ("%"%char, EmptyString)
  end.
Lemma decode_encode c s : decode_one (percent_encode_char c s) = (c, s).
Proof. destruct c as [[] [] [] [] [] [] [] []]; reflexivity. Qed.
Lemma encode_char_ne c s : percent_encode_char c s <> "".
Proof. unfold percent_encode_char. by destruct (invalid c). Qed.
Lemma encode_no_slash s : no_char "/" (percent_encode s).
Proof.
  induction s as [|c s IH]; [apply no_char_nil|]. cbn. assert (H : no_char "/" (percent_encode_char c "")).
  { apply no_char_by. destruct c as [[] [] [] [] [] [] [] []]; reflexivity. }
  replace (percent_encode_char c (percent_encode s)) with (percent_encode_char c "" +:+ percent_encode s) by (unfold percent_encode_char; by destruct (invalid c)).
  by apply no_char_app.
Qed.
Lemma encode_inj s t : percent_encode s = percent_encode t -> s = t.
Proof.
  revert t. induction s as [|c s IH]; intros [|d t] E; cbn in E.
  - done.
  - by destruct (encode_char_ne d (percent_encode t)).
  - by destruct (encode_char_ne c (percent_encode s)).
  - apply (f_equal decode_one) in E. rewrite !decode_encode in E. injection E as -> E. by rewrite (IH t).
Qed.
Lemma encode_empty s : percent_encode s = "" -> s = "".
Proof. destruct s as [|c s]; [done|]. intros E. by destruct (encode_char_ne c (percent_encode s)). Qed.
(** An encoded string that begins with an escape stands for one that begins with an invalid character. *)
Lemma encode_dot s : percent_encode s <> "%2E" /\ percent_encode s <> "%2E%2E".
Proof.
  assert (H : forall t, percent_encode s <> "%2E" +:+ t).
  { intros t E. destruct s as [|c s]; [done|]. cbn in E. pose proof (decode_encode c (percent_encode s)) as D. rewrite E in D. cbn in D.
    injection D as <- Et. unfold percent_encode_char in E. cbn in E. discriminate E. }
  split; [exact (H "")|exact (H "%2E")].
Qed.
Lemma part_inj s t : path_part s = path_part t -> s = t.
Proof.
  unfold path_part. destruct (encode_dot s) as [S1 S2], (encode_dot t) as [T1 T2].
  repeat case_bool_decide; intros E; simplify_eq; try done; try (by destruct S1); try (by destruct S2); try (by destruct T1); try (by destruct T2). by apply encode_inj.
Qed.
Lemma part_no_slash s : no_char "/" (path_part s).
Proof.
  unfold path_part. repeat case_bool_decide; try apply encode_no_slash; by apply no_char_by.
Qed.
Lemma part_empty s : path_part s = "" <-> s = "".
Proof.
  split; [|by intros ->]. unfold path_part. repeat case_bool_decide; try discriminate. apply encode_empty.
Qed.

(** *** File names *)
Lemma digits_go c : (forall n, pretty_N_char n <> c) -> forall n s, no_char c s -> no_char c (pretty_N_go n s).
Proof.
  intros Hc n. induction (N.lt_wf_0 n) as [n _ IH]. intros s Hs. destruct (decide (n = 0)) as [->|Hn]; [by rewrite pretty_N_go_0|].
  rewrite pretty_N_go_step by lia. apply IH; [apply N.div_lt; lia|]. by apply no_char_cons.
Qed.
Lemma digits (n : N) c : (forall m, pretty_N_char m <> c) -> no_char c (pretty n).
Proof.
  intros Hc. unfold pretty, pretty_N. case_decide; [|by apply digits_go, no_char_nil]. apply no_char_cons. split; [exact (Hc 0)|apply no_char_nil].
Qed.
Lemma digit_not n c : c ∈ ["/"; "-"]%char -> pretty_N_char n <> c.
Proof. intros H. apply elem_of_cons in H as [->|H%elem_of_list_singleton]; [|subst c]; unfold pretty_N_char; repeat case_match; discriminate. Qed.
Definition file_name (i : N) (t : chunk_type) : string := pretty i +:+ "-" +:+ type_name t +:+ ".bin".
Lemma file_no_slash i t : no_char "/" (file_name i t).
Proof.
  unfold file_name. apply no_char_app. split; [apply digits; intros; apply digit_not; set_solver|].
  destruct t; by apply no_char_by.
Qed.
Lemma file_inj i t i' t' : file_name i t = file_name i' t' -> i = i' /\ t = t'.
Proof.
  unfold file_name. intros E. apply (cut_inj "-") in E as [E1 E2]; try (apply digits; intros; apply digit_not; set_solver).
  split; [by apply (inj pretty)|]. by destruct t, t'.
Qed.
Lemma file_ne i t : file_name i t <> "".
Proof. unfold file_name. destruct (pretty i); discriminate. Qed.

(** *** Paths *)
Definition base_parts (base : string) : list string := filter (fun p => p <> "") (path_part <$> split_slash base).
Definition prefix_parts (prefix : string) : list string := if bool_decide (prefix = "") then [] else [path_part prefix].
Lemma chunk_path_parts base p i t : no_char "/" p ->
  chunk_path base p i t = String.concat "/" (base_parts base ++ prefix_parts p ++ [path_part (file_name i t)]).
Proof.
  intros Hp. unfold chunk_path, path_from. f_equal. change ("/" +:+ pretty i +:+ "-" +:+ type_name t +:+ ".bin") with ("/" +:+ file_name i t).
  rewrite split_app, split_app, fmap_app, fmap_app, filter_app, filter_app. unfold base_parts. do 2 f_equal; [|].
  - rewrite split_one by done. unfold prefix_parts. cbn [fmap list_fmap]. rewrite filter_cons. case_bool_decide as E.
    + rewrite decide_False by (rewrite part_empty; tauto). done.
    + rewrite decide_True by (rewrite part_empty; done). done.
  - rewrite split_one by apply file_no_slash. cbn [fmap list_fmap]. rewrite filter_cons, decide_True; [done|]. rewrite part_empty. apply file_ne.
Qed.
Lemma chunk_path_inj base p i t p' i' t' : no_char "/" p -> no_char "/" p' ->
  chunk_path base p i t = chunk_path base p' i' t' -> p = p' /\ i = i' /\ t = t'.
Proof.
  intros Hp Hp' E. rewrite !chunk_path_parts in E by done. apply join_inj in E.
  - apply app_inv_head in E. apply app_inj_2 in E as [E1 E2]; [|done]. injection E2 as E2. apply part_inj, file_inj in E2 as [-> ->]. split; [|done].
    unfold prefix_parts in E1. repeat case_bool_decide; [congruence|discriminate|discriminate|]. injection E1 as E1. by apply part_inj.
  - by destruct (base_parts base), (prefix_parts p).
  - by destruct (base_parts base), (prefix_parts p').
  - apply Forall_forall. intros q Hq. rewrite !elem_of_app in Hq. destruct Hq as [Hq|[Hq|Hq]].
    + apply elem_of_list_filter in Hq as [_ Hq]. apply elem_of_list_fmap in Hq as (x & -> & _). apply part_no_slash.
    + unfold prefix_parts in Hq. case_bool_decide; [by apply elem_of_nil in Hq|]. apply elem_of_list_singleton in Hq as ->. apply part_no_slash.
    + apply elem_of_list_singleton in Hq as ->. apply part_no_slash.
  - apply Forall_forall. intros q Hq. rewrite !elem_of_app in Hq. destruct Hq as [Hq|[Hq|Hq]].
    + apply elem_of_list_filter in Hq as [_ Hq]. apply elem_of_list_fmap in Hq as (x & -> & _). apply part_no_slash.
    + unfold prefix_parts in Hq. case_bool_decide; [by apply elem_of_nil in Hq|]. apply elem_of_list_singleton in Hq as ->. apply part_no_slash.
    + apply elem_of_list_singleton in Hq as ->. apply part_no_slash.
Qed.

(** *** Storing *)
Lemma store_chunk_other base p i t c u o p' i' t' : no_char "/" p -> no_char "/" p' -> (p, i, t) <> (p', i', t') ->
  retrieve_chunk base p' i' t' (snd (store_chunk base p i t c u o)) = retrieve_chunk base p' i' t' o.
Proof.
  intros Hp Hp' Hne. unfold retrieve_chunk, store_chunk. destruct u; cbn; try done; rewrite lookup_insert_ne; try done; intros E; apply Hne; apply chunk_path_inj in E as (-> & -> & ->); done.
Qed.
Lemma store_chunks_other base p t l : forall i o p' i' t', no_char "/" p -> no_char "/" p' -> (p, t) <> (p', t') \/ i' < i ->
  retrieve_chunk base p' i' t' (snd (store_chunks_from base p t i l o)) = retrieve_chunk base p' i' t' o.
Proof.
  induction l as [|[[c|] u] l IH]; intros i o p' i' t' Hp Hp' Hne; cbn; try done.
  destruct (store_chunk base p i t c u o) as [b o'] eqn:E. assert (Ho : retrieve_chunk base p' i' t' o' = retrieve_chunk base p' i' t' o).
  { change o' with (snd (b, o')). rewrite <- E. apply store_chunk_other; try done. intros [= -> -> ->]. destruct Hne; [done|lia]. }
  destruct b; [|exact Ho]. rewrite IH; try done. destruct Hne; [by left|right; lia].
Qed.
Lemma store_chunks_result base p t l : forall i o n o', store_chunks_from base p t i l o = (Some n, o') -> no_char "/" p ->
  n = i + N.of_nat (length l) /\
  forall k c u, l !! k = Some (c, u) -> retrieve_chunk base p (i + N.of_nat k) t o' = c.
Proof.
  induction l as [|[[c|] u] l IH]; intros i o n o' E Hp; cbn in E; try discriminate.
  - injection E as <- <-. split; [cbn; lia|done].
  - destruct (store_chunk base p i t c u o) as [b o1] eqn:E1. destruct b; [|discriminate]. pose proof E as E'. apply IH in E as [-> H]; [|done]. split; [cbn [length]; lia|].
    intros [|k] c' u' Hk; cbn in Hk.
    + injection Hk as <- <-. rewrite N.add_0_r. change o' with (snd (Some (i + 1 + N.of_nat (length l)), o')). rewrite <- E'. rewrite store_chunks_other; [|done|done|right; lia].
      unfold store_chunk in E1. destruct u; simplify_eq. unfold retrieve_chunk. by rewrite lookup_insert.
    + replace (i + N.of_nat (S k)) with (i + 1 + N.of_nat k) by lia. by apply (H k c' u').
Qed.

(** *** What the names look like *)
(** The characters that object names keep: printable ASCII, except for those with a meaning in paths,
    URLs, file systems or patterns. *)
Definition kept (c : Ascii.ascii) : Prop :=
  32 <= Ascii.N_of_ascii c <= 126 /\ c ∉ String.list_ascii_of_string "/\{^}%`]"">[~<#|*?".
Global Instance kept_dec c : Decision (kept c) := _.
Definition all_chars (P : Ascii.ascii -> Prop) (s : string) : Prop := forall c, c ∈ String.list_ascii_of_string s -> P c.
Definition plain_part (s : string) : Prop := s <> "" /\ s <> "." /\ s <> ".." /\ all_chars kept s.
Lemma kept_valid c : kept c <-> invalid c = false.
Proof.
  rewrite <- (bool_decide_spec (kept c)). transitivity (bool_decide (kept c) = true); [by destruct (bool_decide (kept c))|].
  assert (H : bool_decide (kept c) = negb (invalid c)); [|rewrite H; by destruct (invalid c)].
  destruct c as [[] [] [] [] [] [] [] []]; vm_compute; reflexivity.
Qed.
Lemma all_cons P c s : all_chars P (String c s) <-> P c /\ all_chars P s.
Proof.
  unfold all_chars. cbn [String.list_ascii_of_string]. setoid_rewrite elem_of_cons. split; [|intros [? ?] ? [->|]; eauto].
  intros H. split; [by apply H; left|]. intros d Hd. apply H. by right.
Qed.
Lemma all_app P s t : all_chars P (s +:+ t) <-> all_chars P s /\ all_chars P t.
Proof.
  induction s as [|c s IH]; cbn.
  - split; [|tauto]. intros H. split; [|done]. intros c Hc. by apply elem_of_nil in Hc.
  - change (String c s +:+ t) with (String c (s +:+ t)). rewrite !all_cons, IH. tauto.
Qed.
Lemma all_by P `{forall c, Decision (P c)} s : forallb (fun c => bool_decide (P c)) (String.list_ascii_of_string s) = true -> all_chars P s.
Proof. intros E c Hc. rewrite forallb_forall in E. apply (bool_decide_eq_true (P c)), E. by apply elem_of_list_In. Qed.
Ltac chars := first [apply (all_by kept); vm_compute; reflexivity | apply (all_by (fun c => kept c \/ c = "/"%char \/ c = "%"%char)); vm_compute; reflexivity].
Lemma encode_kept s : all_chars kept s -> percent_encode s = s.
Proof.
  induction s as [|c s IH]; [done|]. rewrite all_cons. intros [Hc Hs]. cbn. unfold percent_encode_char. apply kept_valid in Hc. by rewrite Hc, IH.
Qed.
Lemma part_plain s : plain_part s -> path_part s = s.
Proof. intros (_ & H1 & H2 & H3). unfold path_part. rewrite !bool_decide_eq_false_2 by done. by apply encode_kept. Qed.
Lemma kept_digits (n : N) : all_chars kept (pretty n).
Proof.
  assert (Hd : forall m, kept (pretty_N_char m)). { intros m. apply kept_valid. unfold pretty_N_char. repeat case_match; reflexivity. }
  assert (G : forall n s, all_chars kept s -> all_chars kept (pretty_N_go n s)).
  { clear n. intros n. induction (N.lt_wf_0 n) as [n _ IH]. intros s Hs. destruct (decide (n = 0)) as [->|Hn]; [by rewrite pretty_N_go_0|].
    rewrite pretty_N_go_step by lia. apply IH; [apply N.div_lt; lia|]. by apply all_cons. }
  unfold pretty, pretty_N. case_decide; [|apply G; chars].
  chars.
Qed.
Lemma file_plain i t : plain_part (file_name i t).
Proof.
  assert (H : all_chars kept (file_name i t)).
  { unfold file_name. apply all_app. split; [apply kept_digits|]. destruct t; chars. }
  assert (Hn : no_char "-" (file_name i t) -> False). { intros Hc. by apply (Hc (pretty i) (type_name t +:+ ".bin")). }
  split_and!; [apply file_ne| | |done]; intros E; rewrite E in Hn; apply Hn; by apply no_char_by.
Qed.
Lemma plain_no_slash s : plain_part s -> no_char "/" s.
Proof. intros H. rewrite <- (part_plain s H). apply part_no_slash. Qed.
Lemma chunk_path_plain base p i t : plain_part base -> plain_part p ->
  chunk_path base p i t = base +:+ "/" +:+ p +:+ "/" +:+ file_name i t.
Proof.
  intros Hb Hp. rewrite chunk_path_parts by (by apply plain_no_slash). unfold base_parts, prefix_parts.
  rewrite split_one by (by apply plain_no_slash). cbn [fmap list_fmap]. rewrite (part_plain base Hb), (part_plain p Hp), (part_plain _ (file_plain i t)).
  rewrite filter_cons_True by apply Hb. rewrite bool_decide_eq_false_2 by apply Hp. reflexivity.
Qed.
Definition safe (c : Ascii.ascii) : Prop := kept c \/ c = "/"%char \/ c = "%"%char.
Lemma encode_safe s : all_chars safe (percent_encode s).
Proof.
  induction s as [|c s IH]; [chars|]. cbn. unfold percent_encode_char. destruct (invalid c) eqn:E.
  - rewrite !all_cons. split; [by right; right|]. split; [|split; [|done]]; left; apply kept_valid; clear E; destruct c as [[] [] [] [] [] [] [] []]; reflexivity.
  - apply all_cons. split; [left; by apply kept_valid|done].
Qed.
Lemma part_safe s : all_chars safe (path_part s).
Proof. unfold path_part. repeat case_bool_decide; try apply encode_safe; chars. Qed.
Lemma chunk_path_safe base p i t : all_chars safe (chunk_path base p i t).
Proof.
  unfold chunk_path, path_from.
  assert (H : Forall (all_chars safe) (filter (λ p : string, p ≠ "") (path_part <$> split_slash (base +:+ "/" +:+ p +:+ "/" +:+ pretty i +:+ "-" +:+ type_name t +:+ ".bin")))).
  { apply Forall_forall. intros s [_ Hs]%elem_of_list_filter. apply elem_of_list_fmap in Hs as (s' & -> & _). apply part_safe. }
  revert H. generalize (filter (λ p : string, p ≠ "") (path_part <$> split_slash (base +:+ "/" +:+ p +:+ "/" +:+ pretty i +:+ "-" +:+ type_name t +:+ ".bin"))).
  intros l H. induction l as [|x l IH]; [chars|]. apply Forall_cons in H as [H1 H2]. destruct l as [|y l]; [done|].
  change (String.concat "/" (x :: y :: l)) with (x +:+ "/" +:+ String.concat "/" (y :: l)).
  rewrite !all_app. split; [done|]. split; [chars|by apply IH].
Qed.
