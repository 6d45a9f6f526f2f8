(** Lemmas about Bytes.v: what is written is read back, and its length is that of Wire.v. *)
From Coq Require Import Ascii DecimalString.
From Coq Require DecimalFacts.
From Verif Require Export Bytes WireProofs.
Local Open Scope N_scope.

Section wire_induction.
  Context (P : wire -> Prop).
  Hypothesis HNull : P WNull.
  Hypothesis HNum : forall z, P (WNum z).
  Hypothesis HText : forall s, P (WText s).
  Hypothesis HList : forall l, Forall P l -> P (WList l).
  Hypothesis HObj : forall l, Forall (fun x => P x.2) l -> P (WObj l).
  Fixpoint wire_induction (v : wire) : P v :=
    match v with
    | WNull => HNull | WNum z => HNum z | WText s => HText s
    | WList l => HList l ((fix go l : Forall P l := match l with [] => Forall_nil_2 _ | v :: l => Forall_cons_2 _ _ _ (wire_induction v) (go l) end) l)
    | WObj l => HObj l ((fix go l : Forall (fun x => P x.2) l := match l with [] => Forall_nil_2 _ | v :: l => Forall_cons_2 _ _ _ (wire_induction v.2) (go l) end) l)
    end.
End wire_induction.

(** *** Strings *)
Lemma append_cons c (a b : string) : String c a +:+ b = String c (a +:+ b).
Proof. done. Qed.
Lemma append_empty (b : string) : "" +:+ b = b.
Proof. done. Qed.
Lemma append_assoc (a b c : string) : (a +:+ b) +:+ c = a +:+ (b +:+ c).
Proof. induction a as [|x a IH]; [done|]. rewrite ?append_cons. by rewrite IH. Qed.
Lemma append_nil (a : string) : a +:+ "" = a.
Proof. induction a as [|x a IH]; [done|]. rewrite ?append_cons. by rewrite IH. Qed.
Lemma length_append a b : String.length (a +:+ b) = (String.length a + String.length b)%nat.
Proof. induction a as [|x a IH]; [done|]. rewrite append_cons. cbn [String.length]. by rewrite IH. Qed.
Lemma bytes_append a b : bytes (a +:+ b) = bytes a + bytes b.
Proof. unfold bytes. rewrite length_append. lia. Qed.
Lemma bytes_cons c s : bytes (String c s) = 1 + bytes s.
Proof. unfold bytes. cbn [String.length]. lia. Qed.
Lemma cat_cons x l : cat (x :: l) = x +:+ cat l.
Proof. done. Qed.
Lemma bytes_cat l : bytes (cat l) = sum_n (bytes <$> l).
Proof. induction l as [|x l IH]; [done|]. by rewrite cat_cons, bytes_append, fmap_cons, sum_cons, IH. Qed.
Lemma N_of_byte n : n < 256 -> N_of_ascii (ascii_of_N n) = n.
Proof. apply N_ascii_embedding. Qed.

(** *** CBOR *)
Lemma read_be_be k : forall n acc rest, n < 256 ^ N.of_nat k -> read_be k acc (be k n +:+ rest) = Some (acc * 256 ^ N.of_nat k + n, rest).
Proof.
  induction k as [|k IH]; intros n acc rest Hn.
  - cbn [read_be be]. rewrite ?append_cons, ?append_empty. cbn [read_be]. rewrite N.pow_0_r in *. do 2 f_equal. lia.
  - cbn [read_be be]. rewrite ?append_cons, ?append_empty. cbn [read_be]. rewrite Nat2N.inj_succ, N.pow_succ_r' in *.
    assert (256 ^ N.of_nat k <> 0) as H0 by (apply N.pow_nonzero; lia).
    rewrite IH by (by apply N.mod_lt). rewrite N_of_byte by (apply N.div_lt_upper_bound; lia).
    do 2 f_equal. pose proof (N.div_mod n (256 ^ N.of_nat k) H0). nia.
Qed.
Lemma length_be k n : String.length (be k n) = k.
Proof. revert n. induction k as [|k IH]; intros n; [done|]. cbn [be String.length]. by rewrite IH. Qed.
Lemma first_byte major m : major < 8 -> m < 32 -> N_of_ascii (ascii_of_N (major * 32 + m)) / 32 = major /\ N_of_ascii (ascii_of_N (major * 32 + m)) mod 32 = m.
Proof.
  intros H1 H2. rewrite N_of_byte by lia. split.
  - symmetry. apply (N.div_unique _ _ _ m); lia.
  - symmetry. apply (N.mod_unique _ _ major); lia.
Qed.
Lemma read_title_eq c s : read_title (String c s) =
  let major := N_of_ascii c / 32 in let minor := N_of_ascii c mod 32 in
  if minor <? 24 then Some (major, minor, s)
  else
    r ← (if minor =? 24 then read_be 1 0 s else if minor =? 25 then read_be 2 0 s
         else if minor =? 26 then read_be 4 0 s else if minor =? 27 then read_be 8 0 s else None);
    Some (major, r.1, r.2).
Proof. done. Qed.
Lemma read_title_title major n rest : major < 8 -> n < 2 ^ 64 -> read_title (title major n +:+ rest) = Some (major, n, rest).
Proof.
  intros Hm Hn. unfold title.
  assert (forall m k, m < 32 -> n < 256 ^ N.of_nat k -> 24 <= m ->
    (if m =? 24 then read_be 1 0 (be k n +:+ rest) else if m =? 25 then read_be 2 0 (be k n +:+ rest)
         else if m =? 26 then read_be 4 0 (be k n +:+ rest) else if m =? 27 then read_be 8 0 (be k n +:+ rest) else None) = read_be k 0 (be k n +:+ rest) ->
    read_title (String (ascii_of_N (major * 32 + m)) (be k n) +:+ rest) = Some (major, n, rest)) as H.
  { intros m k H1 H2 H3 H4. change (String ?c ?s +:+ rest) with (String c (s +:+ rest)). rewrite read_title_eq. cbv zeta.
    destruct (first_byte major m Hm H1) as [-> ->]. replace (m <? 24) with false by (symmetry; apply N.ltb_ge; lia).
    rewrite H4, read_be_be by done. cbn [mbind option_bind fst snd]. rewrite N.mul_0_l, N.add_0_l. done. }
  destruct (N.ltb_spec n 24) as [H1|H1].
  { change (String ?c "" +:+ rest) with (String c rest). rewrite read_title_eq. cbv zeta.
    destruct (first_byte major n Hm) as [-> ->]; [lia|]. by replace (n <? 24) with true by (symmetry; apply N.ltb_lt; lia). }
  destruct (N.ltb_spec n (2 ^ 8)) as [H2|H2]; [apply H; [lia|exact H2|lia|done]|].
  destruct (N.ltb_spec n (2 ^ 16)) as [H3|H3]; [apply H; [lia|exact H3|lia|done]|].
  destruct (N.ltb_spec n (2 ^ 32)) as [H4|H4]; [apply H; [lia|exact H4|lia|done]|].
  apply H; [lia|exact Hn|lia|done].
Qed.
Lemma title_nonempty major n : exists c s, title major n = String c s.
Proof. unfold title. repeat case_match; eauto. Qed.
Lemma bytes_title major n : bytes (title major n) = cbor_head n.
Proof.
  unfold title, cbor_head, bytes. repeat case_match; cbn [String.length]; rewrite ?length_be; done.
Qed.
Lemma read_chars_app s : forall rest, read_chars (String.length s) (s +:+ rest) = Some (s, rest).
Proof. induction s as [|c s IH]; intros rest; [done|]. rewrite append_cons. cbn [read_chars String.length]. by rewrite IH. Qed.
Lemma read_text_text s rest : bytes s < 2 ^ 64 -> read_text (write_text s +:+ rest) = Some (s, rest).
Proof.
  intros H. unfold read_text, write_text. rewrite append_assoc, read_title_title by done. cbn [mbind option_bind].
  change (3 =? 3) with true. cbv iota. rewrite Nat2N.id. apply read_chars_app.
Qed.
Lemma bytes_text s : bytes (write_text s) = cbor_string s.
Proof. unfold write_text. rewrite bytes_append, bytes_title. done. Qed.

Lemma carries_list lo hi l : in_format lo hi (WList l) <-> Forall (in_format lo hi) l.
Proof.
  induction l as [|x l IH]; [by split|]. rewrite Forall_cons, <- IH. done.
Qed.
Lemma carries_obj lo hi l : in_format lo hi (WObj l) <-> Forall (fun x => in_format lo hi x.2) l.
Proof.
  induction l as [|x l IH]; [by split|]. rewrite Forall_cons, <- IH. done.
Qed.
Lemma depth_list d l : (depth_of (WList l) <= S d)%nat <-> Forall (fun x => depth_of x <= d)%nat l.
Proof.
  induction l as [|x l IH]; [cbn; split; [done|lia]|]. rewrite Forall_cons, <- IH. cbn. lia.
Qed.
Lemma depth_obj d l : (depth_of (WObj l) <= S d)%nat <-> Forall (fun x => depth_of x.2 <= d)%nat l.
Proof.
  induction l as [|x l IH]; [cbn; split; [done|lia]|]. rewrite Forall_cons, <- IH. cbn. lia.
Qed.

(** The lengths agree with Wire.v. *)
Lemma bytes_cbor w : cbor_carries w -> bytes (cbor_write w) = cbor_len w.
Proof.
  induction w as [ |z|s|l IH|l IH] using wire_induction; intros H.
  - done.
  - cbn [cbor_write cbor_len]. destruct (z <? 0)%Z; apply bytes_title.
  - apply bytes_text.
  - cbn [cbor_write cbor_len]. rewrite bytes_append, bytes_title, bytes_cat. f_equal. f_equal.
    apply carries_list in H. change (@List.map) with (fun A B f l => @fmap list list_fmap A B f l). cbv beta. rewrite <- list_fmap_compose.
    apply list_fmap_ext. intros i x Hx. rewrite Forall_lookup in IH, H. apply (IH i x Hx), (H i x Hx).
  - cbn [cbor_write cbor_len]. rewrite bytes_append, bytes_title, bytes_cat. f_equal. f_equal.
    apply carries_obj in H. change (@List.map) with (fun A B f l => @fmap list list_fmap A B f l). cbv beta. rewrite <- list_fmap_compose.
    apply list_fmap_ext. intros i x Hx. rewrite Forall_lookup in IH, H. unfold compose. rewrite bytes_append, bytes_text. f_equal. apply (IH i x Hx), (H i x Hx).
Qed.
Lemma cbor_pos w : cbor_carries w -> 1 <= cbor_len w.
Proof.
  destruct w; cbn [cbor_len]; unfold cbor_string; try done; try (pose proof (cbor_head_le (N.of_nat (length l))); lia).
  - intros _. apply cbor_head_le.
  - pose proof (cbor_head_le (N.of_nat (String.length s))); lia.
Qed.
Lemma sum_in {A} (f : A -> N) x l : x ∈ l -> f x <= sum_n (f <$> l).
Proof. induction 1 as [x l|x y l _ IH]; rewrite fmap_cons, sum_cons; lia. Qed.
Lemma cbor_read_eq d s : cbor_read d s =
  '(major, n, r) ← read_title s;
  if major =? 0 then Some (WNum (Z.of_N n), r)
  else if major =? 1 then Some (WNum (-1 - Z.of_N n), r)
  else if major =? 3 then x ← read_chars (N.to_nat n) r; Some (WText x.1, x.2)
  else if (major =? 7) && (n =? 22) then Some (WNull, r)
  else
    match d with
    | O => None
    | S depth =>
      if major =? 4 then x ← cbor_items (cbor_read depth) (N.to_nat n) r; Some (WList x.1, x.2)
      else if major =? 5 then x ← cbor_members (cbor_read depth) (N.to_nat n) r; Some (WObj x.1, x.2)
      else None
    end.
Proof. by destruct d. Qed.
Lemma cbor_items_all (rd : string -> option (wire * string)) l rest :
  Forall (fun x => forall rest, rd (cbor_write x +:+ rest) = Some (x, rest)) l ->
  cbor_items rd (length l) (cat (List.map cbor_write l) +:+ rest) = Some (l, rest).
Proof.
  induction 1 as [|x l Hx Hl IH]; [done|]. cbn [length List.map cbor_items]. rewrite cat_cons, append_assoc, Hx. cbn [mbind option_bind]. by rewrite IH.
Qed.
Lemma cbor_members_all (rd : string -> option (wire * string)) l rest :
  Forall (fun x => bytes x.1 < 2 ^ 64 /\ forall rest, rd (cbor_write x.2 +:+ rest) = Some (x.2, rest)) l ->
  cbor_members rd (length l) (cat (List.map (fun x => write_text x.1 +:+ cbor_write x.2) l) +:+ rest) = Some (l, rest).
Proof.
  induction 1 as [|[t x] l [Ht Hx] Hl IH]; [done|]. cbn [length List.map cbor_members fst snd] in *. rewrite cat_cons, !append_assoc, read_text_text by done.
  cbn [mbind option_bind]. rewrite Hx. cbn [mbind option_bind]. by rewrite IH.
Qed.
Lemma cbor_read_write w : cbor_carries w -> cbor_len w < 2 ^ 64 -> forall d rest, (depth_of w <= d)%nat ->
  cbor_read d (cbor_write w +:+ rest) = Some (w, rest).
Proof.
  induction w as [ |z|s|l IH|l IH] using wire_induction; intros H Hlen d rest Hd; rewrite cbor_read_eq.
  - done.
  - cbn [cbor_write]. unfold cbor_carries in H. cbn [in_format] in H. destruct (Z.ltb_spec z 0).
    + rewrite read_title_title by lia. cbn [mbind option_bind]. change (1 =? 0) with false. change (1 =? 1) with true. cbv iota. do 3 f_equal. lia.
    + rewrite read_title_title by lia. cbn [mbind option_bind]. change (0 =? 0) with true. cbv iota. do 3 f_equal. lia.
  - cbn [cbor_write]. unfold write_text. cbn [cbor_len] in Hlen. unfold cbor_string in Hlen. rewrite append_assoc, read_title_title by lia. cbn [mbind option_bind].
    change (3 =? 0) with false. change (3 =? 1) with false. change (3 =? 3) with true. cbv iota. by rewrite Nat2N.id, read_chars_app.
  - apply carries_list in H. destruct d as [|d]; [cbn in Hd; lia|]. apply depth_list in Hd.
    cbn [cbor_len] in Hlen. pose proof (sum_ge cbor_len 1 l) as Hs.
    assert (forall a, a ∈ l -> 1 <= cbor_len a) as Hp by (intros a Ha; rewrite Forall_forall in H; by apply cbor_pos, H).
    specialize (Hs Hp). cbn [cbor_write]. rewrite append_assoc, read_title_title by lia. cbn [mbind option_bind].
    change (4 =? 0) with false. change (4 =? 1) with false. change (4 =? 3) with false. change (4 =? 7) with false. change (4 =? 4) with true. cbv iota. cbn [andb].
    rewrite Nat2N.id, cbor_items_all; [done|]. apply Forall_forall. rewrite Forall_forall in IH, H, Hd. intros x Hx rest'. apply IH; [done|by apply H| |by apply Hd].
    pose proof (sum_in cbor_len x l Hx). lia.
  - apply carries_obj in H. destruct d as [|d]; [cbn in Hd; lia|]. apply depth_obj in Hd.
    cbn [cbor_len] in Hlen. pose proof (sum_ge (fun x => cbor_string x.1 + cbor_len x.2) 1 l) as Hs.
    assert (forall a, a ∈ l -> 1 <= cbor_string a.1 + cbor_len a.2) as Hp.
    { intros a Ha; rewrite Forall_forall in H. assert (1 <= cbor_len a.2) by by apply cbor_pos, H. lia. }
    specialize (Hs Hp). cbn [cbor_write]. rewrite append_assoc, read_title_title by lia. cbn [mbind option_bind].
    change (5 =? 0) with false. change (5 =? 1) with false. change (5 =? 3) with false. change (5 =? 7) with false. change (5 =? 4) with false. change (5 =? 5) with true. cbv iota. cbn [andb].
    rewrite Nat2N.id, cbor_members_all; [done|]. apply Forall_forall. rewrite Forall_forall in IH, H, Hd. intros x Hx.
    pose proof (sum_in (fun x => cbor_string x.1 + cbor_len x.2) x l Hx) as Hi. cbv beta in Hi. unfold cbor_string, bytes in *. split; [lia|].
    intros rest'. apply IH; [done|by apply H|lia|by apply Hd].
Qed.
(** What is read does not depend on what follows. *)
Lemma read_be_more k : forall acc s n r q, read_be k acc s = Some (n, r) -> read_be k acc (s +:+ q) = Some (n, r +:+ q).
Proof.
  induction k as [|k IH]; intros acc s n r q H; cbn [read_be] in *; [by injection H as <- <-|].
  destruct s as [|c s]; [done|]. rewrite append_cons. by apply IH.
Qed.
Lemma read_title_more s m n r q : read_title s = Some (m, n, r) -> read_title (s +:+ q) = Some (m, n, r +:+ q).
Proof.
  destruct s as [|c s]; [done|]. rewrite append_cons, !read_title_eq. cbv zeta. destruct (N_of_ascii c mod 32 <? 24).
  - intros H. by injection H as <- <- <-.
  - intros H. repeat match goal with |- context [if ?b then _ else _] => destruct b end; try done;
    match type of H with context [read_be ?k 0 s] => destruct (read_be k 0 s) as [[x y]|] eqn:E; [|done] end;
    apply (read_be_more _ _ _ _ _ q) in E; rewrite E; cbn [mbind option_bind fst snd] in *; congruence.
Qed.
Lemma read_chars_more k : forall s x r q, read_chars k s = Some (x, r) -> read_chars k (s +:+ q) = Some (x, r +:+ q).
Proof.
  induction k as [|k IH]; intros s x r q H; cbn [read_chars] in *; [by injection H as <- <-|].
  destruct s as [|c s]; [done|]. rewrite append_cons. destruct (read_chars k s) as [[x' r']|] eqn:E; [|done].
  rewrite (IH _ _ _ q E). cbn [mbind option_bind fst snd] in *. congruence.
Qed.
Lemma read_text_more s x r q : read_text s = Some (x, r) -> read_text (s +:+ q) = Some (x, r +:+ q).
Proof.
  unfold read_text. destruct (read_title s) as [[[m n] r']|] eqn:E; [|done]. rewrite (read_title_more _ _ _ _ q E). cbn [mbind option_bind].
  destruct (m =? 3); [apply read_chars_more|done].
Qed.
Lemma cbor_read_more d : forall s w r q, cbor_read d s = Some (w, r) -> cbor_read d (s +:+ q) = Some (w, r +:+ q).
Proof.
  assert (forall d, (forall s w r q, cbor_read d s = Some (w, r) -> cbor_read d (s +:+ q) = Some (w, r +:+ q)) ->
    forall n s l r q, cbor_items (cbor_read d) n s = Some (l, r) -> cbor_items (cbor_read d) n (s +:+ q) = Some (l, r +:+ q)) as Hitems.
  { intros d' IH. induction n as [|n IHn]; intros s l r q H; cbn [cbor_items] in *; [by injection H as <- <-|].
    destruct (cbor_read d' s) as [[w s']|] eqn:E; [|done]. rewrite (IH _ _ _ q E). cbn [mbind option_bind] in *.
    destruct (cbor_items (cbor_read d') n s') as [[l' r']|] eqn:E'; [|done]. rewrite (IHn _ _ _ q E'). cbn [mbind option_bind] in *. congruence. }
  assert (forall d, (forall s w r q, cbor_read d s = Some (w, r) -> cbor_read d (s +:+ q) = Some (w, r +:+ q)) ->
    forall n s l r q, cbor_members (cbor_read d) n s = Some (l, r) -> cbor_members (cbor_read d) n (s +:+ q) = Some (l, r +:+ q)) as Hmembers.
  { intros d' IH. induction n as [|n IHn]; intros s l r q H; cbn [cbor_members] in *; [by injection H as <- <-|].
    destruct (read_text s) as [[t s0]|] eqn:E0; [|done]. rewrite (read_text_more _ _ _ q E0). cbn [mbind option_bind] in *.
    destruct (cbor_read d' s0) as [[w s']|] eqn:E; [|done]. rewrite (IH _ _ _ q E). cbn [mbind option_bind] in *.
    destruct (cbor_members (cbor_read d') n s') as [[l' r']|] eqn:E'; [|done]. rewrite (IHn _ _ _ q E'). cbn [mbind option_bind] in *. congruence. }
  induction d as [|d IH]; intros s w r q; rewrite !cbor_read_eq; (destruct (read_title s) as [[[m n] r']|] eqn:E; [|done]);
    rewrite (read_title_more _ _ _ _ q E); cbn [mbind option_bind]; destruct (m =? 0); try (intros H; congruence);
    destruct (m =? 1); try (intros H; congruence).
  - destruct (m =? 3).
    + destruct (read_chars _ r') as [[x y]|] eqn:E1; [|done]. rewrite (read_chars_more _ _ _ _ q E1). cbn [mbind option_bind fst snd]. intros H; congruence.
    + destruct ((m =? 7) && (n =? 22)); [|done]. intros H; congruence.
  - destruct (m =? 3).
    + destruct (read_chars _ r') as [[x y]|] eqn:E1; [|done]. rewrite (read_chars_more _ _ _ _ q E1). cbn [mbind option_bind fst snd]. intros H; congruence.
    + destruct ((m =? 7) && (n =? 22)); [intros H; congruence|]. destruct (m =? 4).
      * destruct (cbor_items _ _ r') as [[x y]|] eqn:E1; [|done]. rewrite (Hitems d IH _ _ _ _ q E1). cbn [mbind option_bind fst snd]. intros H; congruence.
      * destruct (m =? 5); [|done].
        destruct (cbor_members _ _ r') as [[x y]|] eqn:E1; [|done]. rewrite (Hmembers d IH _ _ _ _ q E1). cbn [mbind option_bind fst snd]. intros H; congruence.
Qed.

(** *** JSON *)
Lemma read_escaped c s rest : read_quoted (escaped c +:+ s +:+ rest) = x ← read_quoted (s +:+ rest); Some (String c x.1, x.2).
Proof.
  destruct c as [[] [] [] [] [] [] [] []]; reflexivity.
Qed.
Lemma read_quoted_cat s rest : read_quoted (cat (List.map escaped (list_ascii_of_string s)) +:+ String quote_char rest) = Some (s, rest).
Proof.
  induction s as [|c s IH]; [done|]. cbn [list_ascii_of_string List.map]. rewrite cat_cons, append_assoc, read_escaped, IH. done.
Qed.
Lemma bytes_escaped c : bytes (escaped c) = json_char c.
Proof. destruct c as [[] [] [] [] [] [] [] []]; reflexivity. Qed.
Lemma bytes_quoted s : bytes (write_quoted s) = json_string s.
Proof.
  unfold write_quoted, json_string. rewrite bytes_cons, bytes_append, bytes_cat. change (bytes (String quote_char "")) with 1.
  change (List.map escaped (list_ascii_of_string s)) with (escaped <$> list_ascii_of_string s). rewrite <- list_fmap_compose.
  rewrite (list_fmap_ext (bytes ∘ escaped) json_char (list_ascii_of_string s)); [lia|]. intros i c _. apply bytes_escaped.
Qed.
(** What may follow a value. *)
Definition ends (s : string) : Prop := match s with EmptyString => True | String c _ => c = ","%char \/ c = "]"%char \/ c = "}"%char end.
Lemma span_show s rest : all_chars digit_char s -> ends rest -> span_digits (s +:+ rest) = (s, rest).
Proof.
  induction s as [|c s IH]; intros Hs Hr.
  - destruct rest as [|c r]; [done|]. rewrite append_empty. by destruct Hr as [->|[->| ->]].
  - destruct Hs as [Hc Hs]. rewrite append_cons. cbn [span_digits]. rewrite IH by done. unfold is_digit, digit_char in *.
    replace ((48 <=? N_of_ascii c) && (N_of_ascii c <? 58)) with true; [done|].
    symmetry. apply andb_true_iff. split; [apply N.leb_le|apply N.ltb_lt]; lia.
Qed.
(** No zeros in front. *)
Lemma show_head n : n <> 0 -> exists c s, show_n n = String c s /\ c <> "0"%char.
Proof.
  intros Hn. unfold show_n, NilZero.string_of_uint.
  pose proof (DecimalN.Unsigned.of_to n) as Hof. pose proof (DecimalN.Unsigned.to_of (N.to_uint n)) as Hto. rewrite Hof in Hto.
  destruct (N.to_uint n) as [|u|u|u|u|u|u|u|u|u|u] eqn:E; cbn [NilEmpty.string_of_uint]; try (eexists _, _; split; [done|done]).
  - exfalso. change (Decimal.unorm (Decimal.D0 u)) with (Decimal.unorm u) in Hto. unfold Decimal.unorm in Hto.
    destruct (Decimal.nzhead u) as [|v|v|v|v|v|v|v|v|v|v] eqn:Ez; try discriminate Hto.
    + assert (u = Decimal.Nil) as -> by congruence. cbn in Hof. congruence.
    + by apply DecimalFacts.nzhead_nonzero in Ez.
Qed.
Lemma read_nat_show n rest : ends rest -> read_nat (show_n n +:+ rest) = Some (n, rest).
Proof.
  intros Hr. unfold read_nat. rewrite span_show by (done || apply show_digits). cbn [fst snd].
  assert (leading_zero (show_n n) = false) as ->.
  { destruct (N.eq_dec n 0) as [->|Hn]; [done|]. destruct (show_head n Hn) as (c & s & -> & Hc). destruct s as [|e s]; [done|]. cbn [leading_zero].
    apply N.eqb_neq. intros H. apply Hc. rewrite <- (ascii_N_embedding c), H. done. }
  assert (float_follows rest = false) as -> by (destruct rest as [|c r]; [done|]; by destruct Hr as [->|[->| ->]]).
  cbn [orb]. rewrite read_show. done.
Qed.
Lemma show_first n rest : exists c s, show_n n +:+ rest = String c s /\ digit_char c.
Proof.
  pose proof (show_digits n) as H. pose proof (show_nonempty n) as H'. destruct (show_n n) as [|c s]; [done|]. exists c, (s +:+ rest). split; [done|apply H].
Qed.
Lemma read_int_write z rest : (- 2 ^ 63 <= z < 2 ^ 64)%Z -> ends rest -> read_int (write_int z +:+ rest) = Some (z, rest).
Proof.
  intros Hz Hr. unfold write_int.
  assert (((- 2 ^ 63 <=? z) && (z <? 2 ^ 64))%Z = true) as Hrange by (apply andb_true_iff; lia).
  destruct (Z.ltb_spec z 0).
  - rewrite append_assoc. change ("-" +:+ ?s) with (String "-" s). unfold read_int. change (N_of_ascii "-" =? 45) with true. cbv iota.
    rewrite read_nat_show by done. cbn [mbind option_bind fst snd]. replace (- Z.of_N (Z.abs_N z))%Z with z by lia. by rewrite Hrange.
  - rewrite append_assoc, append_empty. destruct (show_first (Z.abs_N z) rest) as (c & s & E & Hc). unfold read_int. rewrite E. unfold digit_char in Hc.
    replace (N_of_ascii c =? 45) with false by (symmetry; apply N.eqb_neq; lia). rewrite <- E, read_nat_show by done.
    cbn [mbind option_bind fst snd]. replace (Z.of_N (Z.abs_N z))%Z with z by lia. by rewrite Hrange.
Qed.
Lemma bytes_int z : bytes (write_int z) = json_len (WNum z).
Proof. unfold write_int. rewrite bytes_append. cbn [json_len]. unfold len_n. destruct (z <? 0)%Z; [change (bytes "-") with 1|change (bytes "") with 0]; unfold bytes; lia. Qed.

Lemma join_cons x y l : commas (x :: y :: l) = x +:+ "," +:+ commas (y :: l).
Proof. done. Qed.
Lemma bytes_join l : 2 + bytes (commas l) = listed (bytes <$> l).
Proof.
  unfold listed. rewrite fmap_length. induction l as [|x l IH]; [done|]. destruct l as [|y l].
  - change (commas [x]) with x. cbn. lia.
  - rewrite join_cons, !bytes_append, fmap_cons, sum_cons. change (bytes ",") with 1. cbn [length] in *. lia.
Qed.
Lemma bytes_json w : json_carries w -> bytes (json_write w) = json_len w.
Proof.
  induction w as [ |z|s|l IH|l IH] using wire_induction; intros H.
  - done.
  - apply bytes_int.
  - apply bytes_quoted.
  - cbn [json_write json_len]. rewrite !bytes_append. change (bytes "[") with 1. change (bytes "]") with 1.
    transitivity (2 + bytes (commas (List.map json_write l))); [lia|]. rewrite bytes_join. f_equal.
    apply carries_list in H. change (List.map json_write l) with (json_write <$> l). rewrite <- list_fmap_compose.
    apply list_fmap_ext. intros i x Hx. rewrite Forall_lookup in IH, H. apply (IH i x Hx), (H i x Hx).
  - cbn [json_write json_len]. rewrite !bytes_append. change (bytes "{") with 1. change (bytes "}") with 1.
    match goal with |- context [commas ?x] => transitivity (2 + bytes (commas x)); [lia|] end. rewrite bytes_join. f_equal.
    apply carries_obj in H. change (@List.map) with (fun A B f l => @fmap list list_fmap A B f l). cbv beta. rewrite <- list_fmap_compose.
    apply list_fmap_ext. intros i x Hx. rewrite Forall_lookup in IH, H. unfold compose. rewrite !bytes_append, bytes_quoted. change (bytes ":") with 1.
    rewrite (IH i x Hx (H i x Hx)). lia.
Qed.
(** The first character of a value. *)
Lemma json_first w rest : json_carries w -> exists c s, json_write w +:+ rest = String c s /\ c <> "]"%char.
Proof.
  destruct w as [ |z|s|l|l]; intros H; try (eexists _, _; split; [reflexivity|done]).
  cbn [json_write]. unfold write_int. destruct (z <? 0)%Z; [eexists _, _; split; [reflexivity|done]|]. rewrite append_empty.
  destruct (show_first (Z.abs_N z) rest) as (c & s & E & Hc). exists c, s. split; [done|]. intros ->. by destruct Hc as [_ Hc].
Qed.
Lemma json_items_all (rd : string -> option (wire * string)) l rest : l <> [] -> forall fuel, (length l <= fuel)%nat ->
  Forall (fun x => forall rest, ends rest -> rd (json_write x +:+ rest) = Some (x, rest)) l ->
  json_items rd fuel (commas (List.map json_write l) +:+ String "]" rest) = Some (l, rest).
Proof.
  induction l as [|x l IH]; [done|]. intros _ fuel Hf H. apply Forall_cons in H as [Hx H]. destruct fuel as [|fuel]; [cbn in Hf; lia|].
  cbn [length] in Hf. cbn [List.map json_items]. destruct l as [|y l].
  - change (commas (json_write x :: List.map json_write [])) with (json_write x). rewrite Hx by (cbn; auto). done.
  - cbn [List.map]. rewrite join_cons, !append_assoc. change ("," +:+ ?s) with (String "," s). rewrite Hx by (cbn; auto). cbn [mbind option_bind].
    change (json_write y :: List.map json_write l) with (List.map json_write (y :: l)). rewrite IH; [done|done|cbn [length] in *; lia|done].
Qed.
Lemma read_key_write t s : read_key (write_quoted t +:+ ":" +:+ s) = Some (t, s).
Proof.
  unfold write_quoted, read_key. rewrite append_cons. change (N_of_ascii quote_char =? 34) with true. cbv iota.
  rewrite append_assoc. change (String quote_char "" +:+ ?s) with (String quote_char s). rewrite read_quoted_cat. done.
Qed.
Lemma json_members_all (rd : string -> option (wire * string)) l rest : l <> [] -> forall fuel, (length l <= fuel)%nat ->
  Forall (fun x => forall rest, ends rest -> rd (json_write x.2 +:+ rest) = Some (x.2, rest)) l ->
  json_members rd fuel (commas (List.map (fun x => write_quoted x.1 +:+ ":" +:+ json_write x.2) l) +:+ String "}" rest) = Some (l, rest).
Proof.
  set (f := fun x : string * wire => write_quoted x.1 +:+ ":" +:+ json_write x.2).
  induction l as [|[t x] l IH]; [done|]. intros _ fuel Hf H. apply Forall_cons in H as [Hx H]. destruct fuel as [|fuel]; [cbn in Hf; lia|].
  cbn [length fst snd] in *. cbn [List.map json_members]. destruct l as [|y l].
  - change (commas (f (t, x) :: List.map f [])) with (write_quoted t +:+ ":" +:+ json_write x). rewrite !append_assoc, read_key_write.
    cbn [mbind option_bind]. rewrite Hx by (cbn; auto). done.
  - cbn [List.map]. rewrite join_cons. unfold f at 1. cbn [fst snd]. rewrite !append_assoc, read_key_write. cbn [mbind option_bind].
    change ("," +:+ ?s) with (String "," s). rewrite Hx by (cbn; auto). cbn [mbind option_bind].
    change (f y :: List.map f l) with (List.map f (y :: l)). rewrite IH; [done|done|cbn [length] in *; lia|done].
Qed.
Lemma json_read_eq d s : json_read d s =
  match s with
  | EmptyString => None
  | String c r =>
    if N_of_ascii c =? 34 then x ← read_quoted r; Some (WText x.1, x.2)
    else if is_digit c || (N_of_ascii c =? 45) then x ← read_int s; Some (WNum x.1, x.2)
    else if N_of_ascii c =? 110 then match r with String "u" (String "l" (String "l" r)) => Some (WNull, r) | _ => None end
    else
      match d with
      | O => None
      | S depth =>
        if N_of_ascii c =? 91 then
          match r with
          | String "]" r => Some (WList [], r)
          | _ => x ← json_items (json_read depth) (String.length r) r; Some (WList x.1, x.2)
          end
        else if N_of_ascii c =? 123 then
          match r with
          | String "}" r => Some (WObj [], r)
          | _ => x ← json_members (json_read depth) (String.length r) r; Some (WObj x.1, x.2)
          end
        else None
      end
  end.
Proof. by destruct d. Qed.
Lemma length_commas {A} (f : A -> string) l : (forall x, x ∈ l -> f x <> "") -> (length l <= String.length (commas (List.map f l)))%nat.
Proof.
  induction l as [|x l IH]; intros H; [done|]. assert (1 <= String.length (f x))%nat as Hx.
  { pose proof (H x (elem_of_list_here _ _)). destruct (f x); [done|cbn; lia]. }
  destruct l as [|y l]; [cbn; lia|]. cbn [List.map]. rewrite join_cons, !length_append. change (String.length ",") with 1%nat.
  specialize (IH (fun z Hz => H z (elem_of_list_further _ _ _ Hz))). cbn [length List.map] in *. lia.
Qed.
Lemma json_read_write w : json_carries w -> forall d rest, (depth_of w <= d)%nat -> ends rest -> json_read d (json_write w +:+ rest) = Some (w, rest).
Proof.
  induction w as [ |z|s|l IH|l IH] using wire_induction; intros H d rest Hd Hr.
  - by rewrite json_read_eq.
  - cbn [json_write]. unfold json_carries in H. cbn [in_format] in H.
    pose proof (read_int_write z rest H Hr) as E. revert E. unfold write_int. destruct (z <? 0)%Z.
    + rewrite append_assoc. change ("-" +:+ ?s) with (String "-" s). intros E. rewrite json_read_eq, E. done.
    + rewrite append_empty. destruct (show_first (Z.abs_N z) rest) as (c & s & -> & Hc). intros E. rewrite json_read_eq, E.
      unfold digit_char in Hc. replace (N_of_ascii c =? 34) with false by (symmetry; apply N.eqb_neq; lia).
      unfold is_digit. cbv zeta. replace (48 <=? N_of_ascii c) with true by (symmetry; apply N.leb_le; lia).
      replace (N_of_ascii c <? 58) with true by (symmetry; apply N.ltb_lt; lia). done.
  - cbn [json_write]. unfold write_quoted. rewrite append_cons, json_read_eq. change (N_of_ascii quote_char =? 34) with true. cbv iota.
    rewrite append_assoc. change (String quote_char "" +:+ ?s) with (String quote_char s). rewrite read_quoted_cat. done.
  - apply carries_list in H. destruct d as [|d]; [cbn in Hd; lia|]. apply depth_list in Hd.
    cbn [json_write]. rewrite !append_assoc. change ("[" +:+ ?s) with (String "[" s). change ("]" +:+ ?s) with (String "]" s). rewrite json_read_eq.
    change (N_of_ascii "[" =? 34) with false. change (is_digit "[" || (N_of_ascii "[" =? 45)) with false. change (N_of_ascii "[" =? 110) with false.
    change (N_of_ascii "[" =? 91) with true. cbv iota. destruct l as [|x l]; [done|].
    set (r := commas (List.map json_write (x :: l)) +:+ String "]" rest).
    assert (json_items (json_read d) (String.length r) r = Some (x :: l, rest)) as E.
    { apply json_items_all; [done| |].
      - unfold r. rewrite length_append. pose proof (length_commas json_write (x :: l)) as Hl.
        assert (forall y, y ∈ x :: l -> json_write y <> "") as Hy; [|specialize (Hl Hy); lia].
        intros y Hy. rewrite Forall_forall in H. destruct (json_first y "" (H y Hy)) as (c & s & E & _). rewrite append_nil in E. by rewrite E.
      - apply Forall_forall. rewrite Forall_forall in IH, H, Hd. intros y Hy rest' Hr'. apply IH; [done|by apply H|by apply Hd|done]. }
    rewrite E. apply Forall_cons in H as [Hx H].
    assert (exists c s, r = String c s /\ c <> "]"%char) as (c & s & -> & Hc).
    { unfold r. destruct l as [|y l]; [apply (json_first x _ Hx)|]. cbn [List.map]. rewrite join_cons, append_assoc. apply (json_first x _ Hx). }
    destruct c as [[] [] [] [] [] [] [] []]; try reflexivity. done.
  - apply carries_obj in H. destruct d as [|d]; [cbn in Hd; lia|]. apply depth_obj in Hd.
    cbn [json_write]. rewrite !append_assoc. change ("{" +:+ ?s) with (String "{" s). change ("}" +:+ ?s) with (String "}" s). rewrite json_read_eq.
    change (N_of_ascii "{" =? 34) with false. change (is_digit "{" || (N_of_ascii "{" =? 45)) with false. change (N_of_ascii "{" =? 110) with false.
    change (N_of_ascii "{" =? 91) with false. change (N_of_ascii "{" =? 123) with true. cbv iota. destruct l as [|x l]; [done|].
    set (f := fun x : string * wire => write_quoted x.1 +:+ ":" +:+ json_write x.2).
    set (r := commas (List.map f (x :: l)) +:+ String "}" rest).
    assert (json_members (json_read d) (String.length r) r = Some (x :: l, rest)) as E.
    { apply json_members_all; [done| |].
      - unfold r. rewrite length_append. pose proof (length_commas f (x :: l)) as Hl.
        assert (forall y, y ∈ x :: l -> f y <> "") as Hy; [|specialize (Hl Hy); lia]. done.
      - apply Forall_forall. rewrite Forall_forall in IH, H, Hd. intros y Hy rest' Hr'. apply (IH y); [done|by apply H|by apply Hd|done]. }
    rewrite E. assert (exists s, r = String quote_char s) as (s & ->); [|reflexivity].
    unfold r. destruct l as [|y l]; [by eexists|]. cbn [List.map]. rewrite join_cons, append_assoc. by eexists.
Qed.

(** *** Too deep *)
Lemma cbor_read_deep w : cbor_carries w -> cbor_len w < 2 ^ 64 -> forall d rest, (d < depth_of w)%nat -> cbor_read d (cbor_write w +:+ rest) = None.
Proof.
  induction w as [ |z|s|l IH|l IH] using wire_induction; intros H Hlen d rest Hd; try (cbn in Hd; lia); rewrite cbor_read_eq.
  - pose proof H as H'. apply carries_list in H.
    cbn [cbor_len] in Hlen. pose proof (sum_ge cbor_len 1 l) as Hs.
    assert (forall a, a ∈ l -> 1 <= cbor_len a) as Hp by (intros a Ha; rewrite Forall_forall in H; by apply cbor_pos, H).
    specialize (Hs Hp). cbn [cbor_write]. rewrite append_assoc, read_title_title by lia. cbn [mbind option_bind].
    change (4 =? 0) with false. change (4 =? 1) with false. change (4 =? 3) with false. change (4 =? 7) with false. change (4 =? 4) with true. cbv iota. cbn [andb].
    destruct d as [|d]; [done|]. rewrite Nat2N.id.
    assert (~ Forall (fun x => depth_of x <= d)%nat l) as Hdeep by (rewrite <- depth_list; lia).
    assert (Forall (fun x => cbor_len x < 2 ^ 64) l) as Hl by (apply Forall_forall; intros x Hx; pose proof (sum_in cbor_len x l Hx); lia).
    clear Hd Hs Hp Hlen H'. assert (cbor_items (cbor_read d) (length l) (cat (List.map cbor_write l) +:+ rest) = None) as ->; [|done].
    induction l as [|x l IHl]; [by destruct Hdeep|]. apply Forall_cons in IH as [IHx IH]. apply Forall_cons in H as [Hx H]. apply Forall_cons in Hl as [Hlx Hl].
    cbn [length List.map cbor_items]. rewrite cat_cons, append_assoc. destruct (decide (depth_of x <= d)%nat) as [Hle|Hgt].
    + rewrite cbor_read_write by done. cbn [mbind option_bind]. rewrite IHl; try done. intros Hf. apply Hdeep. by constructor.
    + rewrite IHx by (done || lia). done.
  - pose proof H as H'. apply carries_obj in H.
    cbn [cbor_len] in Hlen. pose proof (sum_ge (fun x => cbor_string x.1 + cbor_len x.2) 1 l) as Hs.
    assert (forall a, a ∈ l -> 1 <= cbor_string a.1 + cbor_len a.2) as Hp.
    { intros a Ha; rewrite Forall_forall in H. assert (1 <= cbor_len a.2) by by apply cbor_pos, H. lia. }
    specialize (Hs Hp). cbn [cbor_write]. rewrite append_assoc, read_title_title by lia. cbn [mbind option_bind].
    change (5 =? 0) with false. change (5 =? 1) with false. change (5 =? 3) with false. change (5 =? 7) with false. change (5 =? 4) with false. change (5 =? 5) with true. cbv iota. cbn [andb].
    destruct d as [|d]; [done|]. rewrite Nat2N.id.
    assert (~ Forall (fun x => depth_of x.2 <= d)%nat l) as Hdeep by (rewrite <- depth_obj; lia).
    assert (Forall (fun x => bytes x.1 < 2 ^ 64 /\ cbor_len x.2 < 2 ^ 64) l) as Hl.
    { apply Forall_forall; intros x Hx; pose proof (sum_in (fun x => cbor_string x.1 + cbor_len x.2) x l Hx) as Hi; cbv beta in Hi.
      unfold cbor_string, bytes in *. lia. }
    clear Hd Hs Hp Hlen H'.
    assert (cbor_members (cbor_read d) (length l) (cat (List.map (fun x => write_text x.1 +:+ cbor_write x.2) l) +:+ rest) = None) as ->; [|done].
    induction l as [|[t x] l IHl]; [by destruct Hdeep|]. apply Forall_cons in IH as [IHx IH]. apply Forall_cons in H as [Hx H]. apply Forall_cons in Hl as [[Ht Hlx] Hl].
    cbn [length List.map cbor_members fst snd] in *. rewrite cat_cons, !append_assoc, read_text_text by done. cbn [mbind option_bind].
    destruct (decide (depth_of x <= d)%nat) as [Hle|Hgt].
    + rewrite cbor_read_write by done. cbn [mbind option_bind]. rewrite IHl; try done. intros Hf. apply Hdeep. by constructor.
    + rewrite IHx by (done || lia). done.
Qed.

(** *** The messages *)
Definition wide (lo hi : Z) : Prop := (lo <= - 2 ^ 63)%Z /\ (2 ^ 64 <= hi)%Z.
Lemma carries_n lo hi n : wide lo hi -> n < 2 ^ 64 -> in_format lo hi (enc_n n).
Proof. intros [H1 H2] Hn. cbn [enc_n in_format]. lia. Qed.
Lemma carries_bytes lo hi s : wide lo hi -> in_format lo hi (enc_bytes s).
Proof.
  intros H. apply carries_list, Forall_fmap, Forall_true. intros c. apply carries_n; [done|]. pose proof (N_ascii_bounded c). lia.
Qed.
Lemma carries_opt {A} lo hi (f : A -> wire) o : (forall a, o = Some a -> in_format lo hi (f a)) -> in_format lo hi (enc_opt f o).
Proof. intros H. destruct o as [a|]; [by apply H|done]. Qed.
Lemma carries_strat lo hi m : wide lo hi -> strat_ok m -> in_format lo hi (enc_strat m).
Proof.
  intros [H1 H2] H. apply carries_obj, Forall_fmap, Forall_forall. intros [k v] Hin. apply elem_of_map_to_list in Hin.
  specialize (H k v Hin). cbn in *. unfold i64_ok in H. lia.
Qed.
Lemma depth_bytes s : depth_of (enc_bytes s) = 1%nat.
Proof.
  assert (depth_of (enc_bytes s) <= 1)%nat as H; [|cbn in *; lia]. apply depth_list, Forall_fmap, Forall_true. intros c. apply Nat.le_refl.
Qed.
Lemma depth_obytes o : (depth_of (enc_opt enc_bytes o) <= 1)%nat.
Proof. destruct o as [s|]; [cbn [enc_opt]; rewrite depth_bytes; done|cbn; lia]. Qed.
Lemma depth_strat m : (depth_of (enc_strat m) <= 1)%nat.
Proof. apply depth_obj, Forall_fmap, Forall_true. intros [k v]. apply Nat.le_refl. Qed.
Lemma depth_strategy s : S (depth_of (enc_strategy s)) = (2 * nesting s - 1)%nat.
Proof. induction s as [| | |k u IH]; try done. cbn [enc_strategy nesting depth_of foldr snd]. rewrite Nat.max_0_r. assert (1 <= nesting u)%nat by (destruct u; cbn; lia). lia. Qed.
Lemma carries_strategy lo hi s : in_format lo hi (enc_strategy s).
Proof. induction s as [| | |k u IH]; done. Qed.
Lemma carries_to_server lo hi e : wide lo hi -> u64_ok (e_nonce e) -> client_msg_ok (e_msg e) -> in_format lo hi (enc_to_server e).
Proof.
  intros Hw H1 H2. destruct e as [n m]. cbn [e_nonce e_msg] in *. unfold u64_ok in *.
  assert (forall k, cid_ok k -> in_format lo hi (enc_cid k)) as Hcid.
  { intros [a b] [Ha Hb]. unfold u63_ok in *. cbn in *. destruct Hw. lia. }
  unfold enc_to_server. apply carries_obj. repeat (apply Forall_cons; split); [by apply carries_n| |by apply Forall_nil]. cbn [snd e_msg].
  destruct m as [x s|k o|k f]; cbn [client_msg_ok enc_client_msg] in *; apply carries_obj, Forall_singleton; cbn [snd]; apply carries_obj;
    repeat (apply Forall_cons; split; cbn [snd]); try (by apply Forall_nil).
  - by apply carries_n.
  - apply carries_strategy.
  - by apply Hcid.
  - apply carries_opt. intros a _. by apply carries_bytes.
  - by apply Hcid.
  - done.
Qed.
Lemma depth_to_server e : depth_of (enc_to_server e) = match e_msg e with WantToReserve _ s => 2 * nesting s + 1 | CompleteMsg _ _ | FailMsg _ _ => 4 end%nat.
Proof.
  destruct e as [n m]. cbn [e_msg]. unfold enc_to_server. destruct m as [x s|k o|k f]; cbn [enc_client_msg e_nonce e_msg].
  - cbn [depth_of foldr snd enc_n]. pose proof (depth_strategy s). assert (1 <= nesting s)%nat by (destruct s; cbn; lia). lia.
  - cbn [depth_of foldr snd enc_n enc_cid]. pose proof (depth_obytes o). lia.
  - done.
Qed.
Lemma carries_pair lo hi cs : wide lo hi -> chunk_ok cs.1 -> submission_ok cs.2 -> in_format lo hi (pair_wire cs).
Proof.
  intros Hw (H1 & H2 & H3) Hs. unfold u63_ok in *. unfold pair_wire. apply carries_list. repeat (apply Forall_cons; split); [..|by apply Forall_nil].
  - unfold enc_chunk. apply carries_obj. repeat (apply Forall_cons; split; cbn [snd]); try (by apply Forall_nil); try (by apply carries_n; [done|lia]).
    apply carries_opt. intros a _. by apply carries_bytes.
  - unfold enc_submission. apply carries_obj. unfold submission_ok, u63_ok, i64_ok in Hs. destruct Hs as (Ha & Hb & Hc & Hd & He).
    repeat (apply Forall_cons; split; cbn [snd]); try (by apply Forall_nil); try (by apply carries_n; [done|lia]); try done.
    + by apply carries_opt.
    + destruct Hw. cbn. lia.
    + apply carries_opt. intros a _. by apply carries_bytes.
    + by apply carries_strat.
Qed.
Lemma depth_pair cs : (depth_of (pair_wire cs) <= 3)%nat.
Proof.
  unfold pair_wire, enc_chunk, enc_submission. apply depth_list. repeat (apply Forall_cons; split); try (by apply Forall_nil); apply depth_obj;
    repeat (apply Forall_cons; split; cbn [snd]); try (by apply Forall_nil); try (by (cbn; lia)); try apply depth_obytes; try apply depth_strat.
  by destruct (s_prefix cs.2); cbn; lia.
Qed.
Lemma carries_to_client lo hi m : wide lo hi -> server_msg_ok m -> in_format lo hi (enc_to_client m).
Proof.
  intros Hw H. destruct m as [n l|k|g]; cbn [server_msg_ok enc_to_client] in *; unfold u64_ok in *; apply carries_obj, Forall_singleton; cbn [snd].
  - destruct H as [Hn H]. apply carries_obj. repeat (apply Forall_cons; split; cbn [snd]); [by apply carries_n| |by apply Forall_nil].
    apply carries_obj, Forall_singleton. cbn [snd]. destruct l as [l|]; [|done]. cbn [enc_reserved]. apply carries_obj, Forall_singleton. cbn [snd].
    apply carries_list, Forall_fmap. specialize (H l eq_refl). eapply Forall_impl; [exact H|]. intros cs [H1 H2]. by apply carries_pair.
  - destruct H as [H1 H2]. unfold u63_ok in *. apply carries_obj, Forall_singleton. cbn [snd]. destruct Hw. cbn. lia.
  - destruct H as (H1 & H2 & H3). destruct Hw. cbn. lia.
Qed.
Lemma depth_to_client m : (depth_of (enc_to_client m) <= 8)%nat.
Proof.
  destruct m as [n l|k|g]; cbn [enc_to_client]; [|cbn; lia..].
  apply depth_obj, Forall_singleton. cbn [snd]. apply depth_obj. repeat (apply Forall_cons; split; cbn [snd]); [cbn; lia| |by apply Forall_nil].
  apply depth_obj, Forall_singleton. cbn [snd]. destruct l as [l|]; [|cbn; lia]. cbn [enc_reserved]. apply depth_obj, Forall_singleton. cbn [snd].
  apply depth_list, Forall_fmap, Forall_true. intros cs. apply depth_pair.
Qed.
Lemma carries_contents lo hi c : wide lo hi -> (forall p n, c = SeeObjectStorage p n -> u63_ok n) -> in_format lo hi (enc_contents c) /\ (depth_of (enc_contents c) <= 4)%nat.
Proof.
  intros Hw H. destruct c as [l|p n]; cbn [enc_contents].
  2: { specialize (H p n eq_refl). unfold u63_ok in H. destruct Hw. cbn. lia. }
  split.
  - apply carries_obj, Forall_singleton. cbn [snd]. apply carries_obj, Forall_singleton. cbn [snd]. apply carries_list, Forall_fmap, Forall_true.
    intros o. apply carries_opt. intros a _. by apply carries_bytes.
  - apply depth_obj, Forall_singleton. cbn [snd]. apply depth_obj, Forall_singleton. cbn [snd]. apply depth_list, Forall_fmap, Forall_true.
    intros o. apply depth_obytes.
Qed.
Lemma carries_request lo hi q b : wide lo hi -> request_ok q -> h_body (to_http q) = Some b -> in_format lo hi b /\ (depth_of b <= 5)%nat.
Proof.
  intros Hw Hq. destruct q as [c m st z|i|i|p|m| |]; cbn [request_ok to_http h_body] in *; try done; intros Hb; injection Hb as <-.
  - destruct Hq as (H1 & H2 & H3). destruct (carries_contents lo hi c Hw H1) as [Hc1 Hc2]. unfold enc_insert. split.
    + apply carries_obj. repeat (apply Forall_cons; split; cbn [snd]); try (by apply Forall_nil); try done.
      * apply carries_opt. intros a _. by apply carries_bytes.
      * by apply carries_strat.
      * apply carries_opt. intros x Hx. specialize (H3 x Hx). unfold i64_ok in H3. destruct Hw. cbn. lia.
    + apply depth_obj. repeat (apply Forall_cons; split; cbn [snd]); try (by apply Forall_nil); try done.
      * pose proof (depth_obytes m). lia.
      * pose proof (depth_strat st). lia.
      * by destruct z; cbn; lia.
  - split; [by apply carries_strat|]. pose proof (depth_strat m). lia.
Qed.

(** Statuses: the records inside are two levels deep. *)
Ltac carried :=
  apply carries_obj; repeat (apply Forall_cons; split; cbn [snd]); try (by apply Forall_nil); try done;
  first [ by apply carries_n; [done|lia] | by apply carries_strat | by apply carries_opt
        | by (apply carries_opt; intros ? _; apply carries_bytes) | by (apply carries_opt; intros; apply carries_n; [done|eauto using N.lt_trans])
        | by (cbn; lia) ].
Ltac shallow :=
  apply depth_obj; repeat (apply Forall_cons; split; cbn [snd]); try (by apply Forall_nil); try (by (cbn; lia));
  first [ apply depth_obytes | apply depth_strat | by (match goal with |- context [enc_opt _ ?o] => destruct o end; cbn; lia) ].
Lemma carries_status lo hi st : wide lo hi -> status_ok st -> in_format lo hi (enc_status st) /\ (depth_of (enc_status st) <= 4)%nat.
Proof.
  intros Hw H. destruct st as [s|s|s c|s]; cbn [status_ok enc_status] in *.
  - assert (chunk_ok (Chunk 0 0 None 0)) as Hk by (unfold chunk_ok, u63_ok; cbn; lia).
    pose proof (carries_pair _ _ (Chunk 0 0 None 0, s) Hw Hk H) as Hp. apply carries_list in Hp. apply Forall_cons in Hp as [_ Hp]. apply Forall_cons in Hp as [Hp _].
    pose proof (depth_pair (Chunk 0 0 None 0, s)) as Hd. apply depth_list in Hd. apply Forall_cons in Hd as [_ Hd]. apply Forall_cons in Hd as [Hd _].
    split; [apply carries_obj, Forall_singleton; exact Hp|]. apply depth_obj, Forall_singleton. cbn [snd] in *. lia.
  - destruct H as (H1 & H2 & H3 & H4 & _). unfold u63_ok, i64_ok in *. pose proof Hw as [Hlo Hhi].
    split; [apply carries_obj, Forall_singleton; cbn [snd]; unfold enc_completed; carried|].
    transitivity 3%nat; [|lia]. apply depth_obj, Forall_singleton. cbn [snd]. unfold enc_completed. shallow.
  - destruct H as [(H1 & H2 & H3 & H4 & H5 & H6 & _) (H7 & H8 & _)]. pose proof Hw as [Hlo Hhi].
    assert (forall n, u63_ok n -> in_format lo hi (enc_n n)) as Hn by (unfold u63_ok; intros n Hn; apply carries_n; [done|lia]).
    split.
    + apply carries_obj, Forall_singleton. cbn [snd]. apply carries_list. repeat (apply Forall_cons; split); [..|by apply Forall_nil].
      * unfold enc_failed. unfold i64_ok in *. apply carries_obj; repeat (apply Forall_cons; split; cbn [snd]); try (by apply Forall_nil); try (by auto).
        -- by apply carries_opt.
        -- apply carries_opt. intros n En. by apply Hn, H3.
        -- cbn. lia.
        -- apply carries_opt. intros a _. by apply carries_bytes.
        -- by apply carries_strat.
      * unfold enc_chunk_failed. apply carries_obj; repeat (apply Forall_cons; split; cbn [snd]); try (by apply Forall_nil); try (by auto).
        apply carries_opt. intros a _. by apply carries_bytes.
    + apply depth_obj, Forall_singleton. cbn [snd]. apply depth_list. repeat (apply Forall_cons; split); [..|by apply Forall_nil].
      * unfold enc_failed. shallow.
      * unfold enc_chunk_failed. shallow.
  - destruct H as (H1 & H2 & H3 & H4 & _). unfold u63_ok in *. pose proof Hw as [Hlo Hhi].
    split; [apply carries_obj, Forall_singleton; cbn [snd]; unfold enc_cancelled; carried|].
    transitivity 3%nat; [|lia]. apply depth_obj, Forall_singleton. cbn [snd]. unfold enc_cancelled. shallow.
Qed.
