(** Lemmas about Url.v. *)
From Coq Require Import Ascii.
From Verif Require Export Url.
Local Open Scope N_scope.

(** Every character of a string. *)
Fixpoint all_chars (P : ascii -> Prop) (s : string) : Prop := match s with EmptyString => True | String c r => P c /\ all_chars P r end.
Lemma all_chars_impl (P Q : ascii -> Prop) s : (forall c, P c -> Q c) -> all_chars P s -> all_chars Q s.
Proof. intros H. induction s as [|c s IH]; [done|]. intros [Hc Hs]. split; [by apply H|by apply IH]. Qed.
(** A hexadecimal digit, in upper or lower case. *)
Definition digit (c : ascii) (n : nat) : Prop :=
  String.get n "0123456789abcdef" = Some c \/ String.get n "0123456789ABCDEF" = Some c.

Lemma str_app_cons c a b : String c a +:+ b = String c (a +:+ b).
Proof. done. Qed.

(** *** Cutting *)
Lemma trim_end_app a c p : blank c = false -> trim_end (a +:+ String c p) = a +:+ String c (trim_end p).
Proof.
  intros Hc. induction a as [|x a IH].
  - change ("" +:+ String c p) with (String c p). cbn [trim_end]. rewrite Hc. by destruct (trim_end p).
  - rewrite !str_app_cons. cbn [trim_end]. rewrite IH. by destruct a.
Qed.
Lemma drop_skipped_app a b : drop_skipped (a +:+ b) = drop_skipped a +:+ drop_skipped b.
Proof. induction a as [|x a IH]; [done|]. rewrite str_app_cons. cbn [drop_skipped]. destruct (skipped x); [done|]. by rewrite str_app_cons, IH. Qed.
Lemma path_part_app a b : path_part a = a -> path_part (a +:+ b) = a +:+ path_part b.
Proof.
  induction a as [|c a IH]; [done|]. rewrite !str_app_cons. cbn [path_part]. case_bool_decide as E; [done|].
  intros H. assert (path_part a = a) as Ha by congruence. by rewrite (IH Ha).
Qed.
Definition cleaned (p : string) : string := path_part (drop_skipped (trim_end p)).
(** A character that is in the path as it is, wherever it stands. *)
Definition kept_char (c : ascii) : Prop := skipped c = false /\ c <> "?"%char /\ c <> "#"%char.
Lemma cleaned_kept p : all_chars kept_char p -> (forall l c, p = l +:+ String c "" -> blank c = false) -> cleaned p = p.
Proof.
  intros Hk Hl. unfold cleaned. assert (trim_end p = p) as ->.
  { clear Hk. induction p as [|c p IH]; [done|]. cbn [trim_end]. destruct p as [|d p].
    - cbn [trim_end]. by rewrite (Hl "" c eq_refl).
    - rewrite IH; [done|]. intros l x E. apply (Hl (String c l) x). by rewrite str_app_cons, <- E. }
  clear Hl. induction p as [|c p IH]; [done|]. destruct Hk as [(H1 & H2 & H3) Hk]. cbn [drop_skipped]. rewrite H1. cbn [path_part].
  rewrite bool_decide_eq_false_2 by tauto. by rewrite IH.
Qed.

(** *** Segments *)
Lemma segments_cons a : exists x l, segments a = x :: l.
Proof. induction a as [|c a (x & l & IH)]; [by eexists _, _|]. cbn [segments]. destruct (slash c); [by eexists _, _|]. rewrite IH. by eexists _, _. Qed.
Lemma segments_app a b : segments (a +:+ String "/" b) = segments a ++ segments b.
Proof.
  induction a as [|c a IH]; [done|]. rewrite str_app_cons. cbn [segments]. destruct (slash c); [by rewrite IH|].
  rewrite IH. destruct (segments_cons a) as (x & l & ->). done.
Qed.
Lemma segments_one s : all_chars (fun c => slash c = false) s -> segments s = [s].
Proof. induction s as [|c s IH]; [done|]. intros [Hc Hs]. cbn [segments]. by rewrite Hc, (IH Hs). Qed.
Lemma segments_more s : ~ all_chars (fun c => slash c = false) s -> exists x y l, segments s = x :: y :: l.
Proof.
  induction s as [|c s IH]; intros H; [by destruct H|]. cbn [segments]. destruct (slash c) eqn:E.
  - destruct (segments_cons s) as (x & l & ->). by eexists _, _, _.
  - destruct IH as (x & y & l & ->); [|by eexists _, _, _]. intros Hs. by apply H.
Qed.
Definition undotted (s : string) : Prop := one_dot s = false /\ two_dots s = false.
Lemma undotted_all l : forallb (fun s => negb (one_dot s) && negb (two_dots s)) l = true -> Forall undotted l.
Proof.
  intros H. apply Forall_forall. intros s Hs%elem_of_list_In. rewrite forallb_forall in H. specialize (H s Hs).
  apply andb_prop in H as [H1%negb_true_iff H2%negb_true_iff]. done.
Qed.
Lemma settle_plain b l : Forall undotted l -> settle b l = reverse b ++ (escape <$> l).
Proof.
  intros H. revert b. induction H as [|s l [H1 H2] _ IH]; intros b; [by rewrite app_nil_r|]. cbn [settle]. rewrite H1, H2. cbn [orb].
  rewrite IH. destruct l; rewrite reverse_cons, <- app_assoc; done.
Qed.
Lemma settle_app b l s r : Forall undotted l -> settle b (l ++ s :: r) = settle (reverse (escape <$> l) ++ b) (s :: r).
Proof.
  intros H. revert b. induction H as [|x l [H1 H2] _ IH]; intros b; [done|]. rewrite <- app_comm_cons. cbn [settle]. rewrite H1, H2. cbn [orb].
  rewrite fmap_cons, reverse_cons, <- app_assoc. cbn [app]. transitivity (settle (escape x :: b) (l ++ s :: r)); [by destruct l|apply IH].
Qed.
(** The path of a call with a parameter at the end. *)
Lemma url_app base p : cleaned (base +:+ "/") = base +:+ "/" -> Forall undotted (segments base) ->
  url_segments (String "/" (base +:+ String "/" p)) = settle (reverse (escape <$> segments base)) (segments (cleaned p)).
Proof.
  intros Hb Hd. unfold url_segments. rewrite trim_end_app by done. unfold cleaned in Hb.
  rewrite (trim_end_app base "/" "") in Hb by done. change (trim_end "") with "" in Hb.
  assert (E : forall a, a +:+ String "/" p = (a +:+ "/") +:+ p). { induction a as [|c a IH]; [done|]. by rewrite !str_app_cons, IH. }
  assert (E' : forall q, base +:+ String "/" q = (base +:+ "/") +:+ q). { clear. induction base as [|c a IH]; [done|]. intros q. by rewrite !str_app_cons, IH. }
  assert (Hb1 : drop_skipped (base +:+ "/") = base +:+ "/" /\ path_part (base +:+ "/") = base +:+ "/").
  { revert Hb. generalize (base +:+ "/") as s. clear. intros s.
    assert (Hl : forall s, (String.length (path_part s) <= String.length s)%nat). { induction s0 as [|c s0 IH]; [done|]. cbn [path_part]. case_bool_decide; cbn [String.length]; lia. }
    assert (Hl' : forall s, (String.length (drop_skipped s) <= String.length s)%nat). { induction s0 as [|c s0 IH]; [done|]. cbn [drop_skipped]. destruct (skipped c); cbn [String.length]; lia. }
    induction s as [|c s IH]; [done|]. cbn [drop_skipped]. destruct (skipped c).
    - intros H. exfalso. pose proof (Hl (drop_skipped s)). pose proof (Hl' s). rewrite H in H0. cbn [String.length] in H0. lia.
    - cbn [path_part]. case_bool_decide as E; [done|]. intros H. destruct IH as [H1 H2]; [congruence|]. by rewrite H1, H2. }
  destruct Hb1 as [Hb1 Hb2]. rewrite E', drop_skipped_app, Hb1, path_part_app by done. rewrite <- E', segments_app. fold (cleaned p).
  destruct (segments_cons (cleaned p)) as (x & l & ->). rewrite settle_app by done. by rewrite app_nil_r.
Qed.

(** *** %XY *)
Lemma hex_is_digit c n : hex_digit c = Some n -> exists x, digit c x.
Proof.
  assert (H : match hex_digit c with Some n => String.get (N.to_nat n) "0123456789abcdef" = Some c \/ String.get (N.to_nat n) "0123456789ABCDEF" = Some c | None => True end).
  { destruct c as [[] [] [] [] [] [] [] []]; cbn; first [exact I|left; reflexivity|right; reflexivity]. }
  intros E. rewrite E in H. by exists (N.to_nat n).
Qed.
Lemma digit_hex c n : digit c n -> hex_digit c = Some (N.of_nat n).
Proof. unfold digit. do 16 (destruct n as [|n]; [by intros [[= <-]|[= <-]]|]). by intros [[=]|[=]]. Qed.
Lemma escaped_back c : escaped_char c = true -> hex_digit c = None /\ c <> "%"%char /\
  exists x y, hex_digit (hex_char (N_of_ascii c / 16)) = Some x /\ hex_digit (hex_char (N_of_ascii c mod 16)) = Some y /\ ascii_of_N (16 * x + y) = c.
Proof.
  intros H. assert (B : (fun c => if escaped_char c then match hex_digit c, hex_digit (hex_char (N_of_ascii c / 16)), hex_digit (hex_char (N_of_ascii c mod 16)) with
    | None, Some x, Some y => bool_decide (c <> "%"%char) && bool_decide (ascii_of_N (16 * x + y) = c) | _, _, _ => false end else true) c = true).
  { destruct c as [[] [] [] [] [] [] [] []]; vm_compute; reflexivity. }
  cbn beta in B. rewrite H in B. destruct (hex_digit c); [done|]. destruct (hex_digit (hex_char (N_of_ascii c / 16))) as [x|]; [|done].
  destruct (hex_digit (hex_char (N_of_ascii c mod 16))) as [y|]; [|done]. apply andb_prop in B as [B1%bool_decide_eq_true_1 B2%bool_decide_eq_true_1].
  split; [done|]. split; [done|]. by exists x, y.
Qed.
Lemma hex_kept c x : hex_digit c = Some x -> escaped_char c = false.
Proof. intros H. destruct (escaped_char c) eqn:E; [|done]. apply escaped_back in E as [E _]. congruence. Qed.
Lemma decode_other c r : c <> "%"%char -> percent_decode (String c r) = String c (percent_decode r).
Proof. intros H. cbn [percent_decode]. by rewrite bool_decide_eq_false_2. Qed.
Lemma decode_escape s : percent_decode (escape s) = percent_decode s.
Proof.
  assert (H : forall n s, (String.length s <= n)%nat -> percent_decode (escape s) = percent_decode s); [|by eapply H].
  induction n as [|n IH]; intros [|c r] Hn; try done; [cbn in Hn; lia|]. cbn [String.length] in Hn. cbn [escape].
  destruct (escaped_char c) eqn:Ec.
  - destruct (escaped_back c Ec) as (_ & Hp & x & y & Hx & Hy & Hc). cbn [percent_decode]. rewrite bool_decide_eq_true_2, Hx, Hy, Hc by done.
    rewrite bool_decide_eq_false_2 by done. rewrite IH by lia. done.
  - destruct (decide (c = "%"%char)) as [->|Hp]; [|rewrite !decode_other by done; rewrite IH by lia; done].
    assert (Hr : percent_decode (escape r) = percent_decode r) by (apply IH; lia).
    cbn [percent_decode]. rewrite bool_decide_eq_true_2 by done.
    destruct r as [|a r]; [done|]. destruct (hex_digit a) as [x|] eqn:Ea.
    + pose proof (hex_kept _ _ Ea) as Ka. cbn [escape]. rewrite Ka. destruct r as [|b r]; [by rewrite <- Hr; cbn [escape]; rewrite Ka|].
      destruct (hex_digit b) as [y|] eqn:Eb.
      * pose proof (hex_kept _ _ Eb) as Kb. cbn [escape]. rewrite Kb, Eb, Ea. rewrite IH; [done|]. cbn [String.length] in Hn. lia.
      * rewrite Ea. rewrite <- Hr. cbn [escape]. rewrite Ka. destruct (escaped_char b); [|by rewrite Eb]. done.
    + transitivity (String "%" (percent_decode (String a r))); [|by destruct r as [|b r]; rewrite ?Ea].
      rewrite <- Hr. cbn [escape]. destruct (escaped_char a) eqn:Ka; [done|].
      destruct (escape r) as [|b r']; [done|]. by rewrite Ea.
Qed.
Lemma escape_empty s : escape s = "" <-> s = "".
Proof. split; [|by intros ->]. destruct s as [|c s]; [done|]. cbn [escape]. by destruct (escaped_char c). Qed.
Lemma escape_plain s : all_chars (fun c => escaped_char c = false) s -> escape s = s.
Proof. induction s as [|c s IH]; [done|]. intros [Hc Hs]. cbn [escape]. by rewrite Hc, (IH Hs). Qed.
Lemma dot_decodes s : one_dot s = true -> percent_decode s = ".".
Proof. unfold one_dot. intros H%bool_decide_eq_true_1. rewrite !elem_of_cons in H. destruct_or! H; try (subst; done). by apply elem_of_nil in H. Qed.
Lemma dots_decode s : two_dots s = true -> percent_decode s = "..".
Proof. unfold two_dots. intros H%bool_decide_eq_true_1. rewrite !elem_of_cons in H. destruct_or! H; try (subst; done). by apply elem_of_nil in H. Qed.
(** No % that two digits follow. *)
Definition no_code (p : string) : Prop := forall l a b x y r, p = l +:+ String "%" (String a (String b r)) -> digit a x -> digit b y -> False.
Lemma decode_plain p : no_code p -> percent_decode p = p.
Proof.
  intros Hd. induction p as [|c p IH]; [done|].
  assert (Hp : percent_decode p = p). { apply IH. intros l a b x y r ->. apply (Hd (String c l) a b x y r). reflexivity. }
  cbn [percent_decode]. destruct (decide (c = "%"%char)) as [->|Hpc]; [|rewrite bool_decide_eq_false_2 by done; by rewrite Hp].
  rewrite bool_decide_eq_true_2 by done. destruct p as [|a [|b r]]; [by rewrite Hp..|].
  destruct (hex_digit a) as [x|] eqn:Ea; [|by rewrite Hp]. destruct (hex_digit b) as [y|] eqn:Eb; [|by rewrite Hp].
  exfalso. apply hex_is_digit in Ea as [x' Ea], Eb as [y' Eb]. exact (Hd EmptyString a b x' y' r eq_refl Ea Eb).
Qed.
