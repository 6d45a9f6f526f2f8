(** Lemmas about Rfc3339.v: the calendar, and texts of times are read as they were written. *)
From Coq Require Import Ascii.
From Verif Require Export Rfc3339.
Local Open Scope string_scope.
Local Open Scope Z_scope.

(** Division by a positive number, for [lia]. *)
Lemma div_bounds a b : 0 < b -> b * (a / b) <= a < b * (a / b) + b.
Proof. intros. pose proof (Z.div_mod a b ltac:(lia)). pose proof (Z.mod_pos_bound a b). lia. Qed.

(** *** The calendar *)
(** A day, split into cycles of 400, 100, 4 years, years and days. *)
Definition parts (z era c q a doy : Z) : Prop :=
  z = 146097 * era + 36524 * c + 1461 * q + 365 * a + doy /\
  0 <= c <= 3 /\ 0 <= q <= 24 /\ 0 <= a <= 3 /\ 0 <= doy <= 365 /\
  (doy = 365 -> a = 3 /\ (q = 24 -> c = 3)).
Definition month_of (doy : Z) : Z := (5 * doy + 2) / 153.
Definition date_of (y doy : Z) : Z * Z * Z :=
  let mp := month_of doy in
  let m := if mp <? 10 then mp + 3 else mp - 9 in
  (if m <=? 2 then y + 1 else y, m, doy - (153 * mp + 2) / 5 + 1).

Lemma parts_exist z : exists era c q a doy, parts z era c q a doy.
Proof.
  exists (z / 146097), (Z.min 3 (z mod 146097 / 36524)).
  set (doe := z mod 146097). set (c := Z.min 3 (doe / 36524)).
  exists ((doe - 36524 * c) / 1461). set (q := (doe - 36524 * c) / 1461).
  set (r := (doe - 36524 * c) mod 1461).
  exists (Z.min 3 (r / 365)). set (a := Z.min 3 (r / 365)). exists (r - 365 * a).
  assert (0 <= doe < 146097) by (apply Z.mod_pos_bound; lia).
  pose proof (div_bounds doe 36524 ltac:(lia)) as Dd.
  pose proof (div_bounds (doe - 36524 * c) 1461 ltac:(lia)) as Dq. fold q in Dq.
  pose proof (Z.div_mod (doe - 36524 * c) 1461 ltac:(lia)) as Mq. fold q r in Mq.
  pose proof (div_bounds r 365 ltac:(lia)) as Dr.
  assert (0 <= doe - 36524 * c <= 36524 /\ 0 <= c <= 3 /\ (doe - 36524 * c = 36524 -> c = 3)) as (H1 & H2 & H3) by lia.
  assert (0 <= q <= 24 /\ 0 <= r <= 1460 /\ doe - 36524 * c = 1461 * q + r) as (H4 & H5 & H6) by lia.
  assert (0 <= a <= 3 /\ 0 <= r - 365 * a <= 365 /\ (r - 365 * a = 365 -> a = 3)) as (H7 & H8 & H9) by lia.
  assert (z = 146097 * (z / 146097) + doe) by (apply Z.div_mod; lia).
  unfold parts. split_and!; try lia.
Qed.

Lemma civil_parts n era c q a doy : parts (n + 719468) era c q a doy ->
  civil_of_days n = date_of (era * 400 + 100 * c + 4 * q + a) doy.
Proof.
  intros (E & Hc & Hq & Ha & Hd & Hl). unfold civil_of_days.
  assert (Hdoe : (n + 719468) / 146097 = era /\ (n + 719468) mod 146097 = 36524 * c + 1461 * q + 365 * a + doy).
  { set (doe := 36524 * c + 1461 * q + 365 * a + doy).
    assert (0 <= doe < 146097) by lia.
    split; [symmetry; apply (Z.div_unique _ _ _ doe); lia|symmetry; apply (Z.mod_unique _ _ era); lia]. }
  destruct Hdoe as [-> ->]. cbv zeta.
  set (doe := 36524 * c + 1461 * q + 365 * a + doy).
  assert (0 <= 1461 * q + 365 * a + doy <= 36524 /\ (1461 * q + 365 * a + doy = 36524 -> c = 3)) as [B1 B2] by lia.
  pose proof (div_bounds doe 36524 ltac:(lia)). pose proof (div_bounds (365 * a + doy) 365 ltac:(lia)).
  assert (Z.min 3 (doe / 36524) = c) as -> by lia.
  assert (0 <= 365 * a + doy <= 1460) as B3 by lia.
  assert ((doe - 36524 * c) / 1461 = q) as ->.
  { symmetry. apply (Z.div_unique _ _ _ (365 * a + doy)); lia. }
  assert ((doe - 36524 * c) mod 1461 = 365 * a + doy) as ->.
  { symmetry. apply (Z.mod_unique _ _ q); lia. }
  assert (Z.min 3 ((365 * a + doy) / 365) = a) as -> by lia.
  replace (365 * a + doy - 365 * a) with doy by lia. done.
Qed.

Lemma year_cycles era c q a : 0 <= c <= 3 -> 0 <= q <= 24 -> 0 <= a <= 3 ->
  let y := era * 400 + 100 * c + 4 * q + a in
  y / 400 = era /\ y mod 400 = 100 * c + 4 * q + a /\
  (100 * c + 4 * q + a) / 4 = 25 * c + q /\ (100 * c + 4 * q + a) / 100 = c.
Proof.
  intros Hc Hq Ha y. assert (0 <= 100 * c + 4 * q + a < 400) by lia.
  split_and!.
  - symmetry. apply (Z.div_unique _ _ _ (100 * c + 4 * q + a)); lia.
  - symmetry. apply (Z.mod_unique _ _ era); lia.
  - symmetry. apply (Z.div_unique _ _ _ a); lia.
  - symmetry. apply (Z.div_unique _ _ _ (4 * q + a)); lia.
Qed.

Lemma days_civil n : days_of_civil (civil_of_days n).1.1 (civil_of_days n).1.2 (civil_of_days n).2 = n.
Proof.
  destruct (parts_exist (n + 719468)) as (era & c & q & a & doy & P).
  rewrite (civil_parts _ _ _ _ _ _ P). destruct P as (E & Hc & Hq & Ha & Hd & Hl).
  unfold date_of. cbn [fst snd]. set (mp := month_of doy).
  assert (0 <= mp <= 11) as Hmp by (pose proof (div_bounds (5 * doy + 2) 153); unfold mp, month_of; lia).
  set (y := era * 400 + 100 * c + 4 * q + a).
  pose proof (year_cycles era c q a Hc Hq Ha) as (Y1 & Y2 & Y3 & Y4). cbv zeta in *. fold y in Y1, Y2.
  unfold days_of_civil.
  assert ((if (if mp <? 10 then mp + 3 else mp - 9) <=? 2
           then (if (if mp <? 10 then mp + 3 else mp - 9) <=? 2 then y + 1 else y) - 1
           else (if (if mp <? 10 then mp + 3 else mp - 9) <=? 2 then y + 1 else y)) = y) as ->.
  { destruct (_ <=? 2); lia. }
  assert ((if 2 <? (if mp <? 10 then mp + 3 else mp - 9) then (if mp <? 10 then mp + 3 else mp - 9) - 3
           else (if mp <? 10 then mp + 3 else mp - 9) + 9) = mp) as ->.
  { destruct (mp <? 10) eqn:E1; [apply Z.ltb_lt in E1|apply Z.ltb_ge in E1];
      destruct (2 <? _) eqn:E2; [apply Z.ltb_lt in E2|apply Z.ltb_ge in E2|apply Z.ltb_lt in E2|apply Z.ltb_ge in E2]; lia. }
  rewrite Y1, Y2, Y3, Y4. lia.
Qed.

(** Leap years, by the cycles: [y] is the year that begins in March, its February belongs to [y + 1]. *)
Lemma leap_cycles era c q a : 0 <= c <= 3 -> 0 <= q <= 24 -> 0 <= a <= 3 ->
  leap (era * 400 + 100 * c + 4 * q + a + 1) = bool_decide (a = 3 /\ (q = 24 -> c = 3)).
Proof.
  intros Hc Hq Ha. unfold leap. set (y := era * 400 + 100 * c + 4 * q + a + 1).
  destruct (decide (a = 3)) as [->|Hn].
  - assert (y mod 4 = 0) as -> by (symmetry; apply (Z.mod_unique _ _ (era * 100 + 25 * c + q + 1)); lia).
    destruct (decide (q = 24)) as [->|Hn].
    + assert (y mod 100 = 0) as -> by (symmetry; apply (Z.mod_unique _ _ (era * 4 + c + 1)); lia).
      destruct (decide (c = 3)) as [->|Hn].
      * assert (y mod 400 = 0) as -> by (symmetry; apply (Z.mod_unique _ _ (era + 1)); lia).
        by rewrite bool_decide_eq_true_2.
      * assert (y mod 400 = 100 * (c + 1)) as -> by (symmetry; apply (Z.mod_unique _ _ era); lia).
        rewrite bool_decide_eq_false_2 by lia. cbn. apply Z.eqb_neq. lia.
    + assert (y mod 100 = 4 * q + 4) as -> by (symmetry; apply (Z.mod_unique _ _ (era * 4 + c)); lia).
      rewrite bool_decide_eq_true_2 by lia. replace (4 * q + 4 =? 0) with false by (symmetry; apply Z.eqb_neq; lia). done.
  - assert (y mod 4 = a + 1) as -> by (symmetry; apply (Z.mod_unique _ _ (era * 100 + 25 * c + q)); lia).
    rewrite bool_decide_eq_false_2 by lia. replace (a + 1 =? 0) with false by (symmetry; apply Z.eqb_neq; lia). done.
Qed.

Lemma parts_next z era c q a doy : parts z era c q a doy ->
  (doy < 364 \/ (doy = 364 /\ a = 3 /\ (q = 24 -> c = 3)) -> parts (z + 1) era c q a (doy + 1)) /\
  (doy = 365 \/ (doy = 364 /\ ~ (a = 3 /\ (q = 24 -> c = 3))) -> exists era' c' q' a',
     parts (z + 1) era' c' q' a' 0 /\
     era' * 400 + 100 * c' + 4 * q' + a' = era * 400 + 100 * c + 4 * q + a + 1).
Proof.
  intros (E & Hc & Hq & Ha & Hd & Hl). split.
  - intros H. unfold parts. split_and!; lia.
  - intros H. destruct (decide (a = 3)) as [->|Hn].
    + destruct (decide (q = 24)) as [->|Hn].
      * destruct (decide (c = 3)) as [->|Hn].
        -- exists (era + 1), 0, 0, 0. unfold parts. split_and!; lia.
        -- exists era, (c + 1), 0, 0. unfold parts. split_and!; lia.
      * exists era, c, (q + 1), 0. unfold parts. split_and!; lia.
    + exists era, c, q, (a + 1). unfold parts. split_and!; lia.
Qed.

(** Within a year: the day after. *)
Lemma date_next y doy : 0 <= doy < 365 -> doy < 364 \/ leap (y + 1) = true -> date_of y (doy + 1) = next_day (date_of y doy).
Proof.
  intros Hd Hl. unfold date_of. set (mp := month_of doy). set (mp' := month_of (doy + 1)).
  assert (0 <= mp <= 11) as Hmp by (pose proof (div_bounds (5 * doy + 2) 153); unfold mp, month_of; lia).
  assert (mp = 0 \/ mp = 1 \/ mp = 2 \/ mp = 3 \/ mp = 4 \/ mp = 5 \/ mp = 6 \/ mp = 7 \/ mp = 8 \/ mp = 9 \/ mp = 10 \/ mp = 11) as Hm by lia.
  assert (Hdiv : 153 * mp <= 5 * doy + 2 < 153 * mp + 153) by (pose proof (div_bounds (5 * doy + 2) 153); unfold mp, month_of; lia).
  assert (Hdiv' : 153 * mp' <= 5 * doy + 7 < 153 * mp' + 153) by (pose proof (div_bounds (5 * (doy + 1) + 2) 153); unfold mp', month_of; lia).
  pose proof (div_bounds (153 * mp + 2) 5 ltac:(lia)) as D1. pose proof (div_bounds (153 * mp' + 2) 5 ltac:(lia)) as D2.
  set (x := (153 * mp + 2) / 5) in *. set (x' := (153 * mp' + 2) / 5) in *. clearbody mp mp' x x'.
  assert (mp' = mp \/ mp' = mp + 1) as Hm' by lia. cbv beta zeta iota delta [next_day month_length].
  assert (leap (y + 1) = false -> doy < 364) as Hl' by (intros E; rewrite E in Hl; lia).
  destruct Hm as [->|[->|[->|[->|[->|[->|[->|[->|[->|[->|[->| ->]]]]]]]]]]]; destruct Hm' as [->| ->];
    repeat match goal with
    | |- context [if ?a <? 10 then ?b else ?c] => let v := eval compute in (if a <? 10 then b else c) in change (if a <? 10 then b else c) with v
    end;
    repeat match goal with
    | |- context [?a <=? 2] => let v := eval compute in (a <=? 2) in change (a <=? 2) with v
    | |- context [?a <? 12] => let v := eval compute in (a <? 12) in change (a <? 12) with v
    | |- context [?a =? ?b] => let v := eval compute in (a =? b) in change (a =? b) with v
    end; cbn [orb];
    try (destruct (leap (y + 1)) eqn:El);
    match goal with |- context [?a <? ?b] => destruct (Z.ltb_spec a b) end;
    try specialize (Hl' eq_refl); try (exfalso; lia);
    repeat (f_equal; try lia).
Qed.

Lemma date_new_year y doy : 364 <= doy <= 365 -> (doy = 365 <-> leap (y + 1) = true) -> date_of (y + 1) 0 = next_day (date_of y doy).
Proof.
  intros Hd Hl. assert (doy = 364 \/ doy = 365) as [->| ->] by lia;
    [change (date_of y 364) with (y + 1, 2, 28)|change (date_of y 365) with (y + 1, 2, 29)];
    change (date_of (y + 1) 0) with (y + 1, 3, 1); cbn [next_day]; unfold month_length; cbn [Z.eqb Pos.eqb].
  - destruct (leap (y + 1)); [|done]. exfalso. destruct Hl as [_ Hl]. by specialize (Hl eq_refl).
  - destruct Hl as [Hl _]. rewrite Hl by done. done.
Qed.

Lemma civil_next n : civil_of_days (n + 1) = next_day (civil_of_days n).
Proof.
  destruct (parts_exist (n + 719468)) as (era & c & q & a & doy & P).
  rewrite (civil_parts _ _ _ _ _ _ P).
  pose proof (parts_next _ _ _ _ _ _ P) as [P1 P2]. destruct P as (E & Hc & Hq & Ha & Hd & Hl).
  set (y := era * 400 + 100 * c + 4 * q + a) in *.
  pose proof (leap_cycles era c q a Hc Hq Ha) as L. fold y in L.
  replace (n + 719468 + 1) with (n + 1 + 719468) in P1, P2 by lia.
  destruct (decide (doy < 364 \/ (doy = 364 /\ a = 3 /\ (q = 24 -> c = 3)))) as [H|H].
  - rewrite (civil_parts _ _ _ _ _ _ (P1 H)). fold y. apply date_next; [lia|].
    destruct H as [H|[_ H]]; [by left|right]. rewrite L. by apply bool_decide_eq_true_2.
  - assert (doy = 365 \/ (doy = 364 /\ ~ (a = 3 /\ (q = 24 -> c = 3)))) as H' by lia.
    destruct (P2 H') as (era' & c' & q' & a' & P' & Ey).
    rewrite (civil_parts _ _ _ _ _ _ P'), Ey. fold y. apply date_new_year; [lia|].
    rewrite L, bool_decide_eq_true. lia.
Qed.

(** Dates of days are dates. *)
Lemma next_valid y m d : 1 <= m <= 12 -> 1 <= d <= month_length y m ->
  let '(y', m', d') := next_day (y, m, d) in 1 <= m' <= 12 /\ 1 <= d' <= month_length y' m'.
Proof.
  intros Hm Hd. assert (forall y m, 28 <= month_length y m) as Hl.
  { intros y' m'. unfold month_length. repeat case_match; lia. }
  unfold next_day. destruct (Z.ltb_spec d (month_length y m)); [lia|].
  destruct (Z.ltb_spec m 12).
  - pose proof (Hl y (m + 1)). lia.
  - pose proof (Hl (y + 1) 1). lia.
Qed.
Lemma civil_valid n : 1 <= (civil_of_days n).1.2 <= 12 /\ 1 <= (civil_of_days n).2 <= month_length (civil_of_days n).1.1 (civil_of_days n).1.2.
Proof.
  destruct (parts_exist (n + 719468)) as (era & c & q & a & doy & P).
  rewrite (civil_parts _ _ _ _ _ _ P). destruct P as (E & Hc & Hq & Ha & Hd & Hl).
  set (y := era * 400 + 100 * c + 4 * q + a).
  pose proof (leap_cycles era c q a Hc Hq Ha) as L. fold y in L.
  assert (forall k : nat, Z.of_nat k <= 365 -> (Z.of_nat k = 365 -> leap (y + 1) = true) ->
    1 <= (date_of y (Z.of_nat k)).1.2 <= 12 /\ 1 <= (date_of y (Z.of_nat k)).2 <= month_length (date_of y (Z.of_nat k)).1.1 (date_of y (Z.of_nat k)).1.2) as H.
  { induction k as [|k IH]; intros Hk Hy; [by vm_compute|].
    destruct IH as [H1 H2]; [lia|lia|]. replace (Z.of_nat (S k)) with (Z.of_nat k + 1) in * by lia.
    rewrite date_next; [|lia|].
    - destruct (date_of y (Z.of_nat k)) as [[y0 m0] d0]. cbn [fst snd] in H1, H2. pose proof (next_valid y0 m0 d0 H1 H2) as H.
      by destruct (next_day (y0, m0, d0)) as [[??]?].
    - destruct (decide (Z.of_nat k < 364)); [by left|]. right. apply Hy. lia. }
  specialize (H (Z.to_nat doy)). rewrite Z2Nat.id in H by lia. apply H; [lia|].
  intros ->. rewrite L. apply bool_decide_eq_true_2. by apply Hl.
Qed.

Lemma civil_year n : -719528 <= n < 2932897 -> 0 <= (civil_of_days n).1.1 <= 9999.
Proof.
  intros Hn. destruct (parts_exist (n + 719468)) as (era & c & q & a & doy & P).
  rewrite (civil_parts _ _ _ _ _ _ P). destruct P as (E & Hc & Hq & Ha & Hd & Hl).
  unfold date_of. cbn [fst]. set (mp := month_of doy).
  assert (153 * mp <= 5 * doy + 2 < 153 * mp + 153) as Hmp by (pose proof (div_bounds (5 * doy + 2) 153); unfold mp, month_of; lia).
  assert (-1 <= era <= 24) as He by lia.
  destruct (Z.ltb_spec mp 10).
  - destruct (Z.leb_spec (mp + 3) 2); lia.
  - destruct (Z.leb_spec (mp - 9) 2); lia.
Qed.

(** *** Texts *)
Lemma undigit_digit n : undigit (digit n) = Some (n mod 10).
Proof.
  unfold digit. pose proof (Z.mod_pos_bound n 10 ltac:(lia)) as H. set (r := n mod 10) in *. clearbody r.
  assert (r = 0 \/ r = 1 \/ r = 2 \/ r = 3 \/ r = 4 \/ r = 5 \/ r = 6 \/ r = 7 \/ r = 8 \/ r = 9) as Hr by lia.
  by destruct Hr as [->|[->|[->|[->|[->|[->|[->|[->|[->| ->]]]]]]]]].
Qed.
Lemma read_digits_snoc k acc s : read_digits (S k) acc s =
  ('(x, s) ← read_digits k acc s; match s with String c s => d ← undigit c; Some (10 * x + d, s) | EmptyString => None end).
Proof.
  revert acc s. induction k as [|k IH]; intros acc s; [by destruct s|].
  destruct s as [|c s]; [done|]. cbn [read_digits]. destruct (undigit c) as [d|]; [|done]. cbn [mbind option_bind].
  exact (IH (10 * acc + d) s).
Qed.
Lemma read_digits_digits k n acc rest : 0 <= n < 10 ^ Z.of_nat k ->
  read_digits k acc (digits k n rest) = Some (10 ^ Z.of_nat k * acc + n, rest).
Proof.
  revert n acc rest. induction k as [|k IH]; intros n acc rest Hn.
  { cbn in *. f_equal. f_equal. lia. }
  rewrite Nat2Z.inj_succ, Z.pow_succ_r in * by lia. rewrite read_digits_snoc. cbn [digits].
  pose proof (div_bounds n 10 ltac:(lia)). rewrite IH by lia. cbn [mbind option_bind].
  rewrite undigit_digit. cbn [mbind option_bind]. f_equal. f_equal.
  rewrite Z.mod_eq by lia. lia.
Qed.
Lemma expect_hit c s : expect c (String c s) = Some s.
Proof. unfold expect. by rewrite decide_True. Qed.

(** The digits of a fraction: [k] of at most [9]. *)
Lemma digits_head k n rest : exists c s, digits (S k) n rest = String c s /\ undigit c <> None.
Proof.
  revert n rest. induction k as [|k IH]; intros n rest.
  - eexists _, _. split; [reflexivity|]. by rewrite undigit_digit.
  - change (digits (S (S k)) n rest) with (digits (S k) (n / 10) (String (digit n) rest)). apply IH.
Qed.
Definition ends (s : string) : Prop := match s with String c _ => undigit c = None | EmptyString => True end.
Lemma read_fraction_ends k s : ends s -> read_fraction k s = (0, s).
Proof. destruct s as [|c s]; [by destruct k|]. cbn. intros ->. by destruct k. Qed.
Lemma read_fraction_digits j k n rest s : read_fraction j rest = (n, s) -> 
  forall m, 0 <= m < 10 ^ Z.of_nat k ->
  read_fraction (k + j) (digits k m rest) = (m * 10 ^ Z.of_nat j + n, s).
Proof.
  revert j n rest. induction k as [|k IH]; intros j n rest Hr m Hm.
  { cbn in *. rewrite Hr. f_equal. lia. }
  rewrite Nat2Z.inj_succ, Z.pow_succ_r in * by lia. cbn [digits].
  pose proof (div_bounds m 10 ltac:(lia)).
  replace (S k + j)%nat with (k + S j)%nat by lia.
  rewrite (IH (S j) (m mod 10 * 10 ^ Z.of_nat j + n)); [| |lia].
  - f_equal. rewrite Nat2Z.inj_succ, Z.pow_succ_r by lia. rewrite Z.mod_eq by lia. lia.
  - cbn [read_fraction]. rewrite undigit_digit, Hr. done.
Qed.
Lemma read_fraction_at k j m rest : (k + j = 9)%nat -> 0 <= m < 10 ^ Z.of_nat k -> ends rest ->
  read_fraction 9 (digits k m rest) = (m * 10 ^ Z.of_nat j, rest).
Proof.
  intros E Hm He. rewrite <- E. rewrite (read_fraction_digits j k 0 rest rest); [f_equal; lia|by apply read_fraction_ends|done].
Qed.

Lemma read_time_text t : time_ok t -> read_time (time_text t) = Some t.
Proof.
  intros Ht. unfold time_text, time_ok in *.
  set (nano := t mod 10 ^ 9). set (sec := t / 10 ^ 9).
  assert (t = sec * 10 ^ 9 + nano /\ 0 <= nano < 10 ^ 9) as [Et Hn].
  { pose proof (Z.mod_pos_bound t (10 ^ 9) ltac:(lia)). pose proof (Z.div_mod t (10 ^ 9) ltac:(lia)). unfold sec, nano. lia. }
  set (sod := sec mod 86400). set (day := sec / 86400).
  assert (sec = day * 86400 + sod /\ 0 <= sod < 86400) as [Es Hs].
  { pose proof (Z.mod_pos_bound sec 86400 ltac:(lia)). pose proof (Z.div_mod sec 86400 ltac:(lia)). unfold sod, day. lia. }
  clearbody nano sec sod day. subst t sec.
  pose proof (civil_year day ltac:(lia)) as Hy. pose proof (civil_valid day) as [Hm Hd]. pose proof (days_civil day) as Hc.
  destruct (civil_of_days day) as [[y m] d]. cbn [fst snd] in *.
  assert (d <= 31) as Hd' by (revert Hd; unfold month_length; repeat case_match; lia).
  pose proof (div_bounds sod 3600 ltac:(lia)). pose proof (div_bounds sod 60 ltac:(lia)).
  pose proof (Z.div_mod sod 60 ltac:(lia)). pose proof (Z.mod_pos_bound sod 60 ltac:(lia)).
  pose proof (Z.mod_pos_bound (sod / 60) 60 ltac:(lia)). pose proof (Z.div_mod (sod / 60) 60 ltac:(lia)).
  assert (sod / 60 / 60 = sod / 3600) as Eh by (rewrite Z.div_div by lia; done). rewrite Eh in *.
  set (h := sod / 3600) in *. set (mi := (sod / 60) mod 60) in *. set (s := sod mod 60) in *. clearbody h mi s.
  unfold read_time.
  repeat (rewrite read_digits_digits by (cbn; lia); cbn [mbind option_bind]; rewrite ?expect_hit; cbn [mbind option_bind]).
  assert ((match fraction nano "Z" with
     | String "." s' => if undigit (match s' with String c _ => c | EmptyString => "."%char end) then Some (read_fraction 9 s') else None
     | _ => Some (0, fraction nano "Z")
     end) = Some (nano, "Z"%string)) as ->.
  { unfold fraction. destruct (Z.eqb_spec nano 0) as [->|Hz]; [done|].
    assert (forall k m, ends "Z" -> (if undigit (match digits (S k) m "Z" with String c _ => c | EmptyString => "."%char end) then Some (read_fraction 9 (digits (S k) m "Z")) else None) = Some (read_fraction 9 (digits (S k) m "Z"))) as Hh.
    { intros k m0 _. destruct (digits_head k m0 "Z") as (c & s' & -> & Hu). by destruct (undigit c). }
    destruct (Z.eqb_spec (nano mod 10 ^ 6) 0) as [E6|_]; [|destruct (Z.eqb_spec (nano mod 10 ^ 3) 0) as [E3|_]]; cbv iota beta.
    - rewrite Hh by done. rewrite (read_fraction_at 3 6); [|done|pose proof (div_bounds nano (10 ^ 6)); cbn; lia|done].
      pose proof (Z.div_mod nano (10 ^ 6)). cbn -[Z.pow Z.div]. repeat f_equal. lia.
    - rewrite Hh by done. rewrite (read_fraction_at 6 3); [|done|pose proof (div_bounds nano (10 ^ 3)); cbn; lia|done].
      pose proof (Z.div_mod nano (10 ^ 3)). repeat f_equal. lia.
    - rewrite Hh by done. rewrite (read_fraction_at 9 0); [|done|cbn; lia|done]. repeat f_equal. lia. }
  cbn [mbind option_bind]. rewrite expect_hit. cbn [mbind option_bind].
  assert ((1 <=? 10 ^ Z.of_nat 2 * 0 + m) && (10 ^ Z.of_nat 2 * 0 + m <=? 12) && (1 <=? 10 ^ Z.of_nat 2 * 0 + d) && (10 ^ Z.of_nat 2 * 0 + d <=? month_length (10 ^ Z.of_nat 4 * 0 + y) (10 ^ Z.of_nat 2 * 0 + m))
    && (10 ^ Z.of_nat 2 * 0 + h <=? 23) && (10 ^ Z.of_nat 2 * 0 + mi <=? 59) && (10 ^ Z.of_nat 2 * 0 + s <=? 59) = true) as ->.
  { rewrite !Z.mul_0_r, !Z.add_0_l. rewrite !andb_true_iff, !Z.leb_le. lia. }
  rewrite !Z.mul_0_r, !Z.add_0_l, Hc. f_equal. lia.
Qed.
