(** Proofs about Julian.v: every operation on doubles has a relative error of at most 2^-53. *)
From Verif Require Export Julian.
From Coq Require Import QArith Lqa Lia.
Local Open Scope Z_scope.

(** ** The rounding, on integers. *)
Lemma nearest_error n d : 0 < d -> 2 * Z.abs (nearest n d * d - n) <= d.
Proof.
  intros Hd. unfold nearest.
  pose proof (Z.div_mod n d ltac:(lia)) as E. pose proof (Z.mod_pos_bound n d Hd) as B.
  set (q := n / d) in *. set (r := n mod d) in *.
  destruct (2 * r <? d) eqn:E1; [|destruct (d <? 2 * r) eqn:E2; [|destruct (Z.even q)]];
    rewrite ?Z.ltb_lt, ?Z.ltb_ge in *; nia.
Qed.

Lemma nearest_whole n d : 0 < d -> n mod d = 0 -> nearest n d = n / d.
Proof.
  intros Hd E. unfold nearest. rewrite E.
  replace (2 * 0 <? d) with true by (symmetry; apply Z.ltb_lt; lia). reflexivity.
Qed.

Lemma nearest_nonneg n d : 0 <= n -> 0 < d -> 0 <= nearest n d.
Proof.
  intros Hn Hd. unfold nearest. pose proof (Z.div_pos n d Hn Hd).
  destruct (2 * _ <? d); [lia|]. destruct (d <? _); [lia|]. destruct (Z.even _); lia.
Qed.

Lemma pow_split a b : 0 <= a -> 0 <= b -> 2 ^ (a + b) = 2 ^ a * 2 ^ b.
Proof. intros. apply Z.pow_add_r; lia. Qed.

(** The exponent: 53 bits are kept. *)
Lemma fl_eq n d : 0 < n -> 0 < d -> n < 2 ^ 51 * d ->
  exists s, 0 <= s /\ fl n d = (nearest (n * 2 ^ s) d, s) /\
    2 ^ 52 * d <= n * 2 ^ s /\ n * 2 ^ s < 2 ^ 53 * d.
Proof.
  intros Hn Hd Hlt. unfold fl.
  replace (n =? 0) with false by (symmetry; apply Z.eqb_neq; lia).
  pose proof (Z.log2_spec n Hn) as [Ln Un]. pose proof (Z.log2_spec d Hd) as [Ld Ud].
  pose proof (Z.log2_nonneg n). pose proof (Z.log2_nonneg d).
  set (a := Z.log2 n) in *. set (b := Z.log2 d) in *.
  assert (Hs : a < 52 + b).
  { apply (Z.pow_lt_mono_r_iff 2); [lia|lia|].
    replace (52 + b) with (51 + Z.succ b) by lia. rewrite pow_split by lia. nia. }
  set (s := 52 - (a - b)). assert (0 <= s) by lia.
  assert (Elow : 2 ^ a * 2 ^ s = 2 ^ 52 * 2 ^ b).
  { rewrite <- !pow_split by lia. f_equal. lia. }
  assert (0 < 2 ^ s) by (apply Z.pow_pos_nonneg; lia).
  assert (Esucc : forall x, 0 <= x -> 2 ^ Z.succ x = 2 * 2 ^ x)
    by (intros; apply Z.pow_succ_r; lia).
  rewrite Esucc in Un, Ud by lia.
  destruct (n * 2 ^ s <? 2 ^ 52 * d) eqn:E; [apply Z.ltb_lt in E|apply Z.ltb_ge in E].
  - exists (s + 1). split; [lia|]. split; [reflexivity|].
    rewrite pow_split by lia. change (2 ^ 1) with 2.
    change (2 ^ 53) with (2 * 2 ^ 52).
    assert (2 ^ 52 * d <= 2 ^ 52 * (2 * 2 ^ b)) by nia.
    split; nia.
  - exists s. split; [lia|]. split; [reflexivity|]. split; [lia|].
    change (2 ^ 53) with (2 * 2 ^ 52). nia.
Qed.

(** ** As rational numbers. *)
Local Open Scope Q_scope.

Definition frac (n d : Z) : Q := n # Z.to_pos d.
Definition val (x : double) : Q := frac (fst x) (2 ^ snd x).
(** 2^-53 *)
Definition u : Q := 1 # 9007199254740992.

Lemma frac_le n d n' d' : (0 < d)%Z -> (0 < d')%Z ->
  frac n d <= frac n' d' <-> (n * d' <= n' * d)%Z.
Proof. intros. unfold frac, Qle. cbn. rewrite !Z2Pos.id by lia. tauto. Qed.
Lemma frac_lt n d n' d' : (0 < d)%Z -> (0 < d')%Z ->
  frac n d < frac n' d' <-> (n * d' < n' * d)%Z.
Proof. intros. unfold frac, Qlt. cbn. rewrite !Z2Pos.id by lia. tauto. Qed.
Lemma frac_scale n d k : (0 < d)%Z -> frac (n * k) d == frac n d * inject_Z k.
Proof. intros. unfold frac, Qeq. cbn. rewrite Pos2Z.inj_mul, !Z2Pos.id by lia. ring. Qed.
Lemma frac_one n : frac n 1 == inject_Z n.
Proof. reflexivity. Qed.

Lemma pow2_pos s : (0 <= s)%Z -> (0 < 2 ^ s)%Z.
Proof. intros. apply Z.pow_pos_nonneg; lia. Qed.

Lemma frac_less n d K : (0 < d)%Z ->
  frac n d - (1 # K) * frac n d == frac (n * (Z.pos K - 1)) (d * Z.pos K).
Proof.
  intros. unfold frac, Qeq, Qminus, Qplus, Qmult, Qopp. cbn [Qnum Qden].
  rewrite ?Pos2Z.inj_mul, !Z2Pos.id by lia. ring.
Qed.
Lemma frac_more n d K : (0 < d)%Z ->
  frac n d + (1 # K) * frac n d == frac (n * (Z.pos K + 1)) (d * Z.pos K).
Proof.
  intros. unfold frac, Qeq, Qplus, Qmult. cbn [Qnum Qden].
  rewrite ?Pos2Z.inj_mul, !Z2Pos.id by lia. ring.
Qed.

Lemma frac_below n d m s : (0 < d)%Z -> (0 < s)%Z ->
  (2 ^ 53 * (n * s - m * d) <= n * s)%Z -> frac n d - u * frac n d <= frac m s.
Proof.
  intros Hd Hs H. unfold u. rewrite frac_less by lia. apply frac_le; lia.
Qed.

Lemma frac_above n d m s : (0 < d)%Z -> (0 < s)%Z ->
  (2 ^ 53 * (m * d - n * s) <= n * s)%Z -> frac m s <= frac n d + u * frac n d.
Proof.
  intros Hd Hs H. unfold u. rewrite frac_more by lia. apply frac_le; lia.
Qed.

(** One operation on doubles. *)
Lemma fl_error n d : (0 <= n)%Z -> (0 < d)%Z -> (n < 2 ^ 51 * d)%Z ->
  (0 <= snd (fl n d))%Z /\ (0 <= fst (fl n d))%Z /\
  frac n d - u * frac n d <= val (fl n d) /\ val (fl n d) <= frac n d + u * frac n d /\
  ((d <= n)%Z -> (snd (fl n d) <= 52)%Z).
Proof.
  intros Hn Hd Hlt. destruct (Z.eq_dec n 0) as [->|Hn0].
  { change (fl 0 d) with (0, 0)%Z. cbn [fst snd]. unfold val. cbn [fst snd].
    repeat split; try lia.
    - apply frac_below; lia.
    - apply frac_above; lia. }
  destruct (fl_eq n d) as (s & Hs & E & Hlo & Hhi); [lia|lia|lia|].
  rewrite E. cbn [fst snd].
  pose proof (nearest_error (n * 2 ^ s) d Hd) as He. pose proof (pow2_pos s Hs) as Hp.
  pose proof (nearest_nonneg (n * 2 ^ s) d ltac:(lia) Hd) as Hm.
  set (m := nearest (n * 2 ^ s) d) in *.
  unfold val. cbn [fst snd].
  repeat split; try lia.
  - apply frac_below; [lia|lia|]. change (2 ^ 53)%Z with (2 * 2 ^ 52)%Z.
    change (2 ^ 52)%Z with 4503599627370496%Z in *. lia.
  - apply frac_above; [lia|lia|]. change (2 ^ 53)%Z with (2 * 2 ^ 52)%Z.
    change (2 ^ 52)%Z with 4503599627370496%Z in *. lia.
  - intros Hdn. assert (2 ^ s < 2 ^ 53)%Z by nia.
    assert (s < 53)%Z by (apply (Z.pow_lt_mono_r_iff 2); lia). lia.
Qed.

Lemma dlt_val x y : (0 <= snd x)%Z -> (0 <= snd y)%Z -> dlt x y = true <-> val x < val y.
Proof.
  intros. unfold dlt, val. rewrite Z.ltb_lt, frac_lt by (apply pow2_pos; lia). tauto.
Qed.

(** ** julianday keeps milliseconds apart. *)
Lemma frac_days ms : frac ms day_ms == inject_Z ms * (1 # 86400000).
Proof. unfold frac, day_ms, Qeq. cbn. lia. Qed.

Lemma inject_lt a b : (a < b)%Z -> inject_Z a + 1 <= inject_Z b.
Proof.
  intros H. change 1 with (inject_Z 1). rewrite <- inject_Z_plus, <- Zle_Qle. lia.
Qed.
Lemma inject_le a b : (a <= b)%Z -> inject_Z a <= inject_Z b.
Proof. intros. rewrite <- Zle_Qle. lia. Qed.

Lemma julian_bounds ms : (0 <= ms < 2 ^ 52)%Z ->
  (0 <= snd (julianday ms))%Z /\ (0 <= fst (julianday ms))%Z /\
  inject_Z ms * (1 # 86400000) - u * (inject_Z ms * (1 # 86400000)) <= val (julianday ms) /\
  val (julianday ms) <= inject_Z ms * (1 # 86400000) + u * (inject_Z ms * (1 # 86400000)).
Proof.
  intros H. destruct (fl_error ms day_ms) as (A & B & C & D & _).
  - lia.
  - unfold day_ms. lia.
  - unfold day_ms. lia.
  - rewrite frac_days in C, D. auto.
Qed.

Lemma julian_strict a b : (0 <= a)%Z -> (a < b)%Z -> (b < 2 ^ 52)%Z ->
  val (julianday a) < val (julianday b).
Proof.
  intros Ha Hab Hb.
  destruct (julian_bounds a) as (_ & _ & _ & Ua); [lia|].
  destruct (julian_bounds b) as (_ & _ & Lb & _); [lia|].
  apply inject_lt in Hab. apply inject_lt in Hb.
  change (inject_Z (2 ^ 52)) with (4503599627370496 # 1) in Hb.
  unfold u in *. lra.
Qed.

Lemma julian_lt a b : (0 <= a < 2 ^ 52)%Z -> (0 <= b < 2 ^ 52)%Z ->
  val (julianday a) < val (julianday b) <-> (a < b)%Z.
Proof.
  intros Ha Hb. split.
  - intros H. destruct (Z.lt_trichotomy a b) as [?|[->|?]]; [assumption| |].
    + lra.
    + assert (val (julianday b) < val (julianday a)) by (apply julian_strict; lia). lra.
  - intros. apply julian_strict; lia.
Qed.

(** ** What is stored. *)
Definition sval (v : stored_time) : Q :=
  match v with SInt z => inject_Z z | SReal x => val x end.

Lemma numeric_val m s : (0 <= s)%Z -> sval (numeric (m, s)) == val (m, s).
Proof.
  intros Hs. unfold numeric. destruct (m mod 2 ^ s =? 0)%Z eqn:E; [|reflexivity].
  apply Z.eqb_eq in E. pose proof (pow2_pos s Hs).
  pose proof (Z.div_mod m (2 ^ s) ltac:(lia)) as D. rewrite E in D.
  unfold val, frac, Qeq. cbn. rewrite Z2Pos.id by lia. lia.
Qed.

Lemma older_spec ms cutoff : (0 <= ms < 2 ^ 52)%Z -> (0 <= cutoff < 2 ^ 52)%Z ->
  older (store ms) cutoff = (ms <? cutoff)%Z.
Proof.
  intros Hm Hc.
  destruct (julian_bounds ms Hm) as (Sm & _). destruct (julian_bounds cutoff Hc) as (Sc & _).
  assert (E : older (store ms) cutoff = true <-> val (julianday ms) < val (julianday cutoff)).
  { unfold store. destruct (julianday ms) as [m s] eqn:Ej. cbn [snd] in Sm.
    rewrite <- (numeric_val m s Sm). unfold older.
    destruct (numeric (m, s)) as [z|x] eqn:En; cbn [sval].
    - rewrite dlt_val by (cbn; lia). reflexivity.
    - apply dlt_val; [|assumption].
      unfold numeric in En. destruct (_ =? 0)%Z; congruence || (injection En as <-; cbn; lia). }
  rewrite julian_lt in E by assumption.
  destruct (older (store ms) cutoff).
  - symmetry. apply Z.ltb_lt. tauto.
  - symmetry. apply Z.ltb_ge. destruct (Z.lt_ge_cases ms cutoff) as [H|H]; [|assumption].
    apply E in H. discriminate.
Qed.

(** A whole number of days, and only that, is stored as an integer. *)
Lemma julian_whole_only ms m s : (0 <= ms < 2 ^ 50)%Z -> julianday ms = (m, s) ->
  (m mod 2 ^ s = 0)%Z -> (ms mod day_ms = 0)%Z /\ (m / 2 ^ s = ms / day_ms)%Z.
Proof.
  intros Hms Ej Ew. destruct (julian_bounds ms) as (Hs & Hm & Lo & Hi); [lia|].
  rewrite Ej in *. cbn [fst snd] in *.
  pose proof (numeric_val m s Hs) as Ev. unfold numeric in Ev. rewrite Ew in Ev. cbn in Ev.
  set (k := (m / 2 ^ s)%Z) in *. rewrite <- Ev in Lo, Hi.
  (* |k - ms / D| <= u * ms / D, so |k * D - ms| < 1 *)
  assert (inject_Z ms < 1125899906842624 # 1).
  { change (1125899906842624 # 1) with (inject_Z (2 ^ 50)). rewrite <- Zlt_Qlt. lia. }
  assert (Ek : inject_Z (k * day_ms) == inject_Z k * (86400000 # 1))
    by (rewrite inject_Z_mult; reflexivity).
  assert (H1 : inject_Z (k * day_ms) < inject_Z (ms + 1)).
  { rewrite Ek, inject_Z_plus. change (inject_Z 1) with 1. unfold u in *. lra. }
  assert (H2 : inject_Z ms < inject_Z (k * day_ms + 1)).
  { rewrite inject_Z_plus, Ek. change (inject_Z 1) with 1. unfold u in *. lra. }
  rewrite <- Zlt_Qlt in H1, H2. assert (E : ms = (k * day_ms)%Z) by lia.
  rewrite E. split.
  - apply Z.mod_mul. unfold day_ms; lia.
  - symmetry. apply Z.div_mul. unfold day_ms; lia.
Qed.

Lemma julian_whole k : (0 < k < 2 ^ 24)%Z -> store (k * day_ms) = SInt k.
Proof.
  intros Hk. unfold store, julianday.
  destruct (fl_eq (k * day_ms) day_ms) as (s & Hs & E & _); [unfold day_ms; lia..|].
  rewrite E. pose proof (pow2_pos s Hs).
  assert (Em : nearest (k * day_ms * 2 ^ s) day_ms = (k * 2 ^ s)%Z).
  { replace (k * day_ms * 2 ^ s)%Z with (k * 2 ^ s * day_ms)%Z by ring.
    rewrite nearest_whole.
    - apply Z.div_mul. unfold day_ms; lia.
    - unfold day_ms; lia.
    - apply Z.mod_mul. unfold day_ms; lia. }
  rewrite Em. unfold numeric. rewrite Z.mod_mul, Z.div_mul by lia. reflexivity.
Qed.

(** ** What is read back. *)
Definition epoch_ms : Z := 210866760000000.

Lemma val_frac m s : val (m, s) = frac m (2 ^ s).
Proof. reflexivity. Qed.

Lemma frac_bounds n d (b : Z) : (0 < d)%Z -> 0 <= frac n d -> frac n d < inject_Z b ->
  (0 <= n)%Z /\ (n < b * d)%Z.
Proof.
  intros Hd H1 H2. unfold frac, Qle, Qlt in *. cbn in *. rewrite ?Z2Pos.id in * by lia. lia.
Qed.

(** Subtracting the epoch. *)
Lemma since_epoch m s : (0 <= s)%Z ->
  frac (2 * m - 4881175 * 2 ^ s) (2 ^ (s + 1)) == val (m, s) - (4881175 # 2).
Proof.
  intros Hs. pose proof (pow2_pos s Hs). rewrite pow_split by lia. change (2 ^ 1)%Z with 2%Z.
  unfold val, frac, Qeq, Qminus, Qplus, Qopp. cbn [Qnum Qden fst snd].
  rewrite ?Pos2Z.inj_mul, !Z2Pos.id by lia. ring.
Qed.

(** Whole part and fraction. *)
Lemma whole_part m s : (0 <= s)%Z ->
  val (m, s) == inject_Z (m / 2 ^ s) + frac (m mod 2 ^ s) (2 ^ s) /\
  0 <= frac (m mod 2 ^ s) (2 ^ s) /\ frac (m mod 2 ^ s) (2 ^ s) < 1.
Proof.
  intros Hs. pose proof (pow2_pos s Hs) as Hp.
  pose proof (Z.mod_pos_bound m (2 ^ s) Hp). pose proof (Z.div_mod m (2 ^ s) ltac:(lia)).
  unfold val, frac, Qeq, Qle, Qlt, Qplus. cbn [Qnum Qden fst snd inject_Z].
  rewrite ?Pos2Z.inj_mul, ?Z2Pos.id by lia. repeat split; nia.
Qed.

Lemma load_bound ms : (epoch_ms + 10 ^ 9 <= ms < epoch_ms + 253402300800000)%Z ->
  (ms mod day_ms <> 0)%Z ->
  exists t, load (store ms) = Some t /\
    (Z.abs (t - 10 ^ 6 * (ms - epoch_ms)) <= 111000)%Z.
Proof.
  intros [Hlo Hhi] Hw.
  assert (Hr : (0 <= ms < 2 ^ 50)%Z) by (unfold epoch_ms in *; lia).
  destruct (julian_bounds ms) as (Hs & Hm & B1 & B2); [lia|].
  unfold store. destruct (julianday ms) as [m s] eqn:Ej. cbn [fst snd] in *.
  unfold numeric. destruct (m mod 2 ^ s =? 0)%Z eqn:Ew.
  { apply Z.eqb_eq in Ew. destruct (julian_whole_only ms m s Hr Ej Ew). contradiction. }
  apply inject_le in Hlo. apply inject_lt in Hhi.
  change (inject_Z (epoch_ms + 10 ^ 9)) with (210867760000000 # 1) in Hlo.
  change (inject_Z (epoch_ms + 253402300800000)) with (464269060800000 # 1) in Hhi.
  cbn [load].
  (* value - 2440587.5 *)
  pose proof (since_epoch m s Hs) as E1.
  set (n1 := (2 * m - 4881175 * 2 ^ s)%Z) in *.
  pose proof (pow2_pos (s + 1) ltac:(lia)) as P1.
  destruct (frac_bounds n1 (2 ^ (s + 1)) (2 ^ 51)) as [N1 N1']; [exact P1| | |].
  { rewrite E1. unfold u in *. lra. }
  { rewrite E1. change (inject_Z (2 ^ 51)) with (2251799813685248 # 1). unfold u in *. lra. }
  destruct (fl_error n1 (2 ^ (s + 1)) N1 P1 N1') as (S1 & M1 & L1 & U1 & _).
  destruct (fl n1 (2 ^ (s + 1))) as [m1 s1] eqn:F1. cbn [fst snd] in *.
  rewrite E1 in L1, U1. clear F1 N1 N1' E1 P1.
  set (v := val (m, s)) in *. set (v1 := val (m1, s1)) in *.
  (* * 86400.0 *)
  pose proof (pow2_pos s1 S1) as P2.
  pose proof (frac_scale m1 (2 ^ s1) 86400 P2) as E2.
  change (frac m1 (2 ^ s1)) with v1 in E2. change (inject_Z 86400) with (86400 # 1) in E2.
  destruct (frac_bounds (m1 * 86400) (2 ^ s1) (2 ^ 51)) as [N2 N2']; [exact P2| | |].
  { rewrite E2. unfold u in *. lra. }
  { rewrite E2. change (inject_Z (2 ^ 51)) with (2251799813685248 # 1). unfold u in *. lra. }
  assert (N2'' : (2 ^ s1 <= m1 * 86400)%Z).
  { assert (G : frac 1 1 <= frac (m1 * 86400) (2 ^ s1)).
    { rewrite E2. change (frac 1 1) with 1. unfold u in *. lra. }
    rewrite frac_le in G by lia. lia. }
  destruct (fl_error (m1 * 86400) (2 ^ s1) N2 P2 N2') as (S2 & M2 & L2 & U2 & T2).
  specialize (T2 N2'').
  destruct (fl (m1 * 86400) (2 ^ s1)) as [m2 s2] eqn:F2. cbn [fst snd] in *.
  rewrite E2 in L2, U2. clear F2 N2 N2' N2'' E2 P2.
  destruct (whole_part m2 s2 S2) as (W & W0 & W1).
  pose proof (pow2_pos s2 S2) as P3.
  set (v2 := val (m2, s2)) in *. set (sec := (m2 / 2 ^ s2)%Z) in *.
  set (r := (m2 mod 2 ^ s2)%Z) in *.
  (* .fract() * 1E9 *)
  pose proof (frac_scale r (2 ^ s2) (10 ^ 9) P3) as E3.
  change (inject_Z (10 ^ 9)) with (1000000000 # 1) in E3.
  assert (R : (0 <= r < 2 ^ s2)%Z) by (apply Z.mod_pos_bound; lia).
  destruct (fl_error (r * 10 ^ 9) (2 ^ s2)) as (S3 & M3 & L3 & U3 & _); [lia|lia|lia|].
  destruct (fl (r * 10 ^ 9) (2 ^ s2)) as [m3 s3] eqn:F3. cbn [fst snd] in *.
  rewrite E3 in L3, U3.
  destruct (whole_part m3 s3 S3) as (V & V0 & V1).
  set (nanos := (m3 / 2 ^ s3)%Z) in *. set (v3 := val (m3, s3)) in *.
  (* the nanoseconds stay below 10^9 *)
  assert (Q1 : frac r (2 ^ s2) <= 1 - (1 # 4503599627370496)).
  { assert (G : frac r (2 ^ s2) <= frac (2 ^ 52 - 1) (2 ^ 52)).
    { apply frac_le; [lia|lia|].
      assert (2 ^ 52 = 2 ^ s2 * 2 ^ (52 - s2))%Z by (rewrite <- pow_split by lia; f_equal; lia).
      pose proof (pow2_pos (52 - s2) ltac:(lia)).
      assert (2 ^ s2 <= 2 ^ 52)%Z by (apply Z.pow_le_mono_r; lia).
      set (a := (2 ^ 52)%Z) in *. set (b := (2 ^ s2)%Z) in *. nia. }
    change (frac (2 ^ 52 - 1) (2 ^ 52)) with (4503599627370495 # 4503599627370496) in G. lra. }
  assert (Hn : (nanos < 10 ^ 9)%Z).
  { assert (G : inject_Z nanos < inject_Z (10 ^ 9)).
    { change (inject_Z (10 ^ 9)) with (1000000000 # 1). unfold u in *. lra. }
    rewrite <- Zlt_Qlt in G. exact G. }
  replace (nanos <? 10 ^ 9)%Z with true by (symmetry; apply Z.ltb_lt; exact Hn).
  eexists. split; [reflexivity|].
  assert (ET : inject_Z (sec * 10 ^ 9 + nanos - 10 ^ 6 * (ms - epoch_ms)) ==
    inject_Z sec * (1000000000 # 1) + inject_Z nanos - (1000000 # 1) * (inject_Z ms - (210866760000000 # 1))).
  { unfold Z.sub. rewrite !inject_Z_plus, !inject_Z_opp, !inject_Z_mult, !inject_Z_plus. reflexivity. }
  set (t := (sec * 10 ^ 9 + nanos - 10 ^ 6 * (ms - epoch_ms))%Z) in *.
  assert (G1 : inject_Z t <= inject_Z 111000).
  { rewrite ET. change (inject_Z 111000) with (111000 # 1). unfold u in *. lra. }
  assert (G2 : inject_Z (- 111000) <= inject_Z t).
  { rewrite ET. change (inject_Z (- 111000)) with (- (111000 # 1)). unfold u in *. lra. }
  rewrite <- Zle_Qle in G1, G2. lia.
Qed.
