(** Proofs about the queries of SqlQuery.v: what they yield is what Strategy.v says. *)
From Verif Require Export SqlQuery SqlStatements SqlRefine.
From Verif Require Import StrategyProofs.
Local Open Scope N_scope.
Local Opaque heads.

(** *** Lists *)
Lemma perm_fmap {A B} (f : A -> B) (l : list A) (r : list B) : r ≡ₚ f <$> l <-> exists L, r = f <$> L /\ L ≡ₚ l.
Proof.
  split; [|intros (L & -> & ->); done]. intros H. symmetry in H. apply Permutation_sym, Permutation_map_inv in H as (L & -> & HL). exists L. split; [done|by symmetry].
Qed.
Lemma sorted_fmap {A B} (f : A -> B) (R : B -> B -> Prop) (l : list A) : StronglySorted R (f <$> l) <-> StronglySorted (fun a b => R (f a) (f b)) l.
Proof.
  induction l as [|a l IH]; [split; constructor|]. split; intros H; inversion H as [|?? H1 H2]; subst; constructor; try (by apply IH).
  - by apply (Forall_fmap f) in H2.
  - by apply (Forall_fmap f).
Qed.
Lemma sorted_iff {A} (R R' : A -> A -> Prop) (l : list A) : (forall a b, R a b <-> R' a b) -> StronglySorted R l <-> StronglySorted R' l.
Proof.
  intros H. induction l as [|a l IH]; [split; constructor|]. split; intros Hs; inversion Hs as [|?? H1 H2]; subst; constructor; try (by apply IH);
    eapply Forall_impl; [exact H2| |exact H2|]; intros; by apply H.
Qed.
Lemma sorted_iff_in {A} (R R' : A -> A -> Prop) (l : list A) : (forall a b, a ∈ l -> b ∈ l -> R a b <-> R' a b) -> StronglySorted R' l -> StronglySorted R l.
Proof.
  intros H Hs. induction Hs as [|a l Hs IH Ha]; constructor.
  - apply IH. intros; apply H; by right.
  - rewrite Forall_forall in *. intros b Hb. apply H; [left|by right|by apply Ha].
Qed.
Lemma filter_fmap {A B} (f : A -> B) (p : B -> bool) (P : A -> Prop) `{forall x, Decision (P x)} (l : list A) :
  (forall a, p (f a) = bool_decide (P a)) -> List.filter p (f <$> l) = f <$> filter P l.
Proof.
  intros Hp. induction l as [|a l IH]; [done|]. rewrite filter_cons. cbn [fmap list_fmap List.filter]. rewrite Hp, IH.
  destruct (decide (P a)); [by rewrite bool_decide_eq_true_2|by rewrite bool_decide_eq_false_2].
Qed.
Lemma filter_of_fmap {A B} (f : A -> B) (P : B -> Prop) `{forall x, Decision (P x)} (l : list A) : filter P (f <$> l) = f <$> filter (fun a => P (f a)) l.
Proof. induction l as [|a l IH]; [done|]. rewrite filter_cons. cbn [fmap list_fmap]. rewrite filter_cons. destruct (decide (P (f a))); [cbn; by rewrite <- IH|done]. Qed.
Lemma filter_yes {A} (p : A -> bool) (l : list A) : (forall a, p a = true) -> List.filter p l = l.
Proof. intros H. induction l as [|a l IH]; [done|]. cbn. by rewrite H, IH. Qed.
Lemma imap_fmap {A B C} (f : A -> B) (g : nat -> B -> C) (l : list A) : imap g (f <$> l) = imap (fun i a => g i (f a)) l.
Proof. revert g. induction l as [|a l IH]; intros g; [done|]. cbn [fmap list_fmap]. rewrite !imap_cons. f_equal. apply IH. Qed.
Lemma imap_const {A B} (g : A -> B) (l : list A) : imap (fun _ a => g a) l = g <$> l.
Proof. induction l as [|a l IH]; [done|]. rewrite imap_cons. cbn [fmap list_fmap]. f_equal. exact IH. Qed.
Lemma Forall2_fun {A B} (f : A -> B) (l : list A) (k : list B) : Forall2 (fun a b => b = f a) l k <-> k = f <$> l.
Proof.
  split; [intros H; induction H as [|a b l k -> _ IH]; [done|cbn; by f_equal]|]. intros ->. induction l; by constructor.
Qed.
Lemma concat_singles {A B} (f : A -> B) (l : list A) : concat ((fun a => [f a]) <$> l) = f <$> l.
Proof. induction l as [|a l IH]; [done|]. cbn. by f_equal. Qed.
Lemma Forall2_fmap_l' {A A' B} (g : A -> A') (P : A' -> B -> Prop) l k : Forall2 P (g <$> l) k <-> Forall2 (fun a b => P (g a) b) l k.
Proof.
  revert k. induction l as [|a l IH]; intros [|b k]; cbn [fmap list_fmap]; split; intros H; inversion H; subst; constructor; try done; by apply IH.
Qed.
Lemma Forall2_iff {A B} (P Q : A -> B -> Prop) l k : (forall a b, P a b <-> Q a b) -> Forall2 P l k <-> Forall2 Q l k.
Proof. intros H. split; intros HF; (eapply Forall2_impl; [exact HF|]); intros a b; by rewrite H. Qed.

(** *** CAST of a number's text *)
Lemma digit_char k : k < 10 -> digit_of (pretty_N_char k) = Some (Z.of_N k).
Proof.
  intros H. assert (Hk : In (N.to_nat k) (seq 0 10)) by (apply in_seq; lia). rewrite <- (N2Nat.id k). revert Hk. generalize (N.to_nat k). intros j Hj.
  cbn in Hj. repeat (destruct Hj as [<-|Hj]; [reflexivity|]). done.
Qed.
Lemma digits_go x : 0 < x -> forall s, digits 0 (pretty_N_go x s) = digits (Z.of_N x) s.
Proof.
  induction x as [x IH] using (well_founded_induction N.lt_wf_0). intros Hx s. rewrite pretty_N_go_step by done.
  assert (Hm : x mod 10 < 10) by (by apply N.mod_lt). pose proof (N.div_mod x 10 ltac:(done)) as E.
  assert (Hd : forall acc, digits acc (String (pretty_N_char (x mod 10)) s) = digits (acc * 10 + Z.of_N (x mod 10)) s) by (intros acc; cbn [digits]; by rewrite digit_char).
  destruct (decide (x / 10 = 0)) as [E0|E0].
  - rewrite E0, pretty_N_go_0, Hd. f_equal. lia.
  - rewrite IH, Hd; [f_equal; lia|apply N.div_lt; lia|lia].
Qed.
Lemma not_minus k : k < 10 -> pretty_N_char k <> Ascii.ascii_of_nat 45.
Proof.
  intros H. assert (Hk : In (N.to_nat k) (seq 0 10)) by (apply in_seq; lia). rewrite <- (N2Nat.id k). revert Hk. generalize (N.to_nat k). intros j Hj.
  cbn in Hj. repeat (destruct Hj as [<-|Hj]; [discriminate|]). done.
Qed.
Lemma go_head x : 0 < x -> forall s, exists k s', k < 10 /\ pretty_N_go x s = String (pretty_N_char k) s'.
Proof.
  induction x as [x IH] using (well_founded_induction N.lt_wf_0). intros Hx s. rewrite pretty_N_go_step by done.
  destruct (decide (x / 10 = 0)) as [E0|E0].
  - rewrite E0, pretty_N_go_0. eexists _, _. split; [|done]. by apply N.mod_lt.
  - apply IH; [apply N.div_lt; lia|by apply N.neq_0_lt_0].
Qed.
Lemma int_text_pos p : int_text (pretty (Npos p)) = Zpos p.
Proof.
  unfold pretty, pretty_N. rewrite decide_False by done. destruct (go_head (Npos p) ltac:(done) "") as (k & s' & Hk & E).
  pose proof (digits_go (Npos p) ltac:(done) "") as Hg. rewrite E in *. unfold int_text. rewrite bool_decide_eq_false_2 by (by apply not_minus). exact Hg.
Qed.
Lemma int_text_pretty z : int_text (pretty z) = z.
Proof.
  destruct z as [|p|p]; [done|exact (int_text_pos p)|]. change (pretty (Zneg p)) with (String (Ascii.ascii_of_nat 45) (pretty (Npos p))).
  unfold int_text. rewrite bool_decide_eq_true_2 by done. unfold pretty, pretty_N. rewrite decide_False by done. by rewrite digits_go.
Qed.

(** *** Names *)
Lemma counts_name_inj i j : counts_name i = counts_name j -> i = j.
Proof. unfold counts_name. intros E. apply (inj (String.append "counts_")) in E. unfold pretty, pretty_nat in E. apply (inj pretty) in E. lia. Qed.
Lemma meta_name_inj i j : meta_name i = meta_name j -> i = j.
Proof. unfold meta_name. intros E. apply (inj (String.append "s")) in E. unfold pretty, pretty_nat in E. apply (inj pretty) in E. lia. Qed.

(** *** Rows and scopes *)
Definition enc_c (c : chunk) : srow := [v_n (c_sub c); v_n (c_index c); v_blob (c_input c); v_n (c_retries c)].
Definition sc_chunk (c : chunk) : scope := [("chunks", (h_chunks, enc_c c))].
Definition sc_sub (x : sub_id * sub_row) : scope := [("submissions", (h_submissions, enc_sub x))].
Definition sc_meta (a : string) (x : sub_id * string * Z) : scope := [(a, (h_metadata, enc_meta x))].
(** "SELECT *" from chunks. *)
Definition out_c (c : chunk) : srow := enc_c c ++ [default VNull (cell h_chunks (enc_c c) "random_order")].
Definition chunk_cols : list string := ["submission_id"; "chunk_index"; "input_content"; "retries"; "random_order"].
Lemma dec_out c : dec_chunk chunk_cols (out_c c) = Some c.
Proof.
  destruct c as [id ix input retries]. unfold dec_chunk, row_cell, chunk_cols, out_c, enc_c. cbn -[as_n as_blob v_n v_blob cell].
  rewrite !as_v_n. cbn -[as_n as_blob v_n v_blob cell]. rewrite as_v_blob. done.
Qed.
Lemma holds_int x y : holds (v_eq (VInt x) (VInt y)) = bool_decide (x = y).
Proof.
  unfold v_eq, truth, holds. destruct (decide (x = y)) as [->|Hne]; [by rewrite !bool_decide_eq_true_2|]. rewrite !bool_decide_eq_false_2 by congruence. done.
Qed.
Lemma holds_text x y : holds (v_eq (VText x) (VText y)) = bool_decide (x = y).
Proof.
  unfold v_eq, truth, holds. destruct (decide (x = y)) as [->|Hne]; [by rewrite !bool_decide_eq_true_2|]. rewrite !bool_decide_eq_false_2 by congruence. done.
Qed.
Lemma holds_ge x y : holds (v_ge (v_n x) (v_n y)) = bool_decide (y <= x).
Proof.
  unfold v_ge, v_n. rewrite holds_truth. apply Bool.eq_iff_eq_true. rewrite Z.leb_le, bool_decide_eq_true. lia.
Qed.
Lemma holds_lt x y : holds (v_lt (v_n x) (v_n y)) = bool_decide (x < y).
Proof.
  unfold v_lt, v_n. rewrite holds_truth. apply Bool.eq_iff_eq_true. rewrite Z.ltb_lt, bool_decide_eq_true. lia.
Qed.

(** *** The generated columns *)
Lemma random_cells : forall id ix r s, id < 2 ^ 62 -> ix < 2 ^ 61 ->
  cell h_chunks (enc_chunk (id, ix, r)) "random_order" = Some (v_n (chunk_random_order id ix)) /\
  cell h_submissions (enc_sub (id, s)) "random_order" = Some (v_n (sub_random_order id)).
Proof.
  intros id ix r s Hid Hix. assert (Hs : (Z.shiftr (Z.of_N id) 22 = Z.of_N (N.shiftr id 22))%Z) by (rewrite Z.shiftr_div_pow2, N.shiftr_div_pow2, N2Z.inj_div by done; done).
  assert (Hb : N.shiftr id 22 <= id) by (rewrite N.shiftr_div_pow2; apply N.div_le_upper_bound; [done|]; nia).
  assert (Hb' : N.shiftr id 22 < 2 ^ 40) by (rewrite N.shiftr_div_pow2; apply N.div_lt_upper_bound; [done|]; exact Hid).
  assert (Hz : forall n, n < 2 ^ 63 -> Z.rem (clamp (Z.rem (clamp (Z.of_N n)) (clamp 65536) * 40503)) (clamp 65536) = Z.of_N (((n mod 65536) * 40503) mod 65536)).
  { intros n Hn. unfold clamp. rewrite (Z.min_l 65536) by done. rewrite (Z.min_l (Z.of_N n)) by lia.
    rewrite (Z.rem_mod_nonneg (Z.of_N n)) by lia. pose proof (Z.mod_pos_bound (Z.of_N n) 65536 ltac:(done)).
    rewrite Z.min_l by lia. rewrite Z.rem_mod_nonneg by lia. rewrite N2Z.inj_mod, N2Z.inj_mul, N2Z.inj_mod. done. }
  split.
  - unfold cell. cbn -[clamp Z.rem Z.shiftr Z.mul Z.add Z.of_N chunk_random_order]. rewrite Hs, <- !N2Z.inj_add. unfold v_n, chunk_random_order. rewrite Hz by lia. done.
  - unfold cell. cbn -[clamp Z.rem Z.shiftr Z.mul Z.add Z.of_N sub_random_order]. rewrite Hs, <- !N2Z.inj_add. unfold v_n, sub_random_order. rewrite Hz by lia. done.
Qed.
Definition cut_at (ge : bool) (off p : N) : Prop := if ge then off <= p else p < off.
Global Instance cut_at_dec ge off p : Decision (cut_at ge off p).
Proof. unfold cut_at. destruct ge; apply _. Defined.

Lemma filter_single {A} `{EqDecision A} (e : A) (l : list A) : NoDup l -> filter (fun y => y = e) l = if bool_decide (e ∈ l) then [e] else [].
Proof.
  intros Hn. induction Hn as [|x l Hx Hn IH]; [done|]. rewrite filter_cons, IH. destruct (decide (x = e)) as [->|Hne].
  - rewrite (bool_decide_eq_false_2 (e ∈ l)) by done. by rewrite bool_decide_eq_true_2 by left.
  - rewrite (bool_decide_ext (e ∈ x :: l) (e ∈ l)); [done|]. rewrite elem_of_cons. naive_solver.
Qed.
Lemma filter_same {A} (P Q : A -> Prop) `{forall x, Decision (P x)} `{forall x, Decision (Q x)} (l : list A) : (forall x, P x <-> Q x) -> filter P l = filter Q l.
Proof.
  intros Hpq. induction l as [|x l IH]; [done|]. rewrite !filter_cons, IH. destruct (decide (P x)), (decide (Q x)); try done; exfalso; naive_solver.
Qed.
Lemma lfilter_fmap {A B} (f : A -> B) (p : B -> bool) (l : list A) : List.filter p (f <$> l) = f <$> List.filter (fun a => p (f a)) l.
Proof. induction l as [|a l IH]; [done|]. cbn [fmap list_fmap List.filter]. rewrite IH. by destruct (p (f a)). Qed.
Lemma lfilter_ext {A} (p q : A -> bool) (l : list A) : (forall a, p a = q a) -> List.filter p l = List.filter q l.
Proof. intros H. induction l as [|a l IH]; [done|]. cbn. by rewrite H, IH. Qed.

Lemma omap_if {A} (x : option Z) (g : N -> A) (l : list (Z * N)) :
  omap (fun '(v, n) => if bool_decide (x = Some v) then Some (g n) else None) l = g <$> omap (fun '(v, n) => if bool_decide (x = Some v) then Some n else None) l.
Proof.
  induction l as [|[v n] l IH]; [done|]. cbn [omap list_omap]. fold (omap (M := list) (A := Z * N) (B := A)). 
  destruct (bool_decide (x = Some v)); [|exact IH]. cbn [fmap list_fmap]. f_equal. exact IH.
Qed.

Section queries.
Context (rsv : chunk_id -> bool) (m : metastate) (D : sdb) (d : db) (HD : stands_for D d).
Local Notation qy ps := (q_yields (ask_reserved rsv) (ask_counts m) ps D).
Local Notation sy ps := (s_yields (ask_reserved rsv) (ask_counts m) ps D).
Local Notation evq ps := (ev_q (ask_reserved rsv) ps D).

Lemma y_chunks ps ct l : SqlLang.assoc "chunks" ct = None -> sy ps ct (FTable "chunks" "chunks") l <-> exists L, L ≡ₚ all_chunks d /\ l = sc_chunk <$> L.
Proof.
  intros Hc. cbn [s_yields]. rewrite Hc. rewrite (sf_heads _ _ HD). rewrite heads_chunks.
  assert (E : rows_in D "chunks" ≡ₚ enc_c <$> all_chunks d).
  { rewrite (sf_chunks _ _ HD). unfold all_chunks. rewrite <- list_fmap_compose. apply reflexive_eq, list_fmap_ext. by intros ? [[? ?] []]. }
  split.
  - intros (h & rs & [= <-] & Hr & ->). rewrite E in Hr. apply perm_fmap in Hr as (L & -> & HL). exists L. split; [done|]. by rewrite <- list_fmap_compose.
  - intros (L & HL & ->). exists h_chunks, (enc_c <$> L). split_and!; [done|by rewrite E, HL|]. by rewrite <- list_fmap_compose.
Qed.
Lemma y_subs ps ct l : SqlLang.assoc "submissions" ct = None -> sy ps ct (FTable "submissions" "submissions") l <-> exists L, L ≡ₚ map_to_list (t_sub d) /\ l = sc_sub <$> L.
Proof.
  intros Hc. cbn [s_yields]. rewrite Hc. rewrite (sf_heads _ _ HD). rewrite heads_subs. pose proof (sf_subs _ _ HD) as E. split.
  - intros (h & rs & [= <-] & Hr & ->). rewrite E in Hr. apply perm_fmap in Hr as (L & -> & HL). exists L. split; [done|]. by rewrite <- list_fmap_compose.
  - intros (L & HL & ->). exists h_submissions, (enc_sub <$> L). split_and!; [done|by rewrite E, HL|]. by rewrite <- list_fmap_compose.
Qed.
Lemma y_metas ps ct a l : SqlLang.assoc "submissions_metadata" ct = None ->
  sy ps ct (FTable "submissions_metadata" a) l <-> exists L, L ≡ₚ map_to_list (t_meta d) /\ l = sc_meta a <$> L.
Proof.
  intros Hc. cbn [s_yields]. rewrite Hc. rewrite (sf_heads _ _ HD). rewrite heads_metas. pose proof (sf_metas _ _ HD) as E. split.
  - intros (h & rs & [= <-] & Hr & ->). rewrite E in Hr. apply perm_fmap in Hr as (L & -> & HL). exists L. split; [done|]. by rewrite <- list_fmap_compose.
  - intros (L & HL & ->). exists h_metadata, (enc_meta <$> L). split_and!; [done|by rewrite E, HL|]. by rewrite <- list_fmap_compose.
Qed.

(** A SELECT whose rows come from a known list. *)
Lemma y_select_gen {X} ps ct outs from w order (sc : X -> scope) (all : list X) (P : X -> Prop) `{forall x, Decision (P x)} (R : X -> X -> Prop) (o : X -> srow) limit l :
  (forall ls, sy ps ct from ls -> exists L, L ≡ₚ all /\ ls = sc <$> L) -> (exists L, L ≡ₚ all /\ sy ps ct from (sc <$> L)) ->
  (forall x, holds (evq ps (sc x) w) = bool_decide (P x)) ->
  (forall i x, concat (out_vals (ask_reserved rsv) ps D i (sc x) <$> outs) = o x) ->
  order <> [] -> (forall x y, x ∈ all -> y ∈ all -> sorted_by (ask_reserved rsv) ps D order (sc x) (sc y) <-> R x y) ->
  qy ps ct (QSelect outs from w order limit) l <-> exists L, L ≡ₚ filter P all /\ StronglySorted R L /\ l = limited (ask_reserved rsv) ps D limit (o <$> L).
Proof.
  intros Hf (L0 & HL0 & Hy0) Hw Ho Hne Hs. cbn [q_yields]. destruct order as [|oo order]; [done|].
  assert (Hin : forall L L', L' ≡ₚ filter P L -> L ≡ₚ all -> forall x, x ∈ L' -> x ∈ all) by (intros L L' H1 H2 x Hx; rewrite H1, elem_of_list_filter, H2 in Hx; tauto).
  split.
  - intros (ls & ls' & Hy & [Hp Hso] & ->). apply Hf in Hy as (L & HL & ->). rewrite (filter_fmap sc _ P) in Hp by done.
    apply perm_fmap in Hp as (L' & -> & HL'). exists L'. split_and!.
    + by rewrite HL', HL.
    + apply (sorted_fmap sc) in Hso. eapply sorted_iff_in; [|exact Hso]. intros a b Ha Hb. symmetry. apply Hs; by eapply Hin.
    + f_equal. rewrite imap_fmap. rewrite <- imap_const. by apply imap_ext.
  - intros (L & HL & Hso & ->). exists (sc <$> L0), (sc <$> L). split_and!.
    + done.
    + rewrite (filter_fmap sc _ P) by done. by rewrite HL, HL0.
    + apply (sorted_fmap sc). eapply sorted_iff_in; [|exact Hso]. intros a b Ha Hb. apply Hs; by eapply Hin.
    + f_equal. rewrite imap_fmap. rewrite <- imap_const. by apply imap_ext.
Qed.
Lemma y_select {X} ps ct outs from w order (sc : X -> scope) (all : list X) (P : X -> Prop) `{forall x, Decision (P x)} (R : X -> X -> Prop) (o : X -> srow) l :
  (forall ls, sy ps ct from ls <-> exists L, L ≡ₚ all /\ ls = sc <$> L) ->
  (forall x, holds (evq ps (sc x) w) = bool_decide (P x)) ->
  (forall i x, concat (out_vals (ask_reserved rsv) ps D i (sc x) <$> outs) = o x) ->
  order <> [] -> (forall x y, sorted_by (ask_reserved rsv) ps D order (sc x) (sc y) <-> R x y) ->
  qy ps ct (QSelect outs from w order None) l <-> exists L, L ≡ₚ filter P all /\ StronglySorted R L /\ l = o <$> L.
Proof.
  intros Hf Hw Ho Hne Hs. apply (y_select_gen ps ct outs from w order sc all P R o None); [|exists all; split; [done|]; apply Hf; by exists all|done..|intros x y _ _; apply Hs].
  intros ls. apply Hf.
Qed.
Lemma y_select_any {X} ps ct outs from w (sc : X -> scope) (all : list X) (P : X -> Prop) `{forall x, Decision (P x)} (o : X -> srow) l :
  (forall ls, sy ps ct from ls <-> exists L, L ≡ₚ all /\ ls = sc <$> L) ->
  (forall x, x ∈ all -> holds (evq ps (sc x) w) = bool_decide (P x)) ->
  (forall i x, concat (out_vals (ask_reserved rsv) ps D i (sc x) <$> outs) = o x) ->
  qy ps ct (QSelect outs from w [] None) l <-> exists L, L ≡ₚ filter P all /\ l = o <$> L.
Proof.
  intros Hf Hw Ho. cbn [q_yields]. unfold limited. cbn [fmap option_fmap option_map].
  assert (Hff : forall L, L ≡ₚ all -> List.filter (fun s => holds (evq ps s w)) (sc <$> L) = sc <$> filter P L).
  { intros L HL. assert (Hw' : forall x, x ∈ L -> holds (evq ps (sc x) w) = bool_decide (P x)) by (intros x Hx; apply Hw; by rewrite <- HL). clear HL.
    induction L as [|x L IH]; [done|]. rewrite filter_cons. cbn [fmap list_fmap List.filter]. rewrite Hw' by left. rewrite IH by (intros; apply Hw'; by right).
    destruct (decide (P x)); [by rewrite bool_decide_eq_true_2|by rewrite bool_decide_eq_false_2]. }
  split.
  - intros (ls & ls' & Hy & -> & ->). apply Hf in Hy as (L & HL & ->). rewrite Hff by done. exists (filter P L). split; [by rewrite HL|].
    rewrite imap_fmap. rewrite <- imap_const. by apply imap_ext.
  - intros (L & HL & ->).
    assert (HL' : L ++ filter (fun x => ~ P x) all ≡ₚ all).
    { rewrite HL. clear. induction all as [|x all IH]; [done|]. rewrite !filter_cons. destruct (decide (P x)); [rewrite decide_False by tauto; cbn; by rewrite IH|].
      rewrite decide_True by done. by rewrite <- Permutation_middle, IH. }
    exists (sc <$> L ++ filter (fun x => ~ P x) all), (sc <$> L). split_and!.
    + apply Hf. by eexists.
    + rewrite Hff by done. f_equal. rewrite filter_app. assert (E1 : filter P L = L).
      { assert (Hall : Forall P L) by (apply Forall_forall; intros x Hx; rewrite HL, elem_of_list_filter in Hx; tauto). clear - Hall.
        induction Hall as [|x L Hx _ IH]; [done|]. by rewrite filter_cons_True, IH. }
      assert (E2 : filter P (filter (fun x => ~ P x) all) = []).
      { clear. induction all as [|x all IH]; [done|]. rewrite filter_cons. destruct (decide (~ P x)); [|done]. by rewrite filter_cons_False. }
      rewrite E1, E2. by rewrite app_nil_r.
    + rewrite imap_fmap. rewrite <- imap_const. by apply imap_ext.
Qed.

(** *** Chunks, without preferences *)
Lemma w_reserved ps sc c : resolve sc (Some "chunks") "submission_id" = v_n (c_sub c) -> resolve sc (Some "chunks") "chunk_index" = v_n (c_index c) ->
  holds (evq ps sc is_not_reserved) = bool_decide (rsv (c_sub c, c_index c) = false).
Proof.
  intros H1 H2. unfold ev_q, is_not_reserved, tcol. cbn [eval]. rewrite H1, H2. unfold v_n at 1 2, ask_reserved. rewrite !N2Z.id. by destruct (rsv _).
Qed.
Lemma w_chunk ps c : holds (evq ps (sc_chunk c) is_not_reserved) = bool_decide (rsv (c_sub c, c_index c) = false).
Proof. by apply w_reserved. Qed.
Lemma o_chunk ps i c : concat (out_vals (ask_reserved rsv) ps D i (sc_chunk c) <$> all_columns) = out_c c.
Proof. reflexivity. Qed.
Lemma cmp_n (a b : N) : v_cmp (v_n a) (v_n b) = (a ?= b).
Proof. unfold v_cmp, v_n. by rewrite N2Z.inj_compare. Qed.
Lemma sorted_one ps e sc1 sc2 a b (desc : bool) : evq ps sc1 e = v_n a -> evq ps sc2 e = v_n b ->
  sorted_by (ask_reserved rsv) ps D [(e, desc)] sc1 sc2 <-> if desc then b <= a else a <= b.
Proof.
  intros H1 H2. unfold sorted_by, key_vals. cbn [fmap list_fmap fst snd keys_cmp]. rewrite H1, H2, cmp_n.
  destruct (N.compare_spec a b), desc; cbn [CompOpp]; split; intros; try done; try lia; try congruence.
Qed.
Lemma y_sorted_chunks ps (desc : bool) l : qy ps [] (QSelect all_columns (FTable "chunks" "chunks") is_not_reserved [(col "submission_id", desc)] None) l <->
  exists L, L ≡ₚ available d rsv /\ StronglySorted (fun a b => if desc then c_sub b <= c_sub a else c_sub a <= c_sub b) L /\ l = out_c <$> L.
Proof.
  apply (y_select ps [] _ _ _ _ sc_chunk (all_chunks d) (fun c => rsv (c_sub c, c_index c) = false)).
  - intros ls. by apply y_chunks.
  - apply w_chunk.
  - intros i x. apply o_chunk.
  - done.
  - intros x y. by apply sorted_one.
Qed.
Definition ids_fit : Prop := (forall c, c ∈ all_chunks d -> c_sub c < 2 ^ 62 /\ c_index c < 2 ^ 61) /\ (forall id, id ∈ all_subs d -> id < 2 ^ 62).
Definition e_cut (ge : bool) (n : nat) : expr := if ge then EGe (col "random_order") (par (S n)) else ELt (col "random_order") (par (S n)).
Lemma w_cut ps sc n off (ge : bool) p : ps !! n = Some (v_n off) -> resolve sc None "random_order" = v_n p -> holds (evq ps sc (e_cut ge n)) = bool_decide (cut_at ge off p).
Proof.
  intros Hp Hc. unfold ev_q, e_cut, col, par, cut_at. destruct ge; cbn [eval Nat.pred]; rewrite Hc, Hp; cbn [default from_option id]; [apply holds_ge|apply holds_lt].
Qed.
Lemma y_cut_chunks ps n off ge l : ids_fit -> ps !! n = Some (v_n off) ->
  qy ps [] (QSelect all_columns (FTable "chunks" "chunks") (EAnd (e_cut ge n) is_not_reserved) [] None) l <->
  exists L, L ≡ₚ filter (fun c => cut_at ge off (c_random c)) (available d rsv) /\ l = out_c <$> L.
Proof.
  intros [Hc _] Hp. rewrite (y_select_any ps [] _ _ _ sc_chunk (all_chunks d) (fun c => cut_at ge off (c_random c) /\ rsv (c_sub c, c_index c) = false) out_c).
  - unfold available. rewrite list_filter_filter. done.
  - intros ls. by apply y_chunks.
  - intros c Hin. destruct (Hc c Hin) as [H1 H2]. unfold ev_q. cbn [eval]. rewrite holds_and.
    change (eval (ask_reserved rsv) ps (s_head D) (rows_in D)) with (ev_q (ask_reserved rsv) ps D). rewrite w_chunk, bool_decide_and. f_equal.
    apply w_cut; [done|]. cbn [resolve sc_chunk]. destruct c as [id ix input retries]. 
    pose proof (proj1 (random_cells id ix (ChunkRow input retries) (SubRow None 0 0 None "" None) H1 H2)) as E. cbn [enc_chunk] in E. unfold enc_c. cbn [c_sub c_index c_input c_retries ch_input ch_retries] in *. by rewrite E.
  - intros i x. apply o_chunk.
Qed.
Lemma y_random_chunks off l : ids_fit ->
  qy (b_random all_columns "chunks" (Some is_not_reserved) off 0).2 [] (b_random all_columns "chunks" (Some is_not_reserved) off 0).1 l <->
  exists L, random_query c_random off (available d rsv) L /\ l = out_c <$> L.
Proof.
  intros Hf. unfold b_random. cbn [fst snd Nat.add]. set (ps := [v_n off; v_n off]). cbn [q_yields].
  pose proof (y_cut_chunks ps 0 off true) as H1. pose proof (y_cut_chunks ps 1 off false) as H2. unfold e_cut, cut_at in H1, H2. split.
  - intros (la & lb & Ha & Hb & ->). apply H1 in Ha as (La & Ha & ->); [|done..]. apply H2 in Hb as (Lb & Hb & ->); [|done..].
    exists (La ++ Lb). split; [by exists La, Lb|]. by rewrite fmap_app.
  - intros (L & (l1 & l2 & -> & Hl1 & Hl2) & ->). exists (out_c <$> l1), (out_c <$> l2). split_and!; [apply H1; [done..|by exists l1]|apply H2; [done..|by exists l2]|by rewrite fmap_app].
Qed.

(** *** Submission ids, without preferences *)
Definition out_id (id : sub_id) : srow := [v_n id].
Definition simple (s : strategy) : Prop := match s with PreferDistinct _ _ => False | _ => True end.
Lemma y_sorted_ids ps ct (desc : bool) l : SqlLang.assoc "submissions" ct = None ->
  qy ps ct (QSelect id_as_submission_id (FTable "submissions" "submissions") yes [(col "id", desc)] None) l <->
  exists ids, ids ≡ₚ all_subs d /\ StronglySorted (fun a b => if desc then b <= a else a <= b) ids /\ l = out_id <$> ids.
Proof.
  intros Hc. rewrite (y_select ps ct _ _ _ _ sc_sub (map_to_list (t_sub d)) (fun _ => True) (fun a b => if desc then b.1 <= a.1 else a.1 <= b.1) (fun x => out_id x.1)).
  - assert (E : filter (fun _ : sub_id * sub_row => True) (map_to_list (t_sub d)) = map_to_list (t_sub d)) by (induction (map_to_list (t_sub d)) as [|x L IH]; [done|by rewrite filter_cons_True, IH]).
    rewrite E. unfold all_subs. split.
    + intros (L & HL & Hs & ->). exists L.*1. split_and!; [by rewrite HL|by apply (sorted_fmap fst)|by rewrite <- list_fmap_compose].
    + intros (ids & Hi & Hs & ->). apply perm_fmap in Hi as (L & -> & HL). exists L. split_and!; [done|by apply (sorted_fmap fst) in Hs|by rewrite <- list_fmap_compose].
  - intros ls. by apply y_subs.
  - done.
  - intros i [id r]. reflexivity.
  - done.
  - intros [x r] [y r']. by apply sorted_one.
Qed.
Lemma y_cut_ids ps ct n off ge l : ids_fit -> SqlLang.assoc "submissions" ct = None -> ps !! n = Some (v_n off) ->
  qy ps ct (QSelect id_as_submission_id (FTable "submissions" "submissions") (e_cut ge n) [] None) l <->
  exists ids, ids ≡ₚ filter (fun id => cut_at ge off (sub_random_order id)) (all_subs d) /\ l = out_id <$> ids.
Proof.
  intros [_ Hf] Hct Hp. rewrite (y_select_any ps ct _ _ _ sc_sub (map_to_list (t_sub d)) (fun x => cut_at ge off (sub_random_order x.1)) (fun x => out_id x.1)).
  - unfold all_subs. rewrite (filter_of_fmap fst). split.
    + intros (L & HL & ->). exists L.*1. split; [by rewrite HL|by rewrite <- list_fmap_compose].
    + intros (ids & Hi & ->). apply perm_fmap in Hi as (L & -> & HL). exists L. split; [done|by rewrite <- list_fmap_compose].
  - intros ls. by apply y_subs.
  - intros [id r] Hin. apply w_cut; [done|]. assert (Hid : id < 2 ^ 62) by (apply Hf; unfold all_subs; apply elem_of_list_fmap; by exists (id, r)).
    pose proof (proj2 (random_cells id 0 (ChunkRow None 0) r Hid ltac:(done))) as E. cbn [resolve sc_sub]. by rewrite E.
  - intros i [id r]. reflexivity.
Qed.
Lemma y_ids_inner s off n ct ps l : ids_fit -> simple s -> SqlLang.assoc "submissions" ct = None ->
  (forall j v, (b_ids_inner s off n).2 !! j = Some v -> ps !! (n + j)%nat = Some v) ->
  qy ps ct (b_ids_inner s off n).1 l <-> exists ids, query_inner s off d ids /\ l = out_id <$> ids.
Proof.
  intros Hf Hs Hct Hps. destruct s; cbn [b_ids_inner fst snd query_inner] in *; [| | |done].
  - rewrite y_sorted_ids by done. split; intros (ids & H); exists ids; tauto.
  - rewrite y_sorted_ids by done. split; intros (ids & H); exists ids; tauto.
  - unfold b_random in *. cbn [fst snd q_yields] in *.
    pose proof (Hps 0%nat _ eq_refl) as H0. pose proof (Hps 1%nat _ eq_refl) as H1. rewrite !Nat.add_0_r, !(Nat.add_comm n) in *. cbn [Nat.add] in *.
    pose proof (fun l => y_cut_ids ps ct n off true l Hf Hct H0) as Ha. pose proof (fun l => y_cut_ids ps ct (S n) off false l Hf Hct H1) as Hb. unfold e_cut, cut_at in Ha, Hb. split.
    + intros (la & lb & Hla & Hlb & ->). apply Ha in Hla as (La & Hla & ->). apply Hb in Hlb as (Lb & Hlb & ->).
      exists (La ++ Lb). split; [by exists La, Lb|]. by rewrite fmap_app.
    + intros (L & (l1 & l2 & -> & Hl1 & Hl2) & ->). exists (out_id <$> l1), (out_id <$> l2). split_and!; [apply Ha; by exists l1|apply Hb; by exists l2|by rewrite fmap_app].
Qed.

(** *** The common tables counts_i *)
Definition count_cols : list string := ["submission_id"; "count"].
(** The rows in the table for one key that belong to a submission: one with its counter, or none. *)
Definition counts_for (key : string) (rs : list srow) : Prop := forall id,
  List.filter (fun r => holds (v_eq (v_n id) (default VNull (cell (plain count_cols) r "submission_id")))) rs =
  match in_flight_c d m id key with Some n => [[v_n id; v_n n]] | None => [] end.
Definition sc_json (x : Z * N) : scope := [("ffi_counts", (plain ["key"; "value"], [VText (pretty x.1); VInt (Z.of_N x.2)]))].
Definition e_value : expr := EEq (tcol "sm" "metadata_value") (ECast (tcol "ffi_counts" "key")).
Lemma json_group ps x L : on_rows (ask_reserved rsv) ps D e_value (sc_json x) (sc_meta "sm" <$> L) = (fun y => sc_json x ++ sc_meta "sm" y) <$> filter (fun y => y.2 = x.1) L.
Proof.
  unfold on_rows. rewrite <- list_fmap_compose. apply (filter_fmap _ _ (fun y : sub_id * string * Z => y.2 = x.1)). intros [[id k] v]. unfold ev_q, e_value, tcol. cbn [eval].
  change (resolve _ (Some "sm") "metadata_value") with (VInt v). change (resolve _ (Some "ffi_counts") "key") with (VText (pretty x.1)).
  cbn [v_cast]. rewrite int_text_pretty. by rewrite holds_int.
Qed.
Lemma count_group key id (x : Z * N) (L : list (sub_id * string * Z)) : L ≡ₚ map_to_list (t_meta d) ->
  filter (fun y : sub_id * string * Z => y.1.1 = id /\ y.1.2 = key /\ y.2 = x.1) L = if bool_decide (t_meta d !! (id, key) = Some x.1) then [(id, key, x.1)] else [].
Proof.
  intros HL. rewrite (filter_same _ (fun y => y = (id, key, x.1))). 2: { intros [[a b] v]. cbn. naive_solver. }
  rewrite filter_single. 2: { rewrite HL. apply NoDup_map_to_list. }
  rewrite (bool_decide_ext ((id, key, x.1) ∈ L) (t_meta d !! (id, key) = Some x.1)); [done|]. by rewrite HL, elem_of_map_to_list.
Qed.
Definition o_counts (sc : scope) : srow := [resolve sc (Some "sm") "submission_id"; resolve sc (Some "ffi_counts") "value"].
Lemma counts_sound ps ct n1 n2 key rs : SqlLang.assoc "submissions_metadata" ct = None -> ps !! n1 = Some (VText key) -> ps !! n2 = Some (VText key) ->
  qy ps ct (q_counts (S n1) (S n2)) rs -> counts_for key rs.
Proof.
  intros Hct H1 H2. unfold q_counts. cbn [q_yields]. intros (ls & ls' & Hy & -> & ->) id.
  assert (Ho : forall l, limited (ask_reserved rsv) ps D None (imap (fun i sc => concat (out_vals (ask_reserved rsv) ps D i sc <$>
    [OExpr (tcol "sm" "submission_id") "submission_id"; OExpr (tcol "ffi_counts" "value") "count"])) l) = o_counts <$> l).
  { intros l. unfold limited. cbn [fmap option_fmap option_map]. rewrite <- imap_const. apply imap_ext. reflexivity. }
  rewrite Ho. clear Ho. cbn [s_yields] in Hy. destruct Hy as (lx & groups & (key' & rs0 & Hk & Hr & ->) & Hg & ->).
  assert (key' = key) as ->. { unfold ev_q, par in Hk. cbn [eval Nat.pred] in Hk. rewrite H1 in Hk. cbn in Hk. congruence. }
  assert (HE : List.filter (fun r => holds (v_eq (v_n id) (default VNull (cell (plain count_cols) r "submission_id"))))
    (o_counts <$> List.filter (fun sc => holds (evq ps sc (EEq (tcol "sm" "metadata_key") (par (S n2))))) (concat groups)) =
    omap (fun '(v, n) => if bool_decide (t_meta d !! (id, key) = Some v) then Some [v_n id; v_n n] else None) rs0).
  { clear Hr Hk. apply Forall2_fmap_l' in Hg. induction Hg as [|x g rs0 groups (ly & Hly & ->) _ IH]; [done|].
    cbn [concat]. rewrite List.filter_app, fmap_app, List.filter_app, IH. clear IH.
    pose proof (y_metas ps ct "sm" ly Hct) as Hm. apply Hm in Hly as (L & HL & ->). clear Hm.
    change ([("ffi_counts", (plain ["key"; "value"], [VText (pretty x.1); VInt (Z.of_N x.2)]))]) with (sc_json x). fold e_value. rewrite json_group.
    rewrite (filter_fmap _ _ (fun y : sub_id * string * Z => y.1.2 = key)).
    2: { intros [[a b] v]. unfold ev_q, tcol, par. cbn [eval Nat.pred]. rewrite H2. cbn [default from_option]. change (resolve _ (Some "sm") "metadata_key") with (VText b). apply holds_text. }
    rewrite <- list_fmap_compose. rewrite (filter_fmap _ _ (fun y : sub_id * string * Z => y.1.1 = id)).
    2: { intros [[a b] v]. cbn -[v_eq v_n]. rewrite holds_n. apply bool_decide_ext. split; congruence. }
    rewrite !list_filter_filter. rewrite (filter_same _ (fun y : sub_id * string * Z => y.1.1 = id /\ y.1.2 = key /\ y.2 = x.1)) by (intros y; tauto).
    rewrite (count_group key id x L HL). destruct x as [v n]. cbn [fst snd].
    change (omap ?f ((v, n) :: rs0)) with (match f (v, n) with Some z => z :: omap f rs0 | None => omap f rs0 end). cbn beta iota.
    by destruct (bool_decide _). }
  rewrite HE. clear HE Hg.
  assert (HP : omap (fun '(v, n) => if bool_decide (t_meta d !! (id, key) = Some v) then Some [v_n id; v_n n] else None) rs0 ≡ₚ
    (fun n => [v_n id; v_n n]) <$> count_rows d m key id).
  { unfold count_rows. unfold ask_counts in Hr. rewrite Hr. apply reflexive_eq, omap_if. }
  pose proof (left_join_count d m key id) as Hj. unfold left_join in Hj. destruct (count_rows d m key id) as [|n [|]] eqn:Ec; [|injection Hj as <-|discriminate].
  - injection Hj as <-. by apply Permutation_nil_r in HP.
  - by apply perm_single in HP.
Qed.
Lemma counts_exist ps ct n1 n2 key : SqlLang.assoc "submissions_metadata" ct = None -> ps !! n1 = Some (VText key) -> exists rs, qy ps ct (q_counts (S n1) (S n2)) rs.
Proof.
  intros Hct H1. assert (Hm : sy ps ct (FTable "submissions_metadata" "sm") (sc_meta "sm" <$> map_to_list (t_meta d))) by (apply y_metas; [done|by eexists]). unfold q_counts. cbn [q_yields].
  eexists _, (concat ((fun sx => on_rows (ask_reserved rsv) ps D e_value sx (sc_meta "sm" <$> map_to_list (t_meta d))) <$> (sc_json <$> ask_counts m key))), _.
  split_and!; [|reflexivity..].
  exists (sc_json <$> ask_counts m key), ((fun sx => on_rows (ask_reserved rsv) ps D e_value sx (sc_meta "sm" <$> map_to_list (t_meta d))) <$> (sc_json <$> ask_counts m key)).
  split_and!; [| |reflexivity].
  - exists key, (ask_counts m key). split_and!; [|done|reflexivity]. unfold ev_q, par. cbn [eval Nat.pred]. by rewrite H1.
  - eapply Forall2_impl; [by apply Forall2_fun|]. intros sx g ->. eexists. split; [exact Hm|reflexivity].
Qed.

(** *** All of them *)
Fixpoint counted (i : nat) (keys : list string) (ct ct' : ctes) : Prop :=
  match keys with
  | [] => ct' = ct
  | k :: ks => exists rs, counts_for k rs /\ counted (S i) ks ((counts_name i, (count_cols, rs)) :: ct) ct'
  end.
Lemma assoc_cols t (ct : ctes) : SqlLang.assoc t (cte_cols ct) = fst <$> SqlLang.assoc t ct.
Proof. induction ct as [|[a x] ct IH]; [done|]. cbn. by destruct (String.eqb a t). Qed.
Lemma assoc_other {A} t a (x : A) l : t <> a -> SqlLang.assoc t ((a, x) :: l) = SqlLang.assoc t l.
Proof. intros H. cbn. destruct (String.eqb_spec a t); [congruence|done]. Qed.
Lemma assoc_here {A} t (x : A) l : SqlLang.assoc t ((t, x) :: l) = Some x.
Proof. cbn. by rewrite String.eqb_refl. Qed.
Lemma counted_other t : (forall j, t <> counts_name j) -> forall keys i ct ct', counted i keys ct ct' -> SqlLang.assoc t ct' = SqlLang.assoc t ct.
Proof.
  intros Ht. induction keys as [|k ks IH]; intros i ct ct'; cbn [counted]; [by intros ->|]. intros (rs & _ & H). rewrite (IH _ _ _ H). by apply assoc_other.
Qed.
Lemma counted_below keys : forall i ct ct' j, counted i keys ct ct' -> (j < i)%nat -> SqlLang.assoc (counts_name j) ct' = SqlLang.assoc (counts_name j) ct.
Proof.
  induction keys as [|k ks IH]; intros i ct ct' j; cbn [counted]; [by intros ->|]. intros (rs & _ & H) Hj. rewrite (IH _ _ _ j H) by lia.
  apply assoc_other. intros E%counts_name_inj. lia.
Qed.
Lemma counted_at keys : forall i ct ct' j k, counted i keys ct ct' -> keys !! j = Some k -> exists rs, counts_for k rs /\ SqlLang.assoc (counts_name (i + j)) ct' = Some (count_cols, rs).
Proof.
  induction keys as [|k0 ks IH]; intros i ct ct' j k; cbn [counted]; [done|]. intros (rs & Hr & H). destruct j as [|j]; cbn [lookup list_lookup].
  - intros [= <-]. exists rs. split; [done|]. rewrite Nat.add_0_r. rewrite (counted_below _ _ _ _ _ H) by lia. apply assoc_here.
  - intros Hk. destruct (IH _ _ _ j k H Hk) as (rs' & H1 & H2). exists rs'. split; [done|]. by replace (i + S j)%nat with (S i + j)%nat by lia.
Qed.
Lemma cols_counts (ct : ctes) n1 n2 : SqlLang.assoc "submissions_metadata" ct = None -> q_cols (s_head D) (cte_cols ct) (q_counts n1 n2) = Some count_cols.
Proof.
  intros Hct. unfold q_counts. cbn [q_cols s_heads]. rewrite assoc_cols, Hct. cbn [fmap option_fmap option_map]. rewrite (sf_heads _ _ HD), heads_metas. reflexivity.
Qed.
Definition bound (ps : list value) (n : nat) (keys : list string) : Prop :=
  forall j k, keys !! j = Some k -> ps !! (n + 2 * j)%nat = Some (VText k) /\ ps !! (n + 2 * j + 1)%nat = Some (VText k).
Lemma bound_tail ps n k keys : bound ps n (k :: keys) -> bound ps (n + 2) keys.
Proof. intros H j k' Hk. destruct (H (S j) k' Hk) as [H1 H2]. split; [rewrite <- H1|rewrite <- H2]; f_equal; lia. Qed.
Lemma metas_not_counts j : "submissions_metadata" <> counts_name j. Proof. discriminate. Qed.
Lemma with_counts_sound ps q l keys : forall i n ct, bound ps n keys -> SqlLang.assoc "submissions_metadata" ct = None ->
  qy ps ct (with_counts i (length keys) n q) l -> exists ct', counted i keys ct ct' /\ qy ps ct' q l.
Proof.
  induction keys as [|k ks IH]; intros i n ct Hb Hct; cbn [length with_counts counted]; [by exists ct|]. cbn [q_yields]. intros (cs & rs & Hcs & Hrs & Hy).
  rewrite cols_counts in Hcs by done. injection Hcs as <-. destruct (Hb 0%nat k eq_refl) as [H1 H2].
  replace (n + 2 * 0)%nat with n in H1 by lia. replace (n + 2 * 0 + 1)%nat with (S n) in H2 by lia. replace (n + 1)%nat with (S n) in * by lia. replace (n + 2)%nat with (S (S n)) in * by lia.
  apply (counts_sound ps ct n (S n) k) in Hrs; [|done..]. apply IH in Hy as (ct' & Hc & Hy).
  - exists ct'. split; [by exists rs|done].
  - replace (S (S n)) with (n + 2)%nat by lia. by eapply bound_tail.
  - rewrite assoc_other by done. done.
Qed.
Lemma with_counts_complete ps q keys : forall i n ct, bound ps n keys -> SqlLang.assoc "submissions_metadata" ct = None ->
  exists ct', counted i keys ct ct' /\ forall l, qy ps ct' q l -> qy ps ct (with_counts i (length keys) n q) l.
Proof.
  induction keys as [|k ks IH]; intros i n ct Hb Hct; cbn [length with_counts counted]; [by exists ct|]. cbn [q_yields].
  destruct (Hb 0%nat k eq_refl) as [H1 H2].
  replace (n + 2 * 0)%nat with n in H1 by lia. replace (n + 2 * 0 + 1)%nat with (S n) in H2 by lia. replace (n + 1)%nat with (S n) in * by lia. replace (n + 2)%nat with (S (S n)) in * by lia.
  destruct (counts_exist ps ct n (S n) k Hct H1) as (rs & Hrs). pose proof (counts_sound ps ct n (S n) k rs Hct H1 H2 Hrs) as Hc.
  destruct (IH (S i) (S (S n)) ((counts_name i, (count_cols, rs)) :: ct)) as (ct' & Hct' & Hy).
  - replace (S (S n)) with (n + 2)%nat by lia. by eapply bound_tail.
  - rewrite assoc_other by done. done.
  - exists ct'. split; [by exists rs|]. intros l Hl. exists count_cols, rs. split_and!; [by apply cols_counts|done|by apply Hy].
Qed.

(** *** The left joins *)
Definition count_row (id : sub_id) (c : option N) : srow := match c with Some n => [v_n id; v_n n] | None => [VNull; VNull] end.
Definition count_sc (i : nat) (k : string) (id : sub_id) : string * (header * srow) := (counts_name i, (plain count_cols, count_row id (in_flight_c d m id k))).
Definition count_scs (i : nat) (keys : list string) (id : sub_id) : scope := imap (fun j k => count_sc (i + j) k id) keys.
Lemma resolve_app_none sc t q c : (forall x, x ∈ sc -> x.1 <> q) -> resolve (sc ++ t) (Some q) c = resolve t (Some q) c.
Proof.
  induction sc as [|[a [h r]] sc IH]; intros H; [done|]. cbn [app resolve]. destruct (String.eqb_spec a q) as [->|]; [exfalso; by apply (H (q, (h, r))); [left|]|].
  apply IH. intros x Hx. apply H. by right.
Qed.
Lemma y_left {X} ps ct f i k rs (Q : list X -> Prop) (g : X -> scope) (idf : X -> sub_id) :
  SqlLang.assoc (counts_name i) ct = Some (count_cols, rs) -> counts_for k rs ->
  (forall lf, sy ps ct f lf <-> exists xs, Q xs /\ lf = g <$> xs) ->
  (forall x t, resolve (g x ++ t) (Some "inner") "submission_id" = v_n (idf x)) -> (forall x y, y ∈ g x -> y.1 <> counts_name i) ->
  forall l, sy ps ct (FLeft f (FTable (counts_name i) (counts_name i)) (EEq (tcol "inner" "submission_id") (tcol (counts_name i) "submission_id"))) l <->
    exists xs, Q xs /\ l = (fun x => g x ++ [count_sc i k (idf x)]) <$> xs.
Proof.
  intros Ha Hk Hf Hi Hn l. cbn [s_yields]. cbn [s_heads]. rewrite assoc_cols, Ha. cbn [fmap option_fmap option_map fst].
  assert (Hg : forall x, or_nulls [(counts_name i, plain count_cols)] (g x)
    (on_rows (ask_reserved rsv) ps D (EEq (tcol "inner" "submission_id") (tcol (counts_name i) "submission_id")) (g x) ((fun r => [(counts_name i, (plain count_cols, r))]) <$> rs)) =
    [g x ++ [count_sc i k (idf x)]]).
  { intros x. unfold on_rows. rewrite <- list_fmap_compose. rewrite lfilter_fmap.
    rewrite (lfilter_ext _ (fun r => holds (v_eq (v_n (idf x)) (default VNull (cell (plain count_cols) r "submission_id"))))).
    2: { intros r. unfold ev_q, tcol. cbn [eval compose]. rewrite Hi. rewrite resolve_app_none by apply Hn. cbn [resolve]. rewrite String.eqb_refl. by destruct (cell _ _ _). }
    rewrite (Hk (idf x)). unfold count_sc. by destruct (in_flight_c d m (idf x) k). }
  split.
  - intros (lx & hs & groups & Hx & [= <-] & Hgr & ->). apply Hf in Hx as (xs & Hq & ->). exists xs. split; [done|].
    apply Forall2_fmap_l' in Hgr. rewrite <- concat_singles. f_equal. apply Forall2_fun. eapply Forall2_impl; [exact Hgr|]. intros x gg (ly & -> & ->). apply Hg.
  - intros (xs & Hq & ->). exists (g <$> xs), [(counts_name i, plain count_cols)], ((fun x => [g x ++ [count_sc i k (idf x)]]) <$> xs). split_and!.
    + apply Hf. by exists xs.
    + done.
    + apply Forall2_fmap_l'. eapply Forall2_impl; [by apply Forall2_fun|]. intros x gg ->. eexists. split; [reflexivity|]. by rewrite Hg.
    + by rewrite concat_singles.
Qed.
Lemma y_joins {X} ps ct (Q : list X -> Prop) (idf : X -> sub_id) keys : forall i f (g : X -> scope),
  (forall j k, keys !! j = Some k -> exists rs, counts_for k rs /\ SqlLang.assoc (counts_name (i + j)) ct = Some (count_cols, rs)) ->
  (forall lf, sy ps ct f lf <-> exists xs, Q xs /\ lf = g <$> xs) ->
  (forall x t, resolve (g x ++ t) (Some "inner") "submission_id" = v_n (idf x)) -> (forall x y j, y ∈ g x -> (i <= j)%nat -> y.1 <> counts_name j) ->
  forall l, sy ps ct (join_counts i (length keys) f) l <-> exists xs, Q xs /\ l = (fun x => g x ++ count_scs i keys (idf x)) <$> xs.
Proof.
  induction keys as [|k ks IH]; intros i f g Ha Hf Hi Hn l; cbn [length join_counts].
  - rewrite Hf. split; intros (xs & Hq & ->); exists xs; (split; [done|]); apply list_fmap_ext; intros ? x; by rewrite app_nil_r.
  - destruct (Ha 0%nat k eq_refl) as (rs & Hk & Hrs). rewrite Nat.add_0_r in Hrs.
    rewrite (IH (S i) _ (fun x => g x ++ [count_sc i k (idf x)])).
    + assert (E : forall x, (g x ++ [count_sc i k (idf x)]) ++ count_scs (S i) ks (idf x) = g x ++ count_scs i (k :: ks) (idf x)).
      { intros x. rewrite <- app_assoc. f_equal. unfold count_scs. rewrite imap_cons. cbn [app]. rewrite Nat.add_0_r. f_equal. apply imap_ext. intros j kk _. cbn [compose]. unfold count_sc. do 2 f_equal. lia. }
      split; intros (xs & Hq & ->); exists xs; (split; [done|]); apply list_fmap_ext; intros ? x; by rewrite E.
    + intros j k' Hj. destruct (Ha (S j) k' Hj) as (rs' & H1 & H2). exists rs'. split; [done|]. by replace (S i + j)%nat with (i + S j)%nat by lia.
    + apply (y_left ps ct f i k rs); [done..|]. intros x y Hy. by apply (Hn x y i Hy).
    + intros x t. rewrite <- app_assoc. apply Hi.
    + intros x y j Hy Hj. apply elem_of_app in Hy as [Hy|Hy]; [apply (Hn x y j Hy); lia|]. apply elem_of_list_singleton in Hy as ->. cbn. intros E%counts_name_inj. lia.
Qed.

(** *** The ranking *)
Definition inner_cols : list string := ["submission_id"; "underlying_row"].
Definition inner_row (j : nat) (id : sub_id) : srow := [v_n id; VInt (Z.of_nat (S j))].
Definition sc_inner (x : nat * sub_id) : scope := [("inner", (plain inner_cols, inner_row x.1 x.2))].
Definition sc_ranked (keys : list string) (x : nat * sub_id) : scope := sc_inner x ++ count_scs 0 keys x.2.
Definition numbered (inner : list sub_id) : list (nat * sub_id) := imap (fun j id => (j, id)) inner.
Lemma inner_not_counts j : "inner" <> counts_name j. Proof. discriminate. Qed.
Lemma y_ranked_source ps ct keys inner l : SqlLang.assoc "inner" ct = Some (inner_cols, imap inner_row inner) ->
  (forall j k, keys !! j = Some k -> exists rs, counts_for k rs /\ SqlLang.assoc (counts_name j) ct = Some (count_cols, rs)) ->
  sy ps ct (join_counts 0 (length keys) (FTable "inner" "inner")) l <-> l = sc_ranked keys <$> numbered inner.
Proof.
  intros Hi Hc. rewrite (y_joins ps ct (fun xs => xs = numbered inner) (fun x => x.2) keys 0 _ sc_inner).
  - split; [intros (xs & -> & ->); done|]. intros ->. by exists (numbered inner).
  - exact Hc.
  - intros lf. cbn [s_yields]. rewrite Hi. unfold numbered.
    assert (E : (fun r => [("inner", (plain inner_cols, r))]) <$> imap inner_row inner = sc_inner <$> imap (fun j id => (j, id)) inner) by (rewrite !fmap_imap; by apply imap_ext).
    rewrite E. split; [intros ->; by eexists|by intros (xs & -> & ->)].
  - reflexivity.
  - intros x y j Hy _. unfold sc_inner in Hy. apply elem_of_list_singleton in Hy as ->. apply inner_not_counts.
Qed.
Lemma resolve_counts keys id : forall i j k, keys !! j = Some k -> resolve (count_scs i keys id) (Some (counts_name (i + j))) "count" = v_optn (in_flight_c d m id k).
Proof.
  induction keys as [|k0 ks IH]; intros i j k; [done|]. unfold count_scs. rewrite imap_cons. destruct j as [|j]; cbn [lookup list_lookup].
  - intros [= <-]. unfold count_sc. cbn [resolve]. rewrite String.eqb_refl. by destruct (in_flight_c d m id k0).
  - intros Hk. unfold count_sc at 1. cbn [resolve]. destruct (String.eqb_spec (counts_name (i + 0)) (counts_name (i + S j))) as [E%counts_name_inj|_]; [lia|].
    specialize (IH (S i) j k Hk). rewrite <- IH. unfold count_scs. replace (S i + j)%nat with (i + S j)%nat by lia. f_equal. apply imap_ext. intros j' k' _. cbn [compose]. unfold count_sc. do 2 f_equal. lia.
Qed.
Definition ranked_order (k : nat) : list (expr * bool) := ((fun i => (tcol (counts_name i) "count", false)) <$> seq 0 k) ++ [(tcol "inner" "underlying_row", false)].
Lemma ranked_keys ps keys x : key_vals (ask_reserved rsv) ps D (ranked_order (length keys)) (sc_ranked keys x) =
  ((fun k => (v_optn (in_flight_c d m x.2 k), false)) <$> keys) ++ [(VInt (Z.of_nat (S x.1)), false)].
Proof.
  unfold key_vals, ranked_order. rewrite fmap_app. f_equal.
  - rewrite <- list_fmap_compose. apply fmap_seq_lookup. intros j k Hk. cbn [compose fst snd Nat.add]. f_equal. unfold ev_q, tcol. cbn [eval]. unfold sc_ranked.
    rewrite resolve_app_none. 2: { intros y Hy. unfold sc_inner in Hy. apply elem_of_list_singleton in Hy as ->. apply inner_not_counts. }
    exact (resolve_counts keys x.2 0 j k Hk).
Qed.
Lemma cmp_optn a b : v_cmp (v_optn a) (v_optn b) = cmp_count a b.
Proof. destruct a as [a|], b as [b|]; try done. apply cmp_n. Qed.
Lemma cmp_ranked (f f' : string -> option N) keys ta tb :
  keys_cmp (((fun k => (v_optn (f k), false)) <$> keys) ++ ta) (((fun k => (v_optn (f' k), false)) <$> keys) ++ tb) =
  match cmp_counts (f <$> keys) (f' <$> keys) with Eq => keys_cmp ta tb | c => c end.
Proof.
  induction keys as [|k ks IH]; [done|]. cbn [fmap list_fmap app keys_cmp cmp_counts]. rewrite cmp_optn, IH. by destruct (cmp_count (f k) (f' k)).
Qed.
Lemma y_ranked ps ct keys inner l : SqlLang.assoc "inner" ct = Some (inner_cols, imap inner_row inner) ->
  (forall j k, keys !! j = Some k -> exists rs, counts_for k rs /\ SqlLang.assoc (counts_name j) ct = Some (count_cols, rs)) ->
  qy ps ct (q_ranked (length keys)) l <->
  exists rows, rows ≡ₚ pd_rows d m keys inner /\ StronglySorted (fun a b => row_le a.2 b.2) rows /\ l = out_id <$> rows.*1.
Proof.
  intros Hi Hc. set (F := fun x : nat * sub_id => (x.2, (in_flight_c d m x.2 <$> keys, x.1))). unfold q_ranked. fold (ranked_order (length keys)).
  rewrite (y_select_gen ps ct _ _ _ _ (sc_ranked keys) (numbered inner) (fun _ => True) (fun x y => row_le (F x).2 (F y).2) (fun x => out_id x.2)).
  - assert (Ef : filter (fun _ : nat * sub_id => True) (numbered inner) = numbered inner) by (induction (numbered inner) as [|x L IH]; [done|by rewrite filter_cons_True, IH]).
    assert (Ep : pd_rows d m keys inner = F <$> numbered inner) by (rewrite pd_rows_eq; unfold numbered; rewrite fmap_imap; by apply imap_ext).
    rewrite Ef, Ep. unfold limited. cbn [fmap option_fmap option_map]. split.
    + intros (L & HL & Hs & ->). exists (F <$> L). split_and!; [by rewrite HL|by apply (sorted_fmap F)|]. by rewrite <- !list_fmap_compose.
    + intros (rows & Hr & Hs & ->). apply perm_fmap in Hr as (L & -> & HL). exists L. split_and!; [done|by apply (sorted_fmap F) in Hs|]. by rewrite <- !list_fmap_compose.
  - intros ls Hy. apply (y_ranked_source ps ct keys inner) in Hy as ->; [|done..]. by eexists.
  - exists (numbered inner). split; [done|]. exact (proj2 (y_ranked_source ps ct keys inner _ Hi Hc) eq_refl).
  - done.
  - intros i x. reflexivity.
  - unfold ranked_order. by destruct (_ <$> seq 0 (length keys)).
  - intros x y _ _. unfold sorted_by. rewrite !ranked_keys, cmp_ranked. unfold row_le, F. cbn [fst snd].
    destruct (cmp_counts _ _); [|done..]. cbn [keys_cmp v_cmp]. destruct (Z.compare_spec (Z.of_nat (S x.1)) (Z.of_nat (S y.1))); split; intros; try done; lia.
Qed.

(** *** The whole query for submission ids *)
Lemma cols_inner_query s off n (ct : ctes) : SqlLang.assoc "submissions" ct = None -> q_cols (s_head D) (cte_cols ct) (b_ids_inner s off n).1 = Some ["submission_id"].
Proof.
  intros Hct. pose proof (assoc_cols "submissions" ct) as E. rewrite Hct in E. cbn in E.
  destruct s; cbn [b_ids_inner b_random fst q_cols s_heads]; rewrite E, (sf_heads _ _ HD), heads_subs; reflexivity.
Qed.
Lemma cols_inner hd ct q : q_cols hd ct q = Some ["submission_id"] -> q_cols hd ct (q_inner q) = Some inner_cols.
Proof.
  intros H. assert (E : s_heads hd ct (FSub q "") = Some [("", plain ["submission_id"])]) by (change (s_heads hd ct (FSub q "")) with (cs ← q_cols hd ct q; Some [("", plain cs)]); by rewrite H).
  unfold q_inner. change (q_cols hd ct (QSelect ?o ?f ?w ?r ?l)) with
    (hs ← s_heads hd ct f; if forallb (e_ok hd (names_of hs)) (w :: r.*1) && forallb (e_ok hd []) (option_list l) && forallb (out_ok hd hs) o then Some (concat (out_cols hs <$> o)) else None).
  rewrite E. reflexivity.
Qed.
Lemma y_inner ps ct q ids l : q_cols (s_head D) (cte_cols ct) q = Some ["submission_id"] ->
  (forall l, qy ps ct q l <-> exists ids', ids ids' /\ l = out_id <$> ids') ->
  qy ps ct (q_inner q) l <-> exists ids', ids ids' /\ l = imap inner_row ids'.
Proof.
  intros Hc Hq. unfold q_inner. cbn [q_yields s_yields]. rewrite Hc. unfold limited. cbn [fmap option_fmap option_map].
  assert (E : forall L, imap (fun i sc => concat (out_vals (ask_reserved rsv) ps D i sc <$> [OExpr (col "submission_id") "submission_id"; ORowNumber "underlying_row"]))
    (List.filter (fun sc => holds (evq ps sc yes)) ((fun r => [("", (plain ["submission_id"], r))]) <$> (out_id <$> L))) = imap inner_row L).
  { intros L. rewrite filter_yes by done. rewrite !imap_fmap. by apply imap_ext. }
  split.
  - intros (ls & ls' & (cs & rs & [= <-] & Hy & ->) & -> & ->). apply Hq in Hy as (ids' & Hi & ->). exists ids'. split; [done|]. apply E.
  - intros (ids' & Hi & ->). eexists _, _. split_and!; [|reflexivity|symmetry; apply E]. exists ["submission_id"], (out_id <$> ids'). split_and!; [done| |reflexivity]. apply Hq. by exists ids'.
Qed.
Lemma bound_params pre keys : bound (pre ++ concat ((fun k => [VText k; VText k]) <$> keys)) (length pre) keys.
Proof.
  intros j k Hk. assert (H : concat ((fun k => [VText k; VText k]) <$> keys) !! (2 * j)%nat = Some (VText k) /\ concat ((fun k => [VText k; VText k]) <$> keys) !! (2 * j + 1)%nat = Some (VText k)).
  { revert j Hk. induction keys as [|k0 ks IH]; intros j Hk; [done|]. destruct j as [|j]; cbn [lookup list_lookup] in Hk; [injection Hk as ->; done|].
    replace (2 * S j)%nat with (S (S (2 * j))) by lia. replace (S (S (2 * j)) + 1)%nat with (S (S (2 * j + 1))) by lia. apply (IH j Hk). }
  rewrite !lookup_app_r by lia. replace (length pre + 2 * j - length pre)%nat with (2 * j)%nat by lia. replace (length pre + 2 * j + 1 - length pre)%nat with (2 * j + 1)%nat by lia. exact H.
Qed.
Lemma y_ids_pd s off ps l : ids_fit -> ~ simple s -> ps = (b_ids s off 0).2 -> qy ps [] (b_ids s off 0).1 l <-> exists ids, query_subs s off d m ids /\ l = out_id <$> ids.
Proof.
  intros Hf Hs. destruct s as [| | |k u]; try (exfalso; by apply Hs). cbn [b_ids query_subs]. set (s := PreferDistinct k u). set (keys := meta_keys s).
  assert (Hsim : simple (innermost s)) by (clear; subst s; generalize (PreferDistinct k u); induction s; done).
  destruct (b_ids_inner (innermost s) off 0) as [q pre] eqn:Eq. cbn [fst snd Nat.add]. intros ->.
  assert (Hq : forall ct l, SqlLang.assoc "submissions" ct = None -> qy (pre ++ concat ((fun k => [VText k; VText k]) <$> keys)) ct q l <-> exists ids, query_inner (innermost s) off d ids /\ l = out_id <$> ids).
  { intros ct l' Hct. pose proof (y_ids_inner (innermost s) off 0 ct (pre ++ concat ((fun k => [VText k; VText k]) <$> keys)) l' Hf Hsim Hct) as H. rewrite Eq in H. apply H.
    intros j v Hj. cbn [snd Nat.add] in *. by apply lookup_app_l_Some. }
  assert (Hcq : q_cols (s_head D) (cte_cols []) q = Some ["submission_id"]) by (pose proof (cols_inner_query (innermost s) off 0 [] eq_refl) as H; by rewrite Eq in H).
  assert (Hci : q_cols (s_head D) (cte_cols []) (q_inner q) = Some inner_cols) by (by apply cols_inner).
  set (ps := pre ++ _) in *. cbn [q_yields]. split.
  - intros (cs & la & Hcs & Hla & Hy). rewrite Hci in Hcs. injection Hcs as <-. apply (y_inner ps [] q _ la Hcq (fun l => Hq [] l eq_refl)) in Hla as (inner & Hin & ->).
    apply with_counts_sound in Hy as (ct' & Hc & Hy); [|apply bound_params|done].
    apply (y_ranked ps ct' keys inner) in Hy as (rows & Hr & Hso & ->).
    + exists rows.*1. split; [|done]. exists inner, rows. done.
    + rewrite (counted_other "inner" inner_not_counts _ _ _ _ Hc). apply assoc_here.
    + intros j kk Hk. by apply (counted_at keys 0 _ _ j kk Hc).
  - intros (ids & (inner & rows & Hin & Hr & Hso & ->) & ->). exists inner_cols, (imap inner_row inner). split_and!; [done| |].
    + apply (y_inner ps [] q _ _ Hcq (fun l => Hq [] l eq_refl)). by exists inner.
    + destruct (with_counts_complete ps (q_ranked (length keys)) keys 0 (length pre) [("inner", (inner_cols, imap inner_row inner))]) as (ct' & Hc & Hy); [apply bound_params|done|].
      apply Hy. apply (y_ranked ps ct' keys inner).
      * rewrite (counted_other "inner" inner_not_counts _ _ _ _ Hc). apply assoc_here.
      * intros j kk Hk. by apply (counted_at keys 0 _ _ j kk Hc).
      * by exists rows.
Qed.

(** *** The names of columns *)
Lemma resolves_app a b q c : resolves (a ++ b) q c = resolves a q c || resolves b q c.
Proof. induction a as [|[x cs] a IH]; [done|]. cbn [app resolves]. rewrite IH. by rewrite orb_assoc. Qed.
Lemma names_app a b : names_of (a ++ b) = names_of a ++ names_of b.
Proof. apply fmap_app. Qed.
Lemma e_names hd sn a b : resolves sn (Some a) b = true -> e_ok hd sn (tcol a b) = true.
Proof. done. Qed.
Definition no_counts (t : string) : Prop := forall j, t <> counts_name j.
Lemma cols_with_counts q k : forall i n (ct : list (string * list string)), SqlLang.assoc "submissions_metadata" ct = None -> exists ct',
  (forall t, no_counts t -> SqlLang.assoc t ct' = SqlLang.assoc t ct) /\
  (forall j, (j < i)%nat -> SqlLang.assoc (counts_name j) ct' = SqlLang.assoc (counts_name j) ct) /\
  (forall j, (i <= j < i + k)%nat -> SqlLang.assoc (counts_name j) ct' = Some count_cols) /\
  q_cols heads ct (with_counts i k n q) = q_cols heads ct' q.
Proof.
  induction k as [|k IH]; intros i n ct Hct.
  - exists ct. split_and!; [done|done| |done]. intros j Hj. lia.
  - assert (Hc : q_cols heads ct (q_counts (n + 1) (n + 2)) = Some count_cols).
    { unfold q_counts. cbn [q_cols s_heads]. rewrite Hct, heads_metas. reflexivity. }
    destruct (IH (S i) (n + 2)%nat ((counts_name i, count_cols) :: ct)) as (ct' & H1 & H2 & H3 & H4); [by rewrite assoc_other by done|].
    exists ct'. split_and!.
    + intros t Ht. rewrite (H1 t Ht). by apply assoc_other.
    + intros j Hj. rewrite (H2 j) by lia. apply assoc_other. intros E%counts_name_inj. lia.
    + intros j Hj. destruct (decide (j = i)) as [->|Hne]; [rewrite (H2 i) by lia; apply assoc_here|apply H3; lia].
    + cbn [with_counts]. change (q_cols heads ct (QWith ?nm ?a ?b)) with (x ← q_cols heads ct a; q_cols heads ((nm, x) :: ct) b). rewrite Hc. exact H4.
Qed.
Lemma heads_joins ct k : forall i f hs, s_heads heads ct f = Some hs -> resolves (names_of hs) (Some "inner") "submission_id" = true ->
  (forall j, (i <= j < i + k)%nat -> SqlLang.assoc (counts_name j) ct = Some count_cols) ->
  exists ext, s_heads heads ct (join_counts i k f) = Some (hs ++ ext) /\ forall j, (i <= j < i + k)%nat -> resolves (names_of ext) (Some (counts_name j)) "count" = true.
Proof.
  induction k as [|k IH]; intros i f hs Hf Hi Hc.
  - exists []. split; [by rewrite app_nil_r|]. intros j Hj. lia.
  - cbn [join_counts]. set (hc := [(counts_name i, plain count_cols)]).
    destruct (IH (S i) (FLeft f (FTable (counts_name i) (counts_name i)) (EEq (tcol "inner" "submission_id") (tcol (counts_name i) "submission_id"))) (hs ++ hc)) as (ext & H1 & H2).
    + change (s_heads heads ct (FLeft ?x ?y ?on)) with
        (hx ← s_heads heads ct x; hy ← s_heads heads ct y; if e_ok heads (names_of (hx ++ hy)) on then Some (hx ++ hy) else None).
      rewrite Hf. cbn [mbind option_bind]. cbn [s_heads]. rewrite (Hc i) by lia. cbn [mbind option_bind]. fold hc.
      assert (E : e_ok heads (names_of (hs ++ hc)) (EEq (tcol "inner" "submission_id") (tcol (counts_name i) "submission_id")) = true).
      { cbn [e_ok tcol]. rewrite names_app, !resolves_app, Hi. cbn [orb andb]. unfold hc, names_of. cbn [fmap list_fmap resolves fst snd]. rewrite String.eqb_refl. by rewrite orb_true_r. }
      by rewrite E.
    + by rewrite names_app, resolves_app, Hi.
    + intros j Hj. apply Hc. lia.
    + exists (hc ++ ext). split; [by rewrite H1, <- app_assoc|]. intros j Hj. rewrite names_app, resolves_app. destruct (decide (j = i)) as [->|Hne].
      * unfold hc, names_of at 1. cbn [fmap list_fmap resolves fst snd]. rewrite String.eqb_refl. done.
      * rewrite (H2 j) by lia. by rewrite orb_true_r.
Qed.
Lemma cols_ranked ct k : SqlLang.assoc "inner" ct = Some inner_cols -> (forall j, (j < k)%nat -> SqlLang.assoc (counts_name j) ct = Some count_cols) ->
  q_cols heads ct (q_ranked k) = Some ["submission_id"].
Proof.
  intros Hi Hc. destruct (heads_joins ct k 0 (FTable "inner" "inner") [("inner", plain inner_cols)]) as (ext & H1 & H2).
  - cbn [s_heads]. by rewrite Hi.
  - done.
  - intros j Hj. apply Hc. lia.
  - unfold q_ranked. fold (ranked_order k). change (q_cols heads ct (QSelect ?o ?f ?w ?r ?l)) with
    (hs ← s_heads heads ct f; if forallb (e_ok heads (names_of hs)) (w :: r.*1) && forallb (e_ok heads []) (option_list l) && forallb (out_ok heads hs) o then Some (concat (out_cols hs <$> o)) else None).
    rewrite H1. cbn [mbind option_bind]. set (hs := [("inner", plain inner_cols)] ++ ext).
    assert (E : forallb (e_ok heads (names_of hs)) (yes :: (ranked_order k).*1) = true).
    { apply forallb_forall. intros e He. apply elem_of_list_In in He. apply elem_of_cons in He as [->|He]; [done|]. unfold ranked_order in He. rewrite fmap_app in He.
      apply elem_of_app in He as [He|He].
      - apply elem_of_list_fmap in He as ([e' b] & -> & He). apply elem_of_list_fmap in He as (j & E & Hj). apply elem_of_seq in Hj. injection E as -> ->. cbn [fst].
        apply e_names. unfold hs. rewrite names_app, resolves_app, (H2 j) by lia. by rewrite orb_true_r.
      - apply elem_of_list_singleton in He as ->. apply e_names. reflexivity. }
    rewrite E. reflexivity.
Qed.
Lemma cols_ids s off : q_cols heads [] (b_ids s off 0).1 = Some ["submission_id"].
Proof.
  pose proof (sf_heads _ _ HD) as Eh. destruct s as [| | |k u].
  - pose proof (cols_inner_query Oldest off 0 [] eq_refl) as H. rewrite Eh in H. exact H.
  - pose proof (cols_inner_query Newest off 0 [] eq_refl) as H. rewrite Eh in H. exact H.
  - pose proof (cols_inner_query Random off 0 [] eq_refl) as H. rewrite Eh in H. exact H.
  - cbn [b_ids]. set (s := PreferDistinct k u). pose proof (cols_inner_query (innermost s) off 0 [] eq_refl) as H. rewrite Eh in H. change (cte_cols []) with (@nil (string * list string)) in H.
    destruct (b_ids_inner (innermost s) off 0) as [q pre]. cbn [fst] in *.
    change (q_cols heads [] (QWith ?nm ?a ?b)) with (x ← q_cols heads [] a; q_cols heads [(nm, x)] b). rewrite (cols_inner heads [] q H). cbn [mbind option_bind].
    destruct (cols_with_counts (q_ranked (length (meta_keys s))) (length (meta_keys s)) 0 (0 + length pre) [("inner", inner_cols)] eq_refl) as (ct' & H1 & _ & H3 & ->).
    apply cols_ranked; [rewrite H1 by exact inner_not_counts; apply assoc_here|]. intros j Hj. apply H3. lia.
Qed.

(** *** The query for chunks *)
Lemma cols_chunks s off : q_cols heads [] (build_query s off).1 = Some chunk_cols.
Proof.
  destruct s as [| | |k u].
  - cbn [build_query fst q_cols s_heads SqlLang.assoc]. rewrite heads_chunks. reflexivity.
  - cbn [build_query fst q_cols s_heads SqlLang.assoc]. rewrite heads_chunks. reflexivity.
  - cbn [build_query b_random fst q_cols s_heads SqlLang.assoc]. rewrite heads_chunks. reflexivity.
  - cbn [build_query]. pose proof (cols_ids (PreferDistinct k u) off) as H. destruct (b_ids (PreferDistinct k u) off 0) as [q ps]. cbn [fst] in *.
    change (q_cols heads [] (QWith ?nm ?a ?b)) with (x ← q_cols heads [] a; q_cols heads [(nm, x)] b). rewrite H. cbn [mbind option_bind].
    cbn [q_cols s_heads SqlLang.assoc]. cbn [String.eqb Ascii.eqb Bool.eqb]. rewrite heads_chunks. reflexivity.
Qed.
Definition sc_under (id : sub_id) : scope := [("underlying_submission_ids", (plain ["submission_id"], out_id id))].
Lemma under_group ps id L : on_rows (ask_reserved rsv) ps D (EAnd (EEq (tcol "chunks" "submission_id") (tcol "underlying_submission_ids" "submission_id")) is_not_reserved) (sc_under id) (sc_chunk <$> L) =
  (fun c => sc_under id ++ sc_chunk c) <$> filter (fun c => c_sub c = id /\ rsv (c_sub c, c_index c) = false) L.
Proof.
  unfold on_rows. rewrite <- list_fmap_compose. apply (filter_fmap _ _ (fun c => c_sub c = id /\ rsv (c_sub c, c_index c) = false)). intros c. cbn [compose].
  unfold ev_q. cbn [eval]. rewrite holds_and. change (eval (ask_reserved rsv) ps (s_head D) (rows_in D)) with (ev_q (ask_reserved rsv) ps D). rewrite (w_reserved ps _ c) by reflexivity.
  rewrite bool_decide_and. f_equal. unfold ev_q, tcol. cbn [eval]. change (resolve _ (Some "chunks") "submission_id") with (v_n (c_sub c)).
  change (resolve _ (Some "underlying_submission_ids") "submission_id") with (v_n id). apply holds_n.
Qed.
Lemma y_chunks_pd s off l : ids_fit -> ~ simple s ->
  qy (build_query s off).2 [] (build_query s off).1 l <-> exists L, offers s off d m rsv L /\ l = out_c <$> L.
Proof.
  intros Hf Hs. pose proof (fun l ps => y_ids_pd s off ps l Hf Hs) as Hy. pose proof (cols_ids s off) as Hc.
  destruct s as [| | |k u]; try (exfalso; by apply Hs). unfold offers. cbn [build_query]. set (s := PreferDistinct k u) in *.
  destruct (b_ids s off 0) as [q ps]. cbn [fst snd] in *. specialize (fun l => Hy l ps eq_refl).
  assert (Hcs : q_cols (s_head D) (cte_cols []) q = Some ["submission_id"]) by (rewrite (sf_heads _ _ HD); exact Hc).
  set (uq := QSelect _ _ _ _ _).
  assert (Hu : forall ids l, qy ps [("underlying_submission_ids", (["submission_id"], out_id <$> ids))] uq l <->
    exists groups, Forall2 (fun id g => g ≡ₚ filter (fun c => c_sub c = id) (available d rsv)) ids groups /\ l = out_c <$> concat groups).
  { intros ids l'. unfold uq. cbn [q_yields]. set (ct := [_]). unfold limited. cbn [fmap option_fmap option_map].
    assert (Ho : forall (L : list (sub_id * chunk)), imap (fun i sc => concat (out_vals (ask_reserved rsv) ps D i sc <$> [OStar (Some "chunks")]))
      (List.filter (fun sc => holds (evq ps sc yes)) ((fun x => sc_under x.1 ++ sc_chunk x.2) <$> L)) = out_c <$> L.*2).
    { intros L. rewrite filter_yes by done. rewrite imap_fmap, <- imap_const, imap_fmap. apply imap_ext. reflexivity. }
    assert (Hp : forall id L, L ≡ₚ all_chunks d -> filter (fun c => c_sub c = id /\ rsv (c_sub c, c_index c) = false) L ≡ₚ filter (fun c => c_sub c = id) (available d rsv)).
    { intros id L HL. unfold available. rewrite list_filter_filter, HL. done. }
    assert (Hx : forall id g, (exists ly, sy ps ct (FTable "chunks" "chunks") ly /\
        g = on_rows (ask_reserved rsv) ps D (EAnd (EEq (tcol "chunks" "submission_id") (tcol "underlying_submission_ids" "submission_id")) is_not_reserved) (sc_under id) ly) <->
      exists G, G ≡ₚ filter (fun c => c_sub c = id) (available d rsv) /\ g = (fun c => sc_under id ++ sc_chunk c) <$> G).
    { intros id g. split.
      - intros (ly & Hl & ->). apply y_chunks in Hl as (L & HL & ->); [|done]. rewrite under_group. eexists. split; [by apply Hp|done].
      - intros (G & HG & ->). set (P := fun c : chunk => c_sub c = id /\ rsv (c_sub c, c_index c) = false).
        assert (HG' : G ≡ₚ filter P (all_chunks d)) by (rewrite HG; unfold available; by rewrite list_filter_filter).
        assert (HL : G ++ filter (fun x => ~ P x) (all_chunks d) ≡ₚ all_chunks d).
        { rewrite HG'. generalize (all_chunks d) as L. clear. induction L as [|x L IH]; [done|]. rewrite !filter_cons. destruct (decide (P x)); [rewrite decide_False by tauto; cbn; by rewrite IH|].
          rewrite decide_True by done. by rewrite <- Permutation_middle, IH. }
        exists (sc_chunk <$> (G ++ filter (fun x => ~ P x) (all_chunks d))). split; [apply y_chunks; [done|by eexists]|]. rewrite under_group. f_equal.
        fold P. rewrite filter_app. assert (E1 : filter P G = G).
        { assert (Hall : Forall P G) by (apply Forall_forall; intros x Hx; rewrite HG', elem_of_list_filter in Hx; tauto). clear - Hall.
          induction Hall as [|x L Hx _ IH]; [done|]. by rewrite filter_cons_True, IH. }
        assert (E2 : filter P (filter (fun x => ~ P x) (all_chunks d)) = []).
        { generalize (all_chunks d) as L. clear. induction L as [|x L IH]; [done|]. rewrite filter_cons. destruct (decide (~ P x)); [|done]. by rewrite filter_cons_False. }
        rewrite E1, E2. by rewrite app_nil_r. }
    assert (Hg : forall ids gs, Forall2 (fun id g => exists G, G ≡ₚ filter (fun c => c_sub c = id) (available d rsv) /\ g = (fun c => sc_under id ++ sc_chunk c) <$> G) ids gs <->
      exists Gs, Forall2 (fun id g => g ≡ₚ filter (fun c => c_sub c = id) (available d rsv)) ids Gs /\ gs = zip_with (fun id G => (fun c => sc_under id ++ sc_chunk c) <$> G) ids Gs).
    { clear. induction ids as [|id ids IH]; intros gs; split.
      - intros H. inversion H. by exists [].
      - intros (Gs & H & ->). inversion H. subst. constructor.
      - intros H. inversion H as [|? g ? gs' (G & HG & ->) Hr]; subst. apply IH in Hr as (Gs & HGs & ->). exists (G :: Gs). split; [by constructor|done].
      - intros (Gs & H & ->). inversion H as [|? G ? Gs' HG HGs]; subst. cbn [zip_with]. constructor; [by exists G|]. apply IH. by exists Gs'. }
    assert (Hz : forall ids Gs, length ids = length Gs -> exists L : list (sub_id * chunk), concat (zip_with (fun id G => (fun c => sc_under id ++ sc_chunk c) <$> G) ids Gs) = (fun x => sc_under x.1 ++ sc_chunk x.2) <$> L /\ L.*2 = concat Gs).
    { clear. induction ids as [|id ids IH]; intros [|G Gs] Hl; try done; [by exists []|]. destruct (IH Gs) as (L & E1 & E2); [by injection Hl|].
      exists (((fun c => (id, c)) <$> G) ++ L). cbn [zip_with concat]. rewrite !fmap_app, E1, E2, <- !list_fmap_compose. split; [done|]. f_equal. rewrite <- (list_fmap_id G) at 2. by apply list_fmap_ext. }
    split.
    - intros (ls & ls' & Hyy & -> & ->). cbn [s_yields] in Hyy. destruct Hyy as (lx & groups & -> & Hgr & ->).
      rewrite <- list_fmap_compose in Hgr. apply Forall2_fmap_l' in Hgr. apply (Forall2_iff _ _ _ _ Hx), Hg in Hgr as (Gs & HGs & ->).
      destruct (Hz ids Gs) as (L & E1 & E2); [by eapply Forall2_length|]. exists Gs. split; [done|]. refine (eq_trans (f_equal (fun z : list scope => imap (fun i sc => concat (fmap (M := list) (out_vals (ask_reserved rsv) ps D i sc) [OStar (Some "chunks")])) (List.filter (fun sc => holds (evq ps sc yes)) z)) E1) _). rewrite <- E2. exact (Ho L).
    - intros (Gs & HGs & ->). destruct (Hz ids Gs) as (L & E1 & E2); [by eapply Forall2_length|]. eexists _, _. split_and!; [|reflexivity|].
      + exists (sc_under <$> ids), (zip_with (fun id G => (fun c => sc_under id ++ sc_chunk c) <$> G) ids Gs). split_and!; [| |reflexivity].
        * cbn [s_yields]. change (SqlLang.assoc "underlying_submission_ids" ct) with (Some (["submission_id"], out_id <$> ids)). cbn beta iota. symmetry. exact (eq_sym (list_fmap_compose out_id (fun r => [("underlying_submission_ids", (plain ["submission_id"], r))]) ids)).
        * apply Forall2_fmap_l'. apply (Forall2_iff _ _ _ _ Hx), Hg. by exists Gs.
      + symmetry. refine (eq_trans (f_equal (fun z : list scope => imap (fun i sc => concat (fmap (M := list) (out_vals (ask_reserved rsv) ps D i sc) [OStar (Some "chunks")])) (List.filter (fun sc => holds (evq ps sc yes)) z)) E1) _). rewrite <- E2. exact (Ho L). }
  change (qy ps [] (QWith ?nm ?a ?b) l) with (exists cs la, q_cols (s_head D) (cte_cols []) a = Some cs /\ qy ps [] a la /\ qy ps [(nm, (cs, la))] b l). split.
  - intros (cs & la & Hcs' & Hla & Hl). rewrite Hcs in Hcs'. injection Hcs' as <-. apply Hy in Hla as (ids & Hids & ->). apply Hu in Hl as (groups & Hg & ->).
    exists (concat groups). split; [by exists ids, groups|done].
  - intros (L & (ids & groups & Hids & Hg & ->) & ->). exists ["submission_id"], (out_id <$> ids). split_and!; [done|apply Hy; by exists ids|]. apply Hu. by exists groups.
Qed.
(** *** How many tables are joined *)
Lemma tables_counts k : forall i f, tables (join_counts i k f) = (tables f + k)%nat /\ s_joins (join_counts i k f) = s_joins f.
Proof.
  induction k as [|k IH]; intros i f; cbn [join_counts]; [split; [lia|done]|].
  destruct (IH (S i) (FLeft f (FTable (counts_name i) (counts_name i)) (EEq (tcol "inner" "submission_id") (tcol (counts_name i) "submission_id")))) as [-> ->].
  cbn [tables s_joins]. split; [lia|by rewrite andb_true_r].
Qed.
Lemma joins_with_counts k : forall i n q, q_joins (with_counts i k n q) = q_joins q.
Proof. induction k as [|k IH]; intros i n q; cbn [with_counts]; [done|]. cbn [q_joins]. rewrite IH. done. Qed.
Lemma joins_built s off : q_joins (build_query s off).1 = Nat.leb (length (meta_keys s)) 63.
Proof.
  destruct s as [| | |k u]; try done. cbn [build_query b_ids]. set (s := PreferDistinct k u).
  assert (Hi : q_joins (b_ids_inner (innermost s) off 0).1 = true) by by destruct (innermost s).
  destruct (b_ids_inner (innermost s) off 0) as [q pre]. cbn [fst] in *. cbn [q_joins s_joins tables q_inner]. rewrite Hi, joins_with_counts.
  unfold q_ranked. cbn [q_joins]. destruct (tables_counts (length (meta_keys s)) 0 (FTable "inner" "inner")) as [-> ->]. cbn [tables s_joins].
  rewrite !andb_true_r. done.
Qed.
Theorem query_offers s off rows : ids_fit -> (length (meta_keys s) <= 63)%nat ->
  yields (ask_reserved rsv) (ask_counts m) (build_query s off).2 D (build_query s off).1 chunk_cols rows <-> exists l, offers s off d m rsv l /\ rows = out_c <$> l.
Proof.
  intros Hf Hl. unfold yields. rewrite (sf_heads _ _ HD), cols_chunks, joins_built. apply Nat.leb_le in Hl.
  assert (H : qy (build_query s off).2 [] (build_query s off).1 rows <-> exists l, offers s off d m rsv l /\ rows = out_c <$> l); [|tauto].
  destruct s as [| | |k u].
  - cbn [build_query fst snd offers]. rewrite (y_sorted_chunks [] false). split; intros (L & H); exists L; tauto.
  - cbn [build_query fst snd offers]. rewrite (y_sorted_chunks [] true). split; intros (L & H); exists L; tauto.
  - by apply y_random_chunks.
  - apply y_chunks_pd; [done|]. by intros ?.
Qed.
End queries.
