(** heat_index in binary64 (C148). *)
From Coq Require Import Reals List Bool Arith ZArith Lra Lia String.
From Flocq Require Import Core BinarySingleNaN Sterbenz.
From Verif Require Import PyBase PyFacts Num NumFacts NumB64 Arr ArrFacts XrFacts Spec SpecMeteo SpecB64 B64Facts Hybrid Meteo ListFacts CellFacts HybridFacts MeteoFacts B64Blend B64Relhum B64Met.
Import ListNotations.
Local Open Scope R_scope.

(** the result holds the formula cell by cell, for any numbers *)
Lemma heat_cells {T} {N : Num T} (t rh : inp T) alt w out : compat rh t -> heat_index t rh alt = Ok (w, out) ->
  shp (as_arr out) = shp (as_arr t) /\ forall i, inb (shp (as_arr t)) i -> get (as_arr out) i = hi_cell alt (get (as_arr t) i) (get (as_arr rh) i).
Proof.
  intros C. unfold heat_index. destruct (negb (kind_beq _ _)) eqn:K; [discriminate|]. destruct (negb (shape_eqb _ _)) eqn:S; [discriminate|].
  destruct (min_max _ _) as [mm|]; [|discriminate]. cbn [bind]. destruct (_ || _); [discriminate|].
  destruct t as [t|t|t|t|t], rh as [h|h|h|h|h]; cbn in K; try discriminate; cbn [compat as_arr] in C; try tauto.
  1: { destruct (negb (labels_agree h t)); [discriminate|]. destruct (xr_map2_same (fun r v => hi_cell alt v r) h t C) as (r & E & _ & _ & Sr & _ & _ & G).
    rewrite E. cbn [bind]. intros Q. injection Q as <- <-. cbn [as_arr with_attrs dat].
    assert (Se : shp (dat h) = shp (dat t)) by (destruct C as (_ & _ & _ & X & _); auto). split; [congruence|]. intros i Hi. apply G. congruence. }
  all: intros Q; injection Q as <- <-; cbn [as_arr shp get]; split; auto.
Qed.

(** ** a computed number close to an exact one *)
Definition ap (x : b64) (X e m : R) : Prop := exists v, is x v /\ Rabs (v - X) <= e /\ Rabs X <= m.
Definition uu : R := 12 / 100000000000000000.
Definition ww : R := 1 / 10000000000000000000000000.
Lemma u_le : 0 < ulp1 <= uu.
Proof.
  split; [apply ulp1_pos|]. unfold ulp1, uu. change (bpow radix2 (-53)) with (/ 9007199254740992). lra.
Qed.
Lemma tiny_le : 0 < bpow radix2 (-1075) <= ww.
Proof.
  split; [apply bpow_gt_0|]. apply Rle_trans with (bpow radix2 (-84)); [apply bpow_le; lia|]. unfold ww. change (bpow radix2 (-84)) with (/ 19342813113834066795298816). lra.
Qed.
Lemma rn_err x k : Rabs x <= k -> Rabs (rn x - x) <= uu * k + ww.
Proof. intros H. pose proof (rn_abs x) as E. pose proof u_le. pose proof tiny_le. pose proof (Rabs_pos x). assert (ulp1 * Rabs x <= uu * k) by (apply Rmult_le_compat; lra). lra. Qed.
Lemma ap_add x y X Y e m f n g k : ap x X e m -> ap y Y f n -> e <= 1 -> f <= 1 -> m + n <= k <= 1000000000000 -> e + f + uu * (m + n + e + f) <= g -> ap (Bplus mode_NE x y) (X + Y) g k.
Proof.
  intros (a & Ia & Ea & Ma) (b & Ib & Eb & Mb) He Hf Hk Hg. apply Rabs_le_inv in Ea, Eb, Ma, Mb. pose proof big_ge as BG.
  assert (B : Rabs (a + b) <= m + n + e + f) by (apply Rabs_le; lra). exists (rn (a + b)). split; [apply add_is; auto; lra|].
  pose proof (rn_add a b (is_fmt _ _ Ia) (is_fmt _ _ Ib)) as R. pose proof u_le as U. pose proof (Rabs_pos (a + b)).
  assert (ulp1 * Rabs (a + b) <= uu * (m + n + e + f)) by (apply Rmult_le_compat; lra).
  assert (R2 : Rabs (rn (a + b) - (a + b)) <= uu * (m + n + e + f)) by lra. apply Rabs_le_inv in R2. split; apply Rabs_le; lra.
Qed.
Lemma ap_sub x y X Y e m f n g k : ap x X e m -> ap y Y f n -> e <= 1 -> f <= 1 -> m + n <= k <= 1000000000000 -> e + f + uu * (m + n + e + f) <= g -> ap (Bminus mode_NE x y) (X - Y) g k.
Proof.
  intros (a & Ia & Ea & Ma) (b & Ib & Eb & Mb) He Hf Hk Hg. apply Rabs_le_inv in Ea, Eb, Ma, Mb. pose proof big_ge as BG.
  assert (B : Rabs (a - b) <= m + n + e + f) by (apply Rabs_le; lra). exists (rn (a - b)). split; [apply sub_is; auto; lra|].
  pose proof (rn_sub a b (is_fmt _ _ Ia) (is_fmt _ _ Ib)) as R. pose proof u_le as U. pose proof (Rabs_pos (a - b)).
  assert (ulp1 * Rabs (a - b) <= uu * (m + n + e + f)) by (apply Rmult_le_compat; lra).
  assert (R2 : Rabs (rn (a - b) - (a - b)) <= uu * (m + n + e + f)) by lra. apply Rabs_le_inv in R2. split; apply Rabs_le; lra.
Qed.
Lemma ap_mul x y X Y e m f n g k : ap x X e m -> ap y Y f n -> e <= 1 -> f <= 1 -> m * n <= k /\ (m + e) * (n + f) <= 1000000000000 ->
  m * f + n * e + e * f + uu * ((m + e) * (n + f)) + ww <= g -> ap (Bmult mode_NE x y) (X * Y) g k.
Proof.
  intros (a & Ia & Ea & Ma) (b & Ib & Eb & Mb) He Hf [Hk Hb] Hg. pose proof big_ge as BG.
  pose proof (Rabs_pos X) as PX. pose proof (Rabs_pos Y) as PY. pose proof (Rabs_pos (a - X)) as Pa. pose proof (Rabs_pos (b - Y)) as Pb.
  assert (A1 : Rabs a <= m + e) by (replace a with ((a - X) + X) by ring; eapply Rle_trans; [apply Rabs_triang|lra]).
  assert (B1 : Rabs b <= n + f) by (replace b with ((b - Y) + Y) by ring; eapply Rle_trans; [apply Rabs_triang|lra]).
  assert (B : Rabs (a * b) <= (m + e) * (n + f)) by (rewrite Rabs_mult; apply Rmult_le_compat; auto; apply Rabs_pos).
  exists (rn (a * b)). split; [apply mul_is; auto; lra|]. pose proof (rn_err _ _ B) as R. split.
  - replace (rn (a * b) - X * Y) with ((rn (a * b) - a * b) + (X * (b - Y) + Y * (a - X) + (a - X) * (b - Y))) by ring.
    eapply Rle_trans; [apply Rabs_triang|]. assert (Q : Rabs (X * (b - Y) + Y * (a - X) + (a - X) * (b - Y)) <= m * f + n * e + e * f); [|lra].
    eapply Rle_trans; [apply Rabs_triang|]. apply Rplus_le_compat; [eapply Rle_trans; [apply Rabs_triang|]; apply Rplus_le_compat|]; rewrite Rabs_mult; apply Rmult_le_compat; auto; apply Rabs_pos.
  - rewrite Rabs_mult. eapply Rle_trans; [|exact Hk]. apply Rmult_le_compat; auto.
Qed.
Lemma ap_div x y X c e m g k : ap x X e m -> is y c -> e <= 1 -> 1 <= c -> m / c <= k /\ m <= 1000000000000 -> e + uu * (m + 1) + ww <= g -> ap (Bdiv mode_NE x y) (X / c) g k.
Proof.
  intros (a & Ia & Ea & Ma) Ib He Hc [Hk Hm] Hg. pose proof big_ge as BG.
  assert (I : 0 < / c <= 1) by (split; [apply Rinv_0_lt_compat; lra|rewrite <- Rinv_1; apply Rinv_le; lra]).
  assert (D : forall z, Rabs (z / c) = Rabs z * / c) by (intros z; unfold Rdiv; rewrite Rabs_mult, (Rabs_pos_eq (/ c)) by lra; auto).
  assert (A1 : Rabs a <= m + 1) by (replace a with ((a - X) + X) by ring; eapply Rle_trans; [apply Rabs_triang|lra]). pose proof (Rabs_pos a) as Pa.
  assert (B : Rabs (a / c) <= m + 1) by (rewrite D; nra).
  exists (rn (a / c)). split; [apply div_is; auto; lra|]. pose proof (rn_err _ _ B) as R. split.
  - replace (rn (a / c) - X / c) with ((rn (a / c) - a / c) + (a - X) / c) by (unfold Rdiv; ring). eapply Rle_trans; [apply Rabs_triang|].
    rewrite D. pose proof (Rabs_pos (a - X)). assert (Rabs (a - X) * / c <= e) by nra. lra.
  - rewrite D. eapply Rle_trans; [|exact Hk]. unfold Rdiv. apply Rmult_le_compat_r; lra.
Qed.
Lemma ap_is x r m : is x r -> Rabs r <= m -> ap x r 0 m.
Proof. intros H M. exists r. split; auto. split; auto. replace (r - r) with 0 by ring. rewrite Rabs_R0. lra. Qed.
Lemma ap_close x X e m v : ap x X e m -> is x v -> Rabs (v - X) <= e.
Proof. intros (a & [_ Ra] & E & _) [_ Rv]. rewrite Ra in Rv. subst. auto. Qed.

Lemma sqrt_close a b : 0 <= a -> 0 <= b <= 4 -> Rabs (a - b) <= / 1000000000000000 * b + / 1000000000000000000000000000000 -> Rabs (sqrt a - sqrt b) <= / 100000000000000.
Proof.
  intros Ha Hb H. pose proof (sqrt_sqrt a Ha) as Sa. pose proof (sqrt_sqrt b (proj1 Hb)) as Sb. pose proof (sqrt_pos a) as Pa. pose proof (sqrt_pos b) as Pb.
  set (x := sqrt a) in *. set (y := sqrt b) in *. destruct (Rle_lt_dec (Rabs (x - y)) (/ 100000000000000)) as [|L]; auto. exfalso.
  assert (Y2 : y <= 2) by nra. assert (E : Rabs (a - b) = Rabs (x - y) * (x + y)) by (rewrite <- (Rabs_pos_eq (x + y)) by lra; rewrite <- Rabs_mult; f_equal; nra).
  assert (G : / 100000000000000 < x + y) by (destruct (Rcase_abs (x - y)); [rewrite Rabs_left in L|rewrite Rabs_right in L]; lra).
  assert (Q : / 100000000000000 * (x + y) <= Rabs (x - y) * (x + y)) by (apply Rmult_le_compat_r; lra).
  assert (Q2 : y * y <= 2 * y) by nra. rewrite <- Sb in H at 2. lra.
Qed.

Section Lib.
Variable M : libm.
Local Instance NB : Num b64 := NumB M.
Lemma ap_lit z k X m e : (Z.abs z <= 2 ^ 53)%Z -> (k <= 15)%nat -> IZR z / IZR (10 ^ Z.of_nat k) = X -> - m <= X <= m -> uu * m + ww <= e -> ap (dec z k) X e m.
Proof.
  intros Hz Hk HX Hm He. exists (rn X). split; [rewrite <- HX; exact (dec_is M z k Hz Hk)|]. assert (A : Rabs X <= m) by (apply Rabs_le; lra). split; [|auto].
  pose proof (rn_err _ _ A). lra.
Qed.
Lemma dec_int z k q : (Z.abs z <= 2 ^ 53)%Z -> (k <= 15)%nat -> (Z.abs q <= 2 ^ 53)%Z -> IZR z / IZR (10 ^ Z.of_nat k) = IZR q -> is (dec z k) (IZR q).
Proof. intros Hz Hk Hq E. pose proof (dec_is M z k Hz Hk) as D. rewrite E in D. rewrite rn_fmt in D by (apply fmt_Z; auto). exact D. Qed.
Lemma abs_is (x : b64) a : is x a -> is (nabs x) (Rabs a).
Proof. intros [F <-]. split; [change (is_finite (Babs x) = true); rewrite is_finite_Babs; auto|apply B2R_Babs]. Qed.
Lemma sqrt_is (x : b64) a : is x a -> 0 <= a -> is (nsqrt x) (rn (sqrt a)).
Proof.
  intros [F <-] H. destruct (Bsqrt_correct 53 1024 _ _ mode_NE x) as (E & Fi & _). split; [|exact E].
  change (is_finite (Bsqrt mode_NE x) = true). rewrite Fi. destruct x as [| | |s m e p]; try discriminate; auto. destruct s; auto.
  exfalso. cbn in H. assert (F2R (Float radix2 (Z.neg m) e) < 0) by (apply F2R_lt_0; reflexivity). cbn in *. lra.
Qed.

(** ** the two regressions *)
Ltac nl := unfold uu, ww; lra.
Lemma reg_alt (t h : b64) T H : ap t T 0 200 -> ap h H 0 100 -> ap (nws_eqn (hi_coeffs true) t h) (regression true T H) (1 / 10000000000) 1000000.
Proof.
  intros Ht Hh.
  pose proof (ap_lit (363445176) 9 (363445176 / 1000000000) (364 / 1000) (437 / 10000000000000000000) ltac:(lia) ltac:(lia) ltac:(change (10 ^ Z.of_nat 9)%Z with 1000000000%Z; lra) ltac:(nl) ltac:(nl)) as H1.
  pose proof (ap_lit (988622465) 9 (988622465 / 1000000000) (989 / 1000) (119 / 1000000000000000000) ltac:(lia) ltac:(lia) ltac:(change (10 ^ Z.of_nat 9)%Z with 1000000000%Z; lra) ltac:(nl) ltac:(nl)) as H2.
  pose proof (ap_lit (4777114035) 9 (4777114035 / 1000000000) (478 / 100) (574 / 1000000000000000000) ltac:(lia) ltac:(lia) ltac:(change (10 ^ Z.of_nat 9)%Z with 1000000000%Z; lra) ltac:(nl) ltac:(nl)) as H3.
  pose proof (ap_lit (-114037667) 9 (-114037667 / 1000000000) (115 / 1000) (139 / 10000000000000000000) ltac:(lia) ltac:(lia) ltac:(change (10 ^ Z.of_nat 9)%Z with 1000000000%Z; lra) ltac:(nl) ltac:(nl)) as H4.
  pose proof (ap_lit (-850208) 9 (-850208 / 1000000000) (851 / 1000000) (103 / 1000000000000000000000) ltac:(lia) ltac:(lia) ltac:(change (10 ^ Z.of_nat 9)%Z with 1000000000%Z; lra) ltac:(nl) ltac:(nl)) as H5.
  pose proof (ap_lit (-20716198) 9 (-20716198 / 1000000000) (208 / 10000) (25 / 10000000000000000000) ltac:(lia) ltac:(lia) ltac:(change (10 ^ Z.of_nat 9)%Z with 1000000000%Z; lra) ltac:(nl) ltac:(nl)) as H6.
  pose proof (ap_lit (687678) 9 (687678 / 1000000000) (688 / 1000000) (826 / 10000000000000000000000) ltac:(lia) ltac:(lia) ltac:(change (10 ^ Z.of_nat 9)%Z with 1000000000%Z; lra) ltac:(nl) ltac:(nl)) as H7.
  pose proof (ap_lit (274954) 9 (274954 / 1000000000) (275 / 1000000) (331 / 10000000000000000000000) ltac:(lia) ltac:(lia) ltac:(change (10 ^ Z.of_nat 9)%Z with 1000000000%Z; lra) ltac:(nl) ltac:(nl)) as H8.
  pose proof (ap_lit (0) 1 (0 / 10) 0 (1 / 10000000000000000000000000) ltac:(lia) ltac:(lia) ltac:(change (10 ^ Z.of_nat 1)%Z with 10%Z; lra) ltac:(nl) ltac:(nl)) as H9.
  pose proof (ap_mul _ _ _ _ 0 200 0 200 (481 / 100000000000000) 40000 Ht Ht ltac:(nl) ltac:(nl) ltac:(nl) ltac:(nl)) as H10.
  pose proof (ap_mul _ _ _ _ 0 100 0 100 (121 / 100000000000000) 10000 Hh Hh ltac:(nl) ltac:(nl) ltac:(nl) ltac:(nl)) as H11.
  pose proof (ap_mul _ _ _ _ (119 / 1000000000000000000) (989 / 1000) 0 200 (476 / 10000000000000000) 198 H2 Ht ltac:(nl) ltac:(nl) ltac:(nl) ltac:(nl)) as H12.
  pose proof (ap_add _ _ _ _ (437 / 10000000000000000000) (364 / 1000) (476 / 10000000000000000) 198 (715 / 10000000000000000) 199 H1 H12 ltac:(nl) ltac:(nl) ltac:(nl) ltac:(nl)) as H13.
  pose proof (ap_mul _ _ _ _ (574 / 1000000000000000000) (478 / 100) 0 100 (115 / 1000000000000000) 478 H3 Hh ltac:(nl) ltac:(nl) ltac:(nl) ltac:(nl)) as H14.
  pose proof (ap_add _ _ _ _ (715 / 10000000000000000) 199 (115 / 1000000000000000) 478 (268 / 1000000000000000) 677 H13 H14 ltac:(nl) ltac:(nl) ltac:(nl) ltac:(nl)) as H15.
  pose proof (ap_mul _ _ _ _ (139 / 10000000000000000000) (115 / 1000) 0 200 (555 / 100000000000000000) 23 H4 Ht ltac:(nl) ltac:(nl) ltac:(nl) ltac:(nl)) as H16.
  pose proof (ap_mul _ _ _ _ (555 / 100000000000000000) 23 0 100 (832 / 1000000000000000) 2300 H16 Hh ltac:(nl) ltac:(nl) ltac:(nl) ltac:(nl)) as H17.
  pose proof (ap_add _ _ _ _ (268 / 1000000000000000) 677 (832 / 1000000000000000) 2300 (146 / 100000000000000) 2977 H15 H17 ltac:(nl) ltac:(nl) ltac:(nl) ltac:(nl)) as H18.
  pose proof (ap_mul _ _ _ _ (103 / 1000000000000000000000) (851 / 1000000) (481 / 100000000000000) 40000 (123 / 10000000000000000) (341 / 10) H5 H10 ltac:(nl) ltac:(nl) ltac:(nl) ltac:(nl)) as H19.
  pose proof (ap_add _ _ _ _ (146 / 100000000000000) 2977 (123 / 10000000000000000) (341 / 10) (184 / 100000000000000) 3012 H18 H19 ltac:(nl) ltac:(nl) ltac:(nl) ltac:(nl)) as H20.
  pose proof (ap_mul _ _ _ _ (25 / 10000000000000000000) (208 / 10000) (121 / 100000000000000) 10000 (752 / 10000000000000000) 208 H6 H11 ltac:(nl) ltac:(nl) ltac:(nl) ltac:(nl)) as H21.
  pose proof (ap_add _ _ _ _ (184 / 100000000000000) 3012 (752 / 10000000000000000) 208 (231 / 100000000000000) 3220 H20 H21 ltac:(nl) ltac:(nl) ltac:(nl) ltac:(nl)) as H22.
  pose proof (ap_mul _ _ _ _ (826 / 10000000000000000000000) (688 / 1000000) (481 / 100000000000000) 40000 (992 / 100000000000000000) (276 / 10) H7 H10 ltac:(nl) ltac:(nl) ltac:(nl) ltac:(nl)) as H23.
  pose proof (ap_mul _ _ _ _ (992 / 100000000000000000) (276 / 10) 0 100 (133 / 100000000000000) 2760 H23 Hh ltac:(nl) ltac:(nl) ltac:(nl) ltac:(nl)) as H24.
  pose proof (ap_add _ _ _ _ (231 / 100000000000000) 3220 (133 / 100000000000000) 2760 (436 / 100000000000000) 5980 H22 H24 ltac:(nl) ltac:(nl) ltac:(nl) ltac:(nl)) as H25.
  pose proof (ap_mul _ _ _ _ (331 / 10000000000000000000000) (275 / 1000000) 0 200 (133 / 10000000000000000000) (55 / 1000) H8 Ht ltac:(nl) ltac:(nl) ltac:(nl) ltac:(nl)) as H26.
  pose proof (ap_mul _ _ _ _ (133 / 10000000000000000000) (55 / 1000) (121 / 100000000000000) 10000 (266 / 1000000000000000) 550 H26 H11 ltac:(nl) ltac:(nl) ltac:(nl) ltac:(nl)) as H27.
  pose proof (ap_add _ _ _ _ (436 / 100000000000000) 5980 (266 / 1000000000000000) 550 (541 / 100000000000000) 6530 H25 H27 ltac:(nl) ltac:(nl) ltac:(nl) ltac:(nl)) as H28.
  pose proof (ap_mul _ _ _ _ (1 / 10000000000000000000000000) 0 (481 / 100000000000000) 40000 (401 / 100000000000000000000000) 0 H9 H10 ltac:(nl) ltac:(nl) ltac:(nl) ltac:(nl)) as H29.
  pose proof (ap_mul _ _ _ _ (401 / 100000000000000000000000) 0 (121 / 100000000000000) 10000 (402 / 10000000000000000000) 0 H29 H11 ltac:(nl) ltac:(nl) ltac:(nl) ltac:(nl)) as H30.
  pose proof (ap_add _ _ _ _ (541 / 100000000000000) 6530 (402 / 10000000000000000000) 0 (62 / 10000000000000) 6530 H28 H30 ltac:(nl) ltac:(nl) ltac:(nl) ltac:(nl)) as H31.
  destruct H31 as (v & Iv & Ev & Mv). exists v. split; [exact Iv|].
  match type of Ev with Rabs (v - ?X) <= _ => replace (regression true T H) with X by (unfold regression; lra) end. split; lra.
Qed.
Lemma reg_std (t h : b64) T H : ap t T 0 200 -> ap h H 0 100 -> ap (nws_eqn (hi_coeffs false) t h) (regression false T H) (1 / 10000000000) 1000000.
Proof.
  intros Ht Hh.
  pose proof (ap_lit (-42379) 3 (-42379 / 1000) (424 / 10) (509 / 100000000000000000) ltac:(lia) ltac:(lia) ltac:(change (10 ^ Z.of_nat 3)%Z with 1000%Z; lra) ltac:(nl) ltac:(nl)) as H1.
  pose proof (ap_lit (204901523) 8 (204901523 / 100000000) (205 / 100) (247 / 1000000000000000000) ltac:(lia) ltac:(lia) ltac:(change (10 ^ Z.of_nat 8)%Z with 100000000%Z; lra) ltac:(nl) ltac:(nl)) as H2.
  pose proof (ap_lit (1014333127) 8 (1014333127 / 100000000) (102 / 10) (123 / 100000000000000000) ltac:(lia) ltac:(lia) ltac:(change (10 ^ Z.of_nat 8)%Z with 100000000%Z; lra) ltac:(nl) ltac:(nl)) as H3.
  pose proof (ap_lit (-22475541) 8 (-22475541 / 100000000) (225 / 1000) (271 / 10000000000000000000) ltac:(lia) ltac:(lia) ltac:(change (10 ^ Z.of_nat 8)%Z with 100000000%Z; lra) ltac:(nl) ltac:(nl)) as H4.
  pose proof (ap_lit (-683783) 8 (-683783 / 100000000) (684 / 100000) (821 / 1000000000000000000000) ltac:(lia) ltac:(lia) ltac:(change (10 ^ Z.of_nat 8)%Z with 100000000%Z; lra) ltac:(nl) ltac:(nl)) as H5.
  pose proof (ap_lit (-5481717) 8 (-5481717 / 100000000) (549 / 10000) (659 / 100000000000000000000) ltac:(lia) ltac:(lia) ltac:(change (10 ^ Z.of_nat 8)%Z with 100000000%Z; lra) ltac:(nl) ltac:(nl)) as H6.
  pose proof (ap_lit (122874) 8 (122874 / 100000000) (123 / 100000) (148 / 1000000000000000000000) ltac:(lia) ltac:(lia) ltac:(change (10 ^ Z.of_nat 8)%Z with 100000000%Z; lra) ltac:(nl) ltac:(nl)) as H7.
  pose proof (ap_lit (85282) 8 (85282 / 100000000) (853 / 1000000) (103 / 1000000000000000000000) ltac:(lia) ltac:(lia) ltac:(change (10 ^ Z.of_nat 8)%Z with 100000000%Z; lra) ltac:(nl) ltac:(nl)) as H8.
  pose proof (ap_lit (-199) 8 (-199 / 100000000) (199 / 100000000) (239 / 1000000000000000000000000) ltac:(lia) ltac:(lia) ltac:(change (10 ^ Z.of_nat 8)%Z with 100000000%Z; lra) ltac:(nl) ltac:(nl)) as H9.
  pose proof (ap_mul _ _ _ _ 0 200 0 200 (481 / 100000000000000) 40000 Ht Ht ltac:(nl) ltac:(nl) ltac:(nl) ltac:(nl)) as H10.
  pose proof (ap_mul _ _ _ _ 0 100 0 100 (121 / 100000000000000) 10000 Hh Hh ltac:(nl) ltac:(nl) ltac:(nl) ltac:(nl)) as H11.
  pose proof (ap_mul _ _ _ _ (247 / 1000000000000000000) (205 / 100) 0 200 (987 / 10000000000000000) 410 H2 Ht ltac:(nl) ltac:(nl) ltac:(nl) ltac:(nl)) as H12.
  pose proof (ap_add _ _ _ _ (509 / 100000000000000000) (424 / 10) (987 / 10000000000000000) 410 (159 / 1000000000000000) 453 H1 H12 ltac:(nl) ltac:(nl) ltac:(nl) ltac:(nl)) as H13.
  pose proof (ap_mul _ _ _ _ (123 / 100000000000000000) (102 / 10) 0 100 (246 / 1000000000000000) 1020 H3 Hh ltac:(nl) ltac:(nl) ltac:(nl) ltac:(nl)) as H14.
  pose proof (ap_add _ _ _ _ (159 / 1000000000000000) 453 (246 / 1000000000000000) 1020 (582 / 1000000000000000) 1473 H13 H14 ltac:(nl) ltac:(nl) ltac:(nl) ltac:(nl)) as H15.
  pose proof (ap_mul _ _ _ _ (271 / 10000000000000000000) (225 / 1000) 0 200 (109 / 10000000000000000) 45 H4 Ht ltac:(nl) ltac:(nl) ltac:(nl) ltac:(nl)) as H16.
  pose proof (ap_mul _ _ _ _ (109 / 10000000000000000) 45 0 100 (164 / 100000000000000) 4500 H16 Hh ltac:(nl) ltac:(nl) ltac:(nl) ltac:(nl)) as H17.
  pose proof (ap_add _ _ _ _ (582 / 1000000000000000) 1473 (164 / 100000000000000) 4500 (294 / 100000000000000) 5973 H15 H17 ltac:(nl) ltac:(nl) ltac:(nl) ltac:(nl)) as H18.
  pose proof (ap_mul _ _ _ _ (821 / 1000000000000000000000) (684 / 100000) (481 / 100000000000000) 40000 (986 / 10000000000000000) 274 H5 H10 ltac:(nl) ltac:(nl) ltac:(nl) ltac:(nl)) as H19.
  pose proof (ap_add _ _ _ _ (294 / 100000000000000) 5973 (986 / 10000000000000000) 274 (379 / 100000000000000) 6247 H18 H19 ltac:(nl) ltac:(nl) ltac:(nl) ltac:(nl)) as H20.
  pose proof (ap_mul _ _ _ _ (659 / 100000000000000000000) (549 / 10000) (121 / 100000000000000) 10000 (199 / 1000000000000000) 549 H6 H11 ltac:(nl) ltac:(nl) ltac:(nl) ltac:(nl)) as H21.
  pose proof (ap_add _ _ _ _ (379 / 100000000000000) 6247 (199 / 1000000000000000) 549 (481 / 100000000000000) 6796 H20 H21 ltac:(nl) ltac:(nl) ltac:(nl) ltac:(nl)) as H22.
  pose proof (ap_mul _ _ _ _ (148 / 1000000000000000000000) (123 / 100000) (481 / 100000000000000) 40000 (178 / 10000000000000000) (492 / 10) H7 H10 ltac:(nl) ltac:(nl) ltac:(nl) ltac:(nl)) as H23.
  pose proof (ap_mul _ _ _ _ (178 / 10000000000000000) (492 / 10) 0 100 (238 / 100000000000000) 4920 H23 Hh ltac:(nl) ltac:(nl) ltac:(nl) ltac:(nl)) as H24.
  pose proof (ap_add _ _ _ _ (481 / 100000000000000) 6796 (238 / 100000000000000) 4920 (86 / 10000000000000) 11716 H22 H24 ltac:(nl) ltac:(nl) ltac:(nl) ltac:(nl)) as H25.
  pose proof (ap_mul _ _ _ _ (103 / 1000000000000000000000) (853 / 1000000) 0 200 (411 / 10000000000000000000) (171 / 1000) H8 Ht ltac:(nl) ltac:(nl) ltac:(nl) ltac:(nl)) as H26.
  pose proof (ap_mul _ _ _ _ (411 / 10000000000000000000) (171 / 1000) (121 / 100000000000000) 10000 (824 / 1000000000000000) 1710 H26 H11 ltac:(nl) ltac:(nl) ltac:(nl) ltac:(nl)) as H27.
  pose proof (ap_add _ _ _ _ (86 / 10000000000000) 11716 (824 / 1000000000000000) 1710 (111 / 10000000000000) 13426 H25 H27 ltac:(nl) ltac:(nl) ltac:(nl) ltac:(nl)) as H28.
  pose proof (ap_mul _ _ _ _ (239 / 1000000000000000000000000) (199 / 100000000) (481 / 100000000000000) 40000 (287 / 10000000000000000000) (796 / 10000) H9 H10 ltac:(nl) ltac:(nl) ltac:(nl) ltac:(nl)) as H29.
  pose proof (ap_mul _ _ _ _ (287 / 10000000000000000000) (796 / 10000) (121 / 100000000000000) 10000 (479 / 1000000000000000) 796 H29 H11 ltac:(nl) ltac:(nl) ltac:(nl) ltac:(nl)) as H30.
  pose proof (ap_add _ _ _ _ (111 / 10000000000000) 13426 (479 / 1000000000000000) 796 (133 / 10000000000000) 14222 H28 H30 ltac:(nl) ltac:(nl) ltac:(nl) ltac:(nl)) as H31.
  destruct H31 as (v & Iv & Ev & Mv). exists v. split; [exact Iv|].
  match type of Ev with Rabs (v - ?X) <= _ => replace (regression false T H) with X by (unfold regression; lra) end. split; lra.
Qed.
(** ** the average of Steadman's formula and the temperature *)
Lemma simple_ap (t h : b64) T H : ap t T 0 200 -> ap h H 0 100 ->
  ap ((ofZ 61 + (t - ofZ 68) * dec 12 1 + h * dec 94 3 + t) / ofZ 2)%num ((61 + 1.2 * (T - 68) + 0.094 * H + T) / 2) (5 / 10000000000000) 1000000.
Proof.
  intros Ht Hh.
  assert (IO61 : is (@ofZ b64 NB 61) 61) by (apply (ofZ_exact 61); lia).
  pose proof (ap_is _ 61 61 IO61 ltac:(rewrite Rabs_pos_eq; lra)) as O61.
  assert (IO68 : is (@ofZ b64 NB 68) 68) by (apply (ofZ_exact 68); lia).
  pose proof (ap_is _ 68 68 IO68 ltac:(rewrite Rabs_pos_eq; lra)) as O68.
  assert (I2 : is (@ofZ b64 NB 2) 2) by (apply (ofZ_exact 2); lia).
  pose proof (ap_sub _ _ _ _ 0 200 0 68 (322 / 10000000000000000) 268 Ht O68 ltac:(nl) ltac:(nl) ltac:(nl) ltac:(nl)) as H1.
  pose proof (ap_lit (12) 1 (12 / 10) (12 / 10) (145 / 1000000000000000000) ltac:(lia) ltac:(lia) ltac:(change (10 ^ Z.of_nat 1)%Z with 10%Z; lra) ltac:(nl) ltac:(nl)) as H2.
  pose proof (ap_mul _ _ _ _ (322 / 10000000000000000) 268 (145 / 1000000000000000000) (12 / 10) (117 / 1000000000000000) 322 H1 H2 ltac:(nl) ltac:(nl) ltac:(nl) ltac:(nl)) as H3.
  pose proof (ap_add _ _ _ _ 0 61 (117 / 1000000000000000) 322 (163 / 1000000000000000) 383 O61 H3 ltac:(nl) ltac:(nl) ltac:(nl) ltac:(nl)) as H4.
  pose proof (ap_lit (94) 3 (94 / 1000) (94 / 1000) (113 / 10000000000000000000) ltac:(lia) ltac:(lia) ltac:(change (10 ^ Z.of_nat 3)%Z with 1000%Z; lra) ltac:(nl) ltac:(nl)) as H5.
  pose proof (ap_mul _ _ _ _ 0 100 (113 / 10000000000000000000) (94 / 1000) (226 / 100000000000000000) (94 / 10) Hh H5 ltac:(nl) ltac:(nl) ltac:(nl) ltac:(nl)) as H6.
  pose proof (ap_add _ _ _ _ (163 / 1000000000000000) 383 (226 / 100000000000000000) (94 / 10) (213 / 1000000000000000) 393 H4 H6 ltac:(nl) ltac:(nl) ltac:(nl) ltac:(nl)) as H7.
  pose proof (ap_add _ _ _ _ (213 / 1000000000000000) 393 0 200 (285 / 1000000000000000) 593 H7 Ht ltac:(nl) ltac:(nl) ltac:(nl) ltac:(nl)) as H8.
  pose proof (ap_div _ _ _ 2 (285 / 1000000000000000) 593 (357 / 1000000000000000) 297 H8 I2 ltac:(nl) ltac:(nl) ltac:(nl) ltac:(nl)) as H9.
  destruct H9 as (v & Iv & Ev & Mv). exists v. split; [exact Iv|].
  match type of Ev with Rabs (v - ?X) <= _ => replace ((61 + 1.2 * (T - 68) + 0.094 * H + T) / 2) with X by lra end. split; lra.
Qed.
(** ** the adjustments *)
Lemma root_ap (t : b64) T : is t T -> 80 <= T <= 112 ->
  ap (nsqrt (nabs (ofZ 17 - nabs (t - ofZ 95)) / ofZ 17))%num (sqrt (Rabs (17 - Rabs (T - 95)) / 17)) (2 / 100000000000000) 1.
Proof.
  intros It HT. pose proof big_ge as BG. pose proof u_le as U.
  assert (I95 : is (@ofZ b64 NB 95) 95) by (apply (ofZ_exact 95); lia). assert (I17 : is (@ofZ b64 NB 17) 17) by (apply (ofZ_exact 17); lia).
  assert (D : fmt (T - 95)) by (apply sterbenz; [typeclasses eauto|typeclasses eauto|eapply is_fmt; eauto|eapply is_fmt; eauto|lra]).
  pose proof (sub_is _ _ _ _ It I95 ltac:(apply Rle_trans with 1000; [apply Rabs_le|]; lra)) as J1. rewrite (rn_fmt _ D) in J1.
  pose proof (abs_is _ _ J1) as J2. set (d := Rabs (T - 95)) in *. assert (Hd : 0 <= d <= 17) by (unfold d; split; [apply Rabs_pos|apply Rabs_le; lra]).
  pose proof (sub_is _ _ _ _ I17 J2 ltac:(apply Rle_trans with 1000; [apply Rabs_le|]; lra)) as J3.
  pose proof (rn_sub 17 d (is_fmt _ _ I17) (is_fmt _ _ J2)) as R1. rewrite (Rabs_pos_eq (17 - d)) in * by lra.
  assert (P3 : 0 <= rn (17 - d)) by (apply rn_ge_fmt; [apply fmt_0|lra]).
  pose proof (abs_is _ _ J3) as J4. rewrite Rabs_pos_eq in J4 by auto. set (a := rn (17 - d)) in *. set (w := 17 - d) in *. assert (Hw : 0 <= w <= 17) by (unfold w; lra).
  apply Rabs_le_inv in R1. assert (Uw : ulp1 * w <= uu * w) by (apply Rmult_le_compat_r; lra). unfold uu in *.
  assert (Ha : 0 <= a <= 18) by lra.
  pose proof (div_is _ _ _ _ J4 I17 ltac:(lra) ltac:(apply Rle_trans with 1000; [apply Rabs_le|]; lra)) as J5.
  pose proof (rn_abs (a / 17)) as R2. rewrite (Rabs_pos_eq (a / 17)) in R2 by lra.
  assert (Ti : bpow radix2 (-1075) <= / 10000000000000000000000000000000000).
  { apply Rle_trans with (bpow radix2 (-120)); [apply bpow_le; lia|]. change (bpow radix2 (-120)) with (/ 1329227995784915872903807060280344576). lra. }
  assert (Ua : ulp1 * (a / 17) <= 12 / 100000000000000000 * (a / 17)) by (apply Rmult_le_compat_r; lra). apply Rabs_le_inv in R2.
  set (q := rn (a / 17)) in *. assert (Pq : 0 <= q) by (apply rn_ge_fmt; [apply fmt_0|lra]).
  pose proof (sqrt_is _ _ J5 Pq) as J6. assert (S : Rabs (sqrt q - sqrt (w / 17)) <= / 100000000000000) by (apply sqrt_close; [auto|lra|apply Rabs_le; lra]).
  assert (S1 : 0 <= sqrt (w / 17) <= 1) by (split; [apply sqrt_pos|rewrite <- sqrt_1; apply sqrt_le_1; lra]). apply Rabs_le_inv in S.
  assert (Bq : Rabs (sqrt q) <= 2) by (apply Rabs_le; lra). pose proof (rn_err _ _ Bq) as R3. apply Rabs_le_inv in R3. unfold uu, ww in R3.
  exists (rn (sqrt q)). split; [exact J6|]. split; apply Rabs_le; lra.
Qed.
Lemma dry_ap (t h : b64) T H : is t T -> 80 <= T <= 112 -> ap h H 0 100 ->
  ap ((ofZ 13 - h) / ofZ 4 * nsqrt (nabs (ofZ 17 - nabs (t - ofZ 95)) / ofZ 17))%num (dry_adjustment T H) (2 / 1000000000000) 1000.
Proof.
  intros It HT Hh. pose proof (root_ap t T It HT) as Hs.
  assert (IO13 : is (@ofZ b64 NB 13) 13) by (apply (ofZ_exact 13); lia).
  pose proof (ap_is _ 13 13 IO13 ltac:(rewrite Rabs_pos_eq; lra)) as O13.
  assert (I4 : is (@ofZ b64 NB 4) 4) by (apply (ofZ_exact 4); lia).
  pose proof (ap_sub _ _ _ _ 0 13 0 100 (136 / 10000000000000000) 113 O13 Hh ltac:(nl) ltac:(nl) ltac:(nl) ltac:(nl)) as H1.
  pose proof (ap_div _ _ _ 4 (136 / 10000000000000000) 113 (273 / 10000000000000000) (283 / 10) H1 I4 ltac:(nl) ltac:(nl) ltac:(nl) ltac:(nl)) as H2.
  pose proof (ap_mul _ _ _ _ (273 / 10000000000000000) (283 / 10) (2 / 100000000000000) 1 (597 / 1000000000000000) (283 / 10) H2 Hs ltac:(nl) ltac:(nl) ltac:(nl) ltac:(nl)) as H3.
  destruct H3 as (v & Iv & Ev & Mv). exists v. split; [exact Iv|]. unfold dry_adjustment. split; lra.
Qed.
Lemma humid_ap (t h : b64) T H : ap t T 0 200 -> ap h H 0 100 ->
  ap ((h - dec 850 1) / dec 100 1 * ((dec 870 1 - t) / dec 50 1))%num (humid_adjustment T H) (2 / 100000000000) 10000.
Proof.
  intros Ht Hh.
  assert (IO85 : is (@dec b64 NB 850 1) 85) by (apply (dec_int 850 1 85); [lia|lia|lia|change (10 ^ Z.of_nat 1)%Z with 10%Z; lra]).
  pose proof (ap_is _ 85 85 IO85 ltac:(rewrite Rabs_pos_eq; lra)) as O85.
  assert (IO87 : is (@dec b64 NB 870 1) 87) by (apply (dec_int 870 1 87); [lia|lia|lia|change (10 ^ Z.of_nat 1)%Z with 10%Z; lra]).
  pose proof (ap_is _ 87 87 IO87 ltac:(rewrite Rabs_pos_eq; lra)) as O87.
  assert (IO10 : is (@dec b64 NB 100 1) 10) by (apply (dec_int 100 1 10); [lia|lia|lia|change (10 ^ Z.of_nat 1)%Z with 10%Z; lra]).
  pose proof (ap_is _ 10 10 IO10 ltac:(rewrite Rabs_pos_eq; lra)) as O10.
  assert (IO5 : is (@dec b64 NB 50 1) 5) by (apply (dec_int 50 1 5); [lia|lia|lia|change (10 ^ Z.of_nat 1)%Z with 10%Z; lra]).
  pose proof (ap_is _ 5 5 IO5 ltac:(rewrite Rabs_pos_eq; lra)) as O5.
  pose proof (ap_sub _ _ _ _ 0 100 0 85 (222 / 10000000000000000) 185 Hh O85 ltac:(nl) ltac:(nl) ltac:(nl) ltac:(nl)) as H1.
  pose proof (ap_div _ _ _ 10 (222 / 10000000000000000) 185 (446 / 10000000000000000) (185 / 10) H1 IO10 ltac:(nl) ltac:(nl) ltac:(nl) ltac:(nl)) as H2.
  pose proof (ap_sub _ _ _ _ 0 87 0 200 (345 / 10000000000000000) 287 O87 Ht ltac:(nl) ltac:(nl) ltac:(nl) ltac:(nl)) as H3.
  pose proof (ap_div _ _ _ 5 (345 / 10000000000000000) 287 (691 / 10000000000000000) (574 / 10) H3 IO5 ltac:(nl) ltac:(nl) ltac:(nl) ltac:(nl)) as H4.
  pose proof (ap_mul _ _ _ _ (446 / 10000000000000000) (185 / 10) (691 / 10000000000000000) (574 / 10) (397 / 100000000000000) 1062 H2 H4 ltac:(nl) ltac:(nl) ltac:(nl) ltac:(nl)) as H5.
  destruct H5 as (v & Iv & Ev & Mv). exists v. split; [exact Iv|]. unfold humid_adjustment. split; lra.
Qed.
(** ** the heat index *)
Lemma lt40 (t : b64) T z : is t T -> (Z.abs z <= 2 ^ 53)%Z -> (t <? ofZ z)%num = Rlt_bool T (IZR z).
Proof. intros I Z. change (Bltb t (b64_ofZ z) = Rlt_bool T (IZR z)). apply lt_is; auto. apply ofZ_exact; auto. Qed.
Lemma le_z (t : b64) T z : is t T -> (Z.abs z <= 2 ^ 53)%Z -> (t <=? ofZ z)%num = Rle_bool T (IZR z).
Proof. intros I Z. change (Bleb t (b64_ofZ z) = Rle_bool T (IZR z)). apply le_is; auto. apply ofZ_exact; auto. Qed.
Lemma ge_z (t : b64) T z : is t T -> (Z.abs z <= 2 ^ 53)%Z -> nge t (ofZ z) = Rle_bool (IZR z) T.
Proof. intros I Z. change (Bleb (b64_ofZ z) t = Rle_bool (IZR z) T). apply le_is; auto. apply ofZ_exact; auto. Qed.
Lemma gt_z (t : b64) T z : is t T -> (Z.abs z <= 2 ^ 53)%Z -> ngt t (ofZ z) = Rlt_bool (IZR z) T.
Proof. intros I Z. change (Bltb (b64_ofZ z) t = Rlt_bool (IZR z) T). apply lt_is; auto. apply ofZ_exact; auto. Qed.
Lemma base_ap alt (t h : b64) T H : is t T -> ap t T 0 200 -> ap h H 0 100 -> 1 / 1000000000000 < Rabs (simple_index T H - critical alt) ->
  ap (let s := nwhere (t <? ofZ 40)%num t ((ofZ 61 + (t - ofZ 68) * dec 12 1 + h * dec 94 3 + t) / ofZ 2)%num in
      nwhere (nge s (hi_crit alt)) (nws_eqn (hi_coeffs alt) t h) s) (base_index alt T H) (1 / 10000000000) 1000000.
Proof.
  intros It Ht Hh Hc. cbv zeta. rewrite (lt40 t T 40 It) by lia.
  assert (S : ap (nwhere (Rlt_bool T 40) t ((ofZ 61 + (t - ofZ 68) * dec 12 1 + h * dec 94 3 + t) / ofZ 2)%num) (simple_index T H) (5 / 10000000000000) 1000000).
  { unfold simple_index. destruct (Rlt_bool_spec T 40) as [L|L], (Rlt_dec T 40) as [L'|L']; try lra; cbn [nwhere].
    - destruct Ht as (v & Iv & Ev & Mv). exists v. split; [auto|]. split; lra.
    - apply simple_ap; auto. }
  set (s := nwhere _ _ _) in *. destruct S as (v & Iv & Ev & Mv).
  assert (G : nge s (hi_crit alt) = Rle_bool (critical alt) (simple_index T H)).
  { assert (E : nge s (hi_crit alt) = Rle_bool (critical alt) v).
    { destruct alt; [exact (ge_z s v 70 Iv ltac:(lia))|exact (ge_z s v 79 Iv ltac:(lia))]. }
    rewrite E. set (x := simple_index T H) in *. set (c := critical alt) in *. apply Rabs_le_inv in Ev.
    destruct (Rle_bool_spec c v), (Rle_bool_spec c x); auto; exfalso; [rewrite Rabs_left in Hc|rewrite Rabs_pos_eq in Hc]; lra. }
  rewrite G. unfold base_index. destruct (Rle_bool_spec (critical alt) (simple_index T H)) as [L|L], (Rle_dec (critical alt) (simple_index T H)); try lra; cbn [nwhere].
  - destruct alt; [apply reg_alt|apply reg_std]; auto.
  - exists v. split; [auto|]. split; lra.
Qed.
Lemma heat_is alt (t h : b64) T H : is t T -> is h H -> -200 <= T <= 200 -> 0 <= H <= 100 -> 1 / 1000000000000 < Rabs (simple_index T H - critical alt) ->
  exists v x, is (hi_cell alt t h) v /\ index_value alt T H x /\ Rabs (v - x) <= 1 / 1000000000.
Proof.
  intros It Ih BT BH Hc. pose proof (ap_is t T 200 It ltac:(apply Rabs_le; lra)) as Ht. pose proof (ap_is h H 100 Ih ltac:(apply Rabs_le; lra)) as Hh.
  pose proof (base_ap alt t h T H It Ht Hh Hc) as B. unfold hi_cell. cbv zeta in B |- *. set (b := nwhere (nge _ (hi_crit alt)) _ _) in *.
  rewrite (le_z h H 13 Ih), (ge_z t T 80 It), (le_z t T 112 It), (gt_z h H 85 Ih), (le_z t T 87 It) by lia.
  unfold index_value, dry_window, humid_window.
  destruct (Rle_bool_spec H 13) as [A1|A1], (Rlt_bool_spec 85 H) as [A2|A2]; try lra; cbn [andb nwhere].
  - destruct (Rle_bool_spec 80 T) as [A3|A3], (Rle_bool_spec T 112) as [A4|A4]; cbn [andb nwhere].
    2-4: destruct B as (v & Iv & Ev & Mv); exists v, (base_index alt T H); (split; [exact Iv|]); (split; [right; right; split; [lra|split; [lra|auto]]|lra]).
    pose proof (dry_ap t h T H It ltac:(lra) Hh) as D.
    pose proof (ap_sub _ _ _ _ (1 / 10000000000) 1000000 (2 / 1000000000000) 1000 (1 / 1000000000) 2000000 B D ltac:(nl) ltac:(nl) ltac:(nl) ltac:(nl)) as (v & Iv & Ev & _).
    exists v. eexists. split; [exact Iv|]. split; [left; split; [lra|reflexivity]|exact Ev].
  - destruct (Rle_bool_spec 80 T) as [A3|A3], (Rle_bool_spec T 87) as [A4|A4]; cbn [andb nwhere].
    2-4: destruct B as (v & Iv & Ev & Mv); exists v, (base_index alt T H); (split; [exact Iv|]); (split; [right; right; split; [lra|split; [lra|auto]]|lra]).
    pose proof (humid_ap t h T H Ht Hh) as D.
    pose proof (ap_add _ _ _ _ (1 / 10000000000) 1000000 (2 / 100000000000) 10000 (1 / 1000000000) 2000000 B D ltac:(nl) ltac:(nl) ltac:(nl) ltac:(nl)) as (v & Iv & Ev & _).
    exists v. eexists. split; [exact Iv|]. split; [right; left; split; [lra|reflexivity]|exact Ev].
  - destruct B as (v & Iv & Ev & Mv); exists v, (base_index alt T H); (split; [exact Iv|]); (split; [right; right; split; [lra|split; [lra|auto]]|lra]).
Qed.
(** below 40 F the temperature itself, bit for bit, whatever the humidity: no threshold is near *)
Lemma heat_cold alt (t h : b64) T : is t T -> T < 40 -> hi_cell alt t h = t.
Proof.
  intros It L. unfold hi_cell. cbv zeta. rewrite (lt40 t T 40 It), Rlt_bool_true by (auto; lia). cbn [nwhere].
  assert (G : nge t (hi_crit alt) = false).
  { destruct alt; [replace (hi_crit true) with (ofZ 70) by reflexivity; rewrite (ge_z t T 70 It)|replace (hi_crit false) with (ofZ 79) by reflexivity; rewrite (ge_z t T 79 It)]; try lia; apply Rle_bool_false; lra. }
  rewrite G, (ge_z t T 80 It), Rle_bool_false by (lia || lra). cbn [nwhere andb]. rewrite !andb_false_r. reflexivity.
Qed.
End Lib.

Lemma c148_value M (t rh : inp b64) alt w out : @compat b64 (NumB M) rh t -> @heat_index b64 (NumB M) t rh alt = Ok (w, out) ->
  forall i T H, inb (shp (as_arr t)) i -> is (get (as_arr t) i) T -> is (get (as_arr rh) i) H -> -200 <= T <= 200 -> 0 <= H <= 100 ->
    1 / 1000000000000 < Rabs (simple_index T H - critical alt) ->
    exists v x, is (get (as_arr out) i) v /\ index_value alt T H x /\ Rabs (v - x) <= 1 / 1000000000.
Proof.
  intros C E i T H Hi It Ih BT BH Hc. destruct (heat_cells t rh alt w out C E) as [_ G]. rewrite (G i Hi). exact (heat_is M alt _ _ T H It Ih BT BH Hc).
Qed.
Lemma c148_cold M (t rh : inp b64) alt w out : @compat b64 (NumB M) rh t -> @heat_index b64 (NumB M) t rh alt = Ok (w, out) ->
  forall i T, inb (shp (as_arr t)) i -> is (get (as_arr t) i) T -> T < 40 -> get (as_arr out) i = get (as_arr t) i.
Proof.
  intros C E i T Hi It L. destruct (heat_cells t rh alt w out C E) as [_ G]. rewrite (G i Hi). exact (heat_cold M alt _ _ T It L).
Qed.

(** a temperature a little below the threshold for 100 % *)
Definition t_near : b64 := Bdiv mode_NE (b64_ofZ 2705998071559261) (b64_ofZ 35184372088832).
Definition T_near : R := 2705998071559261 / 35184372088832.
Lemma t_near_is : is t_near T_near.
Proof.
  assert (F : fmt T_near).
  { unfold T_near. replace (2705998071559261 / 35184372088832) with (F2R (Float radix2 2705998071559261 (-45))).
    - apply generic_format_F2R. intros _. unfold cexp, FLT_exp. apply Z.max_lub; [|lia]. cbn [Fnum Fexp].
      assert (mag radix2 (F2R (Float radix2 2705998071559261 (-45))) <= 8)%Z; [|lia]. apply mag_le_bpow.
      + apply F2R_neq_0. discriminate.
      + unfold F2R. cbn [Fnum Fexp]. change (bpow radix2 (-45)) with (/ 35184372088832). change (bpow radix2 8) with 256. rewrite Rabs_pos_eq; lra.
    - unfold F2R. cbn [Fnum Fexp]. change (bpow radix2 (-45)) with (/ 35184372088832). lra. }
  pose proof big_ge as BG. unfold T_near in *. rewrite <- (rn_fmt _ F). unfold t_near.
  apply div_is; [apply (ofZ_exact 2705998071559261); lia|apply (ofZ_exact 35184372088832); lia|lra|]. rewrite Rabs_pos_eq; lra.
Qed.
Lemma c148_threshold M : exists w out v x, @heat_index b64 (NumB M) (IFloat t_near) (IFloat (b64_ofZ 100)) false = Ok (w, IFloat out) /\
  is t_near T_near /\ is (b64_ofZ 100) 100 /\ is out v /\ index_value false T_near 100 x /\ v < x - 1.6.
Proof.
  pose proof t_near_is as It. assert (Ih : is (b64_ofZ 100) 100) by (apply (ofZ_exact 100); lia).
  pose proof (ap_is t_near T_near 200 It ltac:(unfold T_near; rewrite Rabs_pos_eq; lra)) as Ht. pose proof (ap_is _ 100 100 Ih ltac:(rewrite Rabs_pos_eq; lra)) as Hh.
  destruct (reg_std M _ _ _ _ Ht Hh) as (v & Iv & Ev & _).
  exists false, (@hi_cell b64 (NumB M) false t_near (b64_ofZ 100)), v, (simple_index T_near 100).
  split; [reflexivity|]. split; [exact It|]. split; [exact Ih|]. split.
  { change (NumB M) with (NB M). unfold hi_cell. cbv zeta. rewrite (lt40 M _ _ 40 It), Rlt_bool_false by (lia || (unfold T_near; lra)). cbn [nwhere].
    match goal with |- context [@nwhere ?A (@nge ?B ?N ?s ?c)] => replace (@nge B N s c) with true by reflexivity end. cbn [nwhere].
    rewrite (ge_z M _ _ 80 It), Rle_bool_false by (lia || (unfold T_near; lra)). cbn [andb]. rewrite !andb_false_r. cbn [nwhere]. exact Iv. }
  assert (S : simple_index T_near 100 = (61 + 1.2 * (T_near - 68) + 0.094 * 100 + T_near) / 2) by (unfold simple_index; destruct (Rlt_dec T_near 40) as [L|L]; auto; exfalso; unfold T_near in L; lra).
  split.
  - right. right. split; [unfold dry_window; lra|]. split; [unfold humid_window, T_near; lra|]. unfold base_index. destruct (Rle_dec (critical false) (simple_index T_near 100)) as [L|L]; auto.
    exfalso. rewrite S in L. unfold critical, T_near in L. lra.
  - rewrite S. apply Rabs_le_inv in Ev. unfold regression, T_near in *. lra.
Qed.
