(** dewtemp in binary64 (C132). *)
From Coq Require Import Reals List Bool Arith ZArith Lra Lia String.
From Flocq Require Import Core BinarySingleNaN.
From Verif Require Import PyBase PyFacts Num NumFacts NumB64 Arr ArrFacts XrFacts Spec SpecMeteo SpecB64 SpecB64Dew B64Facts Hybrid Meteo ListFacts CellFacts MeteoFacts B64Blend B64Relhum B64Cos.
Import ListNotations.
Local Open Scope R_scope.

(** the result holds the formula cell by cell, for any numbers *)
Lemma dewtemp_cells {T} {N : Num T} (t rh : inp T) : compat t rh -> exists out, dewtemp t rh = Ok out /\ shp (as_arr out) = shp (as_arr t) /\
  forall i, inb (shp (as_arr t)) i -> get (as_arr out) i = dewtemp_cell (get (as_arr t) i) (get (as_arr rh) i).
Proof.
  intros C. destruct t as [t|t|t|t|t], rh as [h|h|h|h|h]; cbn [compat as_arr] in C; try tauto.
  1: { destruct (xr_map2_same dewtemp_cell t h C) as (r & E & _ & _ & S & _ & _ & G). unfold dewtemp. rewrite E. cbn [bind].
    eexists. split; [reflexivity|]. cbn [as_arr with_attrs dat]. auto. }
  all: unfold dewtemp; cbn [as_arr]; match goal with |- context [np_map2 ?f ?a ?b] => destruct (np_map2_same f a b C) as (r & E & S & G) end;
      rewrite E; cbn [bind]; eexists; (split; [reflexivity|]); cbn [as_arr]; auto.
Qed.

Lemma near_mulN k m x X y Y : 0 <= k <= 5000 -> 0 <= m <= 4000 -> 0 <= X -> 0 <= Y -> / 1000000 <= X * Y -> near k 0 x X -> near m 0 y Y -> near (k + m + 3) 0 (rn (x * y)) (X * Y).
Proof.
  intros Hk Hm HX HY H N1 N2. apply (near_le (k + m + 2) (3 * 0 * Y + tiny)); [apply near_mul; auto; lra|lra|].
  pose proof tiny_le. pose proof u_pos. assert (ulp1 * / 1000000 <= ulp1 * (X * Y)) by (apply Rmult_le_compat_l; lra). nra.
Qed.
Lemma near_divN k m x X y Y : 0 <= k <= 5000 -> 0 <= m <= 4000 -> 0 <= X -> 0 < Y -> / 1000000 <= X / Y -> near k 0 x X -> near m 0 y Y -> near (k + m + 3) 0 (rn (x / y)) (X / Y).
Proof.
  intros Hk Hm HX HY H N1 N2. apply (near_le (k + m + 2) (3 * 0 / Y + tiny)); [apply near_div; auto; lra|lra|].
  pose proof tiny_le. pose proof u_pos. assert (ulp1 * / 1000000 <= ulp1 * (X / Y)) by (apply Rmult_le_compat_l; lra).
  replace (3 * 0 / Y) with 0 by (field; lra). nra.
Qed.
Lemma near_pos k x X : 0 <= k <= 10000 -> 0 <= X -> near k 0 x X -> X / 2 <= x <= 2 * X.
Proof.
  intros Hk HX N. unfold near in N. rewrite Rplus_0_r in N. apply Rabs_le_inv in N. pose proof u_le. pose proof u_pos.
  assert (k * ulp1 * X <= / 2 * X). { apply Rmult_le_compat_r; auto. apply Rle_trans with (10000 * / 1000000000000000); [apply Rmult_le_compat; lra|lra]. } lra.
Qed.

Section D.
  Variable M : libm.
  Local Instance ND : Num b64 := NumB M.

  (** the rounded constants and intermediate values *)
  Definition gr : R := rn (rn (4615 / 10) / rn (1000 * rn (4186 / 1000))).
  Definition lr (t : R) : R := rn (rn (rn (5973 / 10) - rn (rn (57 / 100) * rn (t - 273))) / gr).
  Definition yr (h : R) : R := rn (h * rn (1 / 100)).
  Definition dewr (t L : R) : R := rn (rn (t * lr t) / rn (lr t - rn (t * L))).

  Lemma g_near : near 8 0 gr (461.5 / (1000 * 4.186)).
  Proof.
    unfold gr. replace 461.5 with (4615 / 10) by lra. replace 4.186 with (4186 / 1000) by lra.
    assert (N1 : near 1 0 (rn (4615 / 10)) (4615 / 10)) by (apply near_lit; lra).
    assert (N2 : near 1 0 (rn (4186 / 1000)) (4186 / 1000)) by (apply near_lit; lra).
    assert (N3 := near_mulN 0 1 _ 1000 _ (4186 / 1000) ltac:(lra) ltac:(lra) ltac:(lra) ltac:(lra) ltac:(lra) (near_exact 1000) N2).
    assert (N4 := near_divN 1 (0 + 1 + 3) _ (4615 / 10) _ (1000 * (4186 / 1000)) ltac:(lra) ltac:(lra) ltac:(lra) ltac:(lra) ltac:(lra) N1 N3).
    replace 8 with (1 + (0 + 1 + 3) + 3) by lra. exact N4.
  Qed.
  Lemma lnum_near t : fmt t -> 100 <= t <= 500 -> near 4 0 (rn (rn (5973 / 10) - rn (rn (57 / 100) * rn (t - 273)))) (597.3 - 0.57 * (t - 273)).
  Proof.
    intros Ft Ht. pose proof u_le as U. pose proof u_pos as U0. pose proof tiny_le as Ty.
    pose proof (rn_sub t 273 Ft ltac:(apply (fmt_Z 273); lia)) as D. set (d := rn (t - 273)) in *.
    assert (Ad : Rabs (t - 273) <= 227) by (apply Rabs_le; lra).
    assert (D1 : Rabs (d - (t - 273)) <= 227 * ulp1). { eapply Rle_trans; [exact D|]. rewrite Rmult_comm. apply Rmult_le_compat_r; lra. }
    assert (C : near 1 0 (rn (57 / 100)) (57 / 100)) by (apply near_lit; lra). unfold near in C. rewrite Rplus_0_r in C. set (c := rn (57 / 100)) in *.
    assert (C5 : near 1 0 (rn (5973 / 10)) (5973 / 10)) by (apply near_lit; lra). unfold near in C5. rewrite Rplus_0_r in C5. set (c5 := rn (5973 / 10)) in *.
    assert (Cl : 0.56 <= c <= 0.58) by (apply Rabs_le_inv in C; lra).
    assert (E : Rabs (c * d - 0.57 * (t - 273)) <= 262 * ulp1).
    { replace (c * d - 0.57 * (t - 273)) with (c * (d - (t - 273)) + (c - 57 / 100) * (t - 273)) by lra. eapply Rle_trans; [apply Rabs_triang|]. rewrite !Rabs_mult, (Rabs_pos_eq c) by lra.
      assert (c * Rabs (d - (t - 273)) <= 0.58 * (227 * ulp1)) by (apply Rmult_le_compat; try apply Rabs_pos; lra).
      assert (Rabs (c - 57 / 100) * Rabs (t - 273) <= 1 * ulp1 * (57 / 100) * 227) by (apply Rmult_le_compat; try apply Rabs_pos; lra). lra. }
    assert (Acd : Rabs (c * d) <= 130).
    { apply Rabs_le_inv in E. apply Rabs_le_inv in Ad. apply Rabs_le. lra. }
    pose proof (rn_abs (c * d)) as Rp. fold tiny in Rp. set (p := rn (c * d)) in *.
    assert (Ep : Rabs (p - 0.57 * (t - 273)) <= 393 * ulp1).
    { assert (ulp1 * Rabs (c * d) <= ulp1 * 130) by (apply Rmult_le_compat_l; lra). apply Rabs_le_inv in Rp, E. apply Rabs_le. lra. }
    pose proof (rn_sub c5 p (fmt_rn _) (fmt_rn _)) as Rs. unfold near. set (q := rn (c5 - p)) in *.
    assert (As : Rabs (c5 - p) <= 697) by (apply Rabs_le_inv in C5, Ep, Ad; apply Rabs_le; lra).
    assert (ulp1 * Rabs (c5 - p) <= ulp1 * 697) by (apply Rmult_le_compat_l; lra).
    apply Rabs_le_inv in Rs, C5, Ep, Ad.
    assert (4 * ulp1 * 467 <= 4 * ulp1 * (597.3 - 0.57 * (t - 273))) by (apply Rmult_le_compat_l; lra).
    apply Rabs_le. lra.
  Qed.
  Lemma lhv_range t : 100 <= t <= 500 -> 4200 <= lhv_over_gc t <= 6500.
  Proof. intros Ht. unfold lhv_over_gc. lra. Qed.
  Lemma l_near t : fmt t -> 100 <= t <= 500 -> near 15 0 (lr t) (lhv_over_gc t).
  Proof.
    intros Ft Ht. replace 15 with (4 + 8 + 3) by lra. unfold lr, lhv_over_gc. pose proof (lhv_range t Ht) as B. unfold lhv_over_gc in B.
    apply near_divN; try lra; [apply lnum_near; auto|apply g_near].
  Qed.
  Lemma one_hundredth : rn (100 * rn (1 / 100)) = 1.
  Proof.
    assert (I1 : is (Bmult mode_NE (b64_ofZ 100) (b64_dec 1 2)) (rn (100 * rn (1 / 100)))).
    { apply mul_is; [apply (ofZ_exact 100); lia|apply (dec_is M 1 2); lia|].
      assert (C : near 1 0 (rn (1 / 100)) (1 / 100)) by (apply near_lit; lra). apply near_pos in C; try lra. apply Rabs_big. lra. }
    assert (Q : Beqb (Bmult mode_NE (b64_ofZ 100) (b64_dec 1 2)) (b64_ofZ 1) = true) by reflexivity.
    rewrite (eq_is _ _ _ 1 I1 ltac:(apply (ofZ_exact 1); lia)) in Q. destruct (Req_bool_spec (rn (100 * rn (1 / 100))) 1); [auto|discriminate].
  Qed.
  Lemma y_facts h : fmt h -> bpow radix2 (-900) <= h <= 100 -> near 4 0 (yr h) (h * 0.01) /\ 0 < yr h <= 1.
  Proof.
    intros Fh Hh. pose proof (bpow_gt_0 radix2 (-900)) as P9. unfold yr.
    assert (C : near 1 0 (rn (1 / 100)) (1 / 100)) by (apply near_lit; lra).
    assert (N := near_mul 0 1 0 _ h _ (1 / 100) ltac:(lra) ltac:(lra) ltac:(lra) ltac:(lra) ltac:(lra) (near_exact h) C).
    assert (N' : near 4 0 (rn (h * rn (1 / 100))) (h * (1 / 100))).
    { apply (near_le _ _ 4 0 _ _ N); [lra|]. assert (T1 : tiny <= ulp1 * (bpow radix2 (-900) * / 128)).
      { change (/ 128) with (bpow radix2 (-7)). unfold tiny, ulp1. rewrite <- !bpow_plus. apply bpow_le. lia. }
      assert (ulp1 * (bpow radix2 (-900) * / 128) <= ulp1 * (h * (1 / 100))). { pose proof u_pos. apply Rmult_le_compat_l; [lra|]. lra. }
      lra. }
    split; [replace 0.01 with (1 / 100) by lra; exact N'|].
    split; [apply near_pos in N'; lra|].
    apply Rle_trans with (rn (100 * rn (1 / 100))); [|rewrite one_hundredth; lra]. apply rn_le. apply Rmult_le_compat_r; [|lra]. unfold near in C. apply Rabs_le_inv in C. pose proof u_le. lra.
  Qed.

  (** the error of the logarithm of the rounded argument *)
  Lemma ln_shift y Y : 0 < Y -> near 4 0 y Y -> Rabs (ln y - ln Y) <= 5 * ulp1.
  Proof.
    intros HY N. pose proof (near_pos 4 y Y ltac:(lra) ltac:(lra) N) as P. unfold near in N. rewrite Rplus_0_r in N. apply Rabs_le_inv in N. pose proof u_le as U. pose proof u_pos as U0.
    assert (Q : forall a b, 0 < a -> 0 < b -> ln a - ln b <= (a - b) / b).
    { intros a b Ha Hb. replace (ln a - ln b) with (ln (a / b)) by (unfold Rdiv; rewrite ln_mult, ln_Rinv; try (apply Rinv_0_lt_compat); auto; lra).
      assert (0 < a / b) by (apply Rdiv_lt_0_compat; auto). pose proof (exp_ineq1_le (ln (a / b))) as E. rewrite exp_ln in E by auto.
      replace ((a - b) / b) with (a / b - 1) by (field; lra). lra. }
    assert (Py : 0 < y) by lra. pose proof (Q y Y Py HY) as Q1. pose proof (Q Y y HY Py) as Q2.
    assert ((y - Y) / Y <= 5 * ulp1). { apply Rmult_le_reg_r with Y; auto. unfold Rdiv. rewrite Rmult_assoc, Rinv_l, Rmult_1_r by lra. nra. }
    assert ((Y - y) / y <= 5 * ulp1).
    { apply Rmult_le_reg_r with y; auto. unfold Rdiv. rewrite Rmult_assoc, Rinv_l, Rmult_1_r by lra.
      assert (ulp1 * (4 * ulp1 * Y) <= ulp1 * (Y / 10)). { apply Rmult_le_compat_l; [lra|]. assert (ulp1 * Y <= / 1000000000000000 * Y) by (apply Rmult_le_compat_r; lra). lra. }
      assert (ulp1 * (Y - 4 * ulp1 * Y) <= ulp1 * y) by (apply Rmult_le_compat_l; lra).
      assert (0 < ulp1 * Y) by (apply Rmult_lt_0_compat; lra). lra. }
    apply Rabs_le. lra.
  Qed.

  Lemma lr_facts t : fmt t -> 100 <= t <= 500 -> 2000 <= lr t <= 14000.
  Proof. intros Ft Ht. pose proof (lhv_range t Ht). pose proof (near_pos 15 (lr t) (lhv_over_gc t) ltac:(lra) ltac:(lra) (l_near t Ft Ht)). lra. Qed.

  (** upper bound and accuracy of the rounded formula *)
  Lemma dew_upper t L : fmt t -> 100 <= t <= 500 -> L <= 0 -> dewr t L <= t + 3 * ulp1 * t.
  Proof.
    intros Ft Ht HL. pose proof (lr_facts t Ft Ht) as Hl. set (l := lr t) in *. assert (Fl : fmt l) by apply fmt_rn. pose proof u_le as U. pose proof u_pos as U0.
    assert (H1 : rn (t * L) <= 0). { rewrite <- rn_0. apply rn_le. nra. }
    assert (H2 : l <= rn (l - rn (t * L))) by (apply rn_ge_fmt; [auto|lra]).
    assert (TL : 200000 <= t * l <= 7000000) by (split; [apply Rle_trans with (100 * 2000); [lra|apply Rmult_le_compat; lra]|apply Rle_trans with (500 * 14000); [apply Rmult_le_compat; lra|lra]]).
    assert (R1 : Rabs (rn (t * l) - t * l) <= ulp1 * (t * l)). { rewrite <- (Rabs_pos_eq (t * l)) at 3 by lra. apply rn_rel, normal_lo. rewrite Rabs_pos_eq; lra. }
    apply Rabs_le_inv in R1. assert (N0 : 0 <= rn (t * l)) by nra.
    unfold dewr. fold l. apply Rle_trans with (rn (rn (t * l) / l)).
    { apply rn_le. unfold Rdiv. apply Rmult_le_compat_l; auto. apply Rinv_le; lra. }
    assert (Q : rn (t * l) / l <= t + ulp1 * t). { apply Rmult_le_reg_r with l; [lra|]. unfold Rdiv. rewrite Rmult_assoc, Rinv_l, Rmult_1_r by lra. nra. }
    assert (Q0 : 1 <= rn (t * l) / l). { apply Rmult_le_reg_r with l; [lra|]. unfold Rdiv. rewrite Rmult_assoc, Rinv_l, Rmult_1_r by lra. nra. }
    assert (R2 : Rabs (rn (rn (t * l) / l) - rn (t * l) / l) <= ulp1 * (rn (t * l) / l)).
    { rewrite <- (Rabs_pos_eq (rn (t * l) / l)) at 3 by lra. apply rn_rel, normal_lo. rewrite Rabs_pos_eq; lra. }
    apply Rabs_le_inv in R2. set (q := rn (t * l) / l) in *. assert (ulp1 * q <= ulp1 * (t + ulp1 * t)) by (apply Rmult_le_compat_l; lra).
    assert (ulp1 * (ulp1 * t) <= ulp1 * t / 2). { assert (ulp1 * (ulp1 * t) <= / 2 * (ulp1 * t)) by (apply Rmult_le_compat_r; nra). lra. } assert (0 <= ulp1 * t) by nra. lra.
  Qed.
  Lemma dew_close t A L : fmt t -> 100 <= t <= 500 -> 0 <= A <= 1000 -> L <= 0 -> Rabs (- L - A) <= 8 * ulp1 * A + 6 * ulp1 ->
    near 41 0 (dewr t L) (t * lhv_over_gc t / (lhv_over_gc t + t * A)).
  Proof.
    intros Ft Ht HA HL EL. pose proof u_le as U. pose proof u_pos as U0. pose proof tiny_le as Ty. pose proof (lhv_range t Ht) as Hl. pose proof (l_near t Ft Ht) as Nl.
    set (l := lr t) in *. set (H := lhv_over_gc t) in *.
    assert (TA : 0 <= t * A <= 500000) by (split; [apply Rmult_le_pos; lra|apply Rle_trans with (500 * 1000); [apply Rmult_le_compat; lra|lra]]).
    assert (TH : 420000 <= t * H <= 3250000) by (split; [apply Rle_trans with (100 * 4200); [lra|apply Rmult_le_compat; lra]|apply Rle_trans with (500 * 6500); [apply Rmult_le_compat; lra|lra]]).
    assert (Nn := near_mulN 0 15 _ t _ H ltac:(lra) ltac:(lra) ltac:(lra) ltac:(lra) ltac:(lra) (near_exact t) Nl).
    assert (Na : near 8 (6 * ulp1) (- L) A) by exact EL.
    assert (Np := near_mul 8 0 (6 * ulp1) _ A _ t ltac:(lra) ltac:(lra) ltac:(lra) ltac:(lra) ltac:(lra) Na (near_exact t)).
    set (p := rn (- L * t)) in *. assert (Ep : rn (t * L) = - p). { unfold p. rewrite <- rn_opp. f_equal. ring. }
    assert (Nd : near 20 0 (rn (l - rn (t * L))) (H + t * A)).
    { rewrite Ep. replace (l - - p) with (l + p) by ring.
      pose proof (rn_add l p (fmt_rn _) (fmt_rn _)) as R. unfold near in Nl, Np |- *. rewrite Rplus_0_r in Nl |- *. apply Rabs_le_inv in Nl, Np.
      replace (A * t) with (t * A) in Np by ring.
      assert (UT : ulp1 * t <= ulp1 * (H / 8)) by (apply Rmult_le_compat_l; lra).
      assert (U1 : 0 <= ulp1 * H) by nra. assert (U2 : 0 <= ulp1 * (t * A)) by (apply Rmult_le_pos; lra).
      assert (U3 : ulp1 * 4200 <= ulp1 * H) by (apply Rmult_le_compat_l; lra).
      assert (S1 : - (18 * (ulp1 * H) + 11 * (ulp1 * (t * A))) <= l + p - (H + t * A) <= 18 * (ulp1 * H) + 11 * (ulp1 * (t * A))) by lra.
      assert (S2 : Rabs (l + p) <= 3 / 2 * (H + t * A)).
      { assert (ulp1 * H <= / 100 * H) by (apply Rmult_le_compat_r; lra). assert (ulp1 * (t * A) <= / 100 * (t * A)) by (apply Rmult_le_compat_r; lra). apply Rabs_le. lra. }
      assert (S3 : ulp1 * Rabs (l + p) <= ulp1 * (3 / 2 * (H + t * A))) by (apply Rmult_le_compat_l; lra).
      apply Rabs_le_inv in R. apply Rabs_le. lra. }
    unfold dewr. fold l. replace 41 with (0 + 15 + 3 + 20 + 3) by lra.
    apply near_divN; try lra; auto.
    apply Rmult_le_reg_r with (H + t * A); [lra|]. unfold Rdiv. rewrite Rmult_assoc, Rinv_l, Rmult_1_r by lra. lra.
  Qed.
  Lemma dew_mono t L L' : fmt t -> 100 <= t <= 500 -> L <= L' -> L' <= 0 -> dewr t L <= dewr t L'.
  Proof.
    intros Ft Ht HL HL'. pose proof (lr_facts t Ft Ht) as Hl. set (l := lr t) in *. assert (Fl : fmt l) by apply fmt_rn.
    assert (H1 : rn (t * L) <= rn (t * L')) by (apply rn_le, Rmult_le_compat_l; lra).
    assert (H0 : rn (t * L') <= 0). { rewrite <- rn_0. apply rn_le. nra. }
    assert (H2 : l <= rn (l - rn (t * L'))) by (apply rn_ge_fmt; [auto|lra]).
    assert (H3 : rn (l - rn (t * L')) <= rn (l - rn (t * L))) by (apply rn_le; lra).
    assert (N0 : 0 <= rn (t * l)). { rewrite <- rn_0. apply rn_le. nra. }
    unfold dewr. fold l. apply rn_le. unfold Rdiv. apply Rmult_le_compat_l; auto. apply Rinv_le; lra.
  Qed.

  Lemma ln_low h : bpow radix2 (-900) <= h <= 100 -> 0 <= - ln (h * 0.01) <= 1000.
  Proof.
    intros Hh. pose proof (bpow_gt_0 radix2 (-900)) as P9.
    assert (Q : forall a, 0 < a -> ln a <= a - 1) by (intros a Ha; pose proof (exp_ineq1_le (ln a)) as E; rewrite exp_ln in E by auto; lra).
    split.
    - pose proof (Q (h * 0.01) ltac:(nra)). lra.
    - assert (E : ln (bpow radix2 (-900)) = - 900 * ln 2).
      { rewrite bpow_exp. change (IZR radix2) with 2. rewrite ln_exp. reflexivity. }
      pose proof (Q 2 ltac:(lra)) as L2.
      assert (L9 : ln (bpow radix2 (-900)) <= ln h) by (destruct (proj1 Hh) as [H0|H0]; [left; apply ln_increasing; auto|rewrite H0; lra]).
      pose proof (Q 100 ltac:(lra)) as L100. replace (h * 0.01) with (h * / 100) by lra. rewrite ln_mult, ln_Rinv by lra. lra.
  Qed.

  (** the expression with the logarithm already computed *)
  Lemma dew_expr_is x Lb t L : is x t -> is Lb L -> 100 <= t <= 500 -> - 10000 <= L <= 0 ->
    let lhv := ndiv (nsub (dec 5973 1) (nmul (dec 57 2) (nsub x (ofZ 273)))) (ndiv (dec 4615 1) (nmul (ofZ 1000) (dec 4186 3))) in
    is (ndiv (nmul x lhv) (nsub lhv (nmul x Lb))) (dewr t L).
  Proof.
    intros Ix IL Ht [LB L0] lhv. unfold lhv. clear lhv. assert (Ft : fmt t) by (apply (is_fmt x); auto).
    pose proof u_le as U. pose proof u_pos as U0. pose proof tiny_le as Ty. pose proof (lr_facts t Ft Ht) as Hl.
    (* every operation *)
    assert (Ig : is (ndiv (dec 4615 1) (nmul (ofZ 1000) (dec 4186 3))) gr).
    { unfold gr. assert (N1 : near 1 0 (rn (4615 / 10)) (4615 / 10)) by (apply near_lit; lra). assert (N2 : near 1 0 (rn (4186 / 1000)) (4186 / 1000)) by (apply near_lit; lra).
      assert (N3 := near_mulN 0 1 _ 1000 _ (4186 / 1000) ltac:(lra) ltac:(lra) ltac:(lra) ltac:(lra) ltac:(lra) (near_exact 1000) N2).
      apply near_pos in N1, N2, N3; try lra.
      apply div_is; [apply (dec_is M 4615 1); lia| |lra|].
      - apply mul_is; [apply (ofZ_exact 1000); lia|apply (dec_is M 4186 3); lia|]. apply Rabs_big. lra.
      - apply Rabs_big. split; [apply Rmult_le_pos; [lra|apply Rlt_le, Rinv_0_lt_compat; lra]|].
        apply Rmult_le_reg_r with (rn (1000 * rn (4186 / 1000))); [lra|]. unfold Rdiv. rewrite Rmult_assoc, Rinv_l, Rmult_1_r by lra. lra. }
    assert (Gp : 0.05 <= gr <= 0.25) by (pose proof g_near as Q; apply near_pos in Q; lra).
    pose proof (lnum_near t Ft Ht) as Nn. apply near_pos in Nn; try lra.
    assert (Rt : Rabs (rn (t - 273)) <= 227).
    { apply rn_abs_le; [apply (fmt_Z 227); lia|apply Rabs_le; lra]. }
    assert (N57 : near 1 0 (rn (57 / 100)) (57 / 100)) by (apply near_lit; lra). apply near_pos in N57; try lra.
    assert (N59 : near 1 0 (rn (5973 / 10)) (5973 / 10)) by (apply near_lit; lra). apply near_pos in N59; try lra.
    assert (P57 : Rabs (rn (57 / 100) * rn (t - 273)) <= 512). { rewrite Rabs_mult, (Rabs_pos_eq (rn (57 / 100))) by lra. pose proof (Rabs_pos (rn (t - 273))). nra. }
    pose proof (rn_abs_le _ 512 ltac:(apply (fmt_Z 512); lia) P57) as P58. pose proof big_ge as BG.
    assert (Il : is (ndiv (nsub (dec 5973 1) (nmul (dec 57 2) (nsub x (ofZ 273)))) (ndiv (dec 4615 1) (nmul (ofZ 1000) (dec 4186 3)))) (lr t)).
    { unfold lr. apply div_is; [|exact Ig|lra|].
      - apply sub_is; [apply (dec_is M 5973 1); lia| |].
        + apply mul_is; [apply (dec_is M 57 2); lia|apply sub_is; [auto|apply (ofZ_exact 273); lia|apply Rabs_le; lra]|lra].
        + apply Rabs_le_inv in P58. apply Rabs_le. lra.
      - apply Rabs_big. split; [apply Rmult_le_pos; [lra|apply Rlt_le, Rinv_0_lt_compat; lra]|].
        apply Rmult_le_reg_r with gr; [lra|]. unfold Rdiv. rewrite Rmult_assoc, Rinv_l, Rmult_1_r by lra. lra. }
    set (l := lr t) in *.
    assert (TL : Rabs (t * L) <= 5000000). { rewrite Rabs_mult, (Rabs_pos_eq t), (Rabs_left1 L) by lra. nra. }
    pose proof (rn_abs_le _ 5000000 ltac:(apply (fmt_Z 5000000); lia) TL) as TL'. apply Rabs_le_inv in TL'.
    assert (H1 : rn (t * L) <= 0). { rewrite <- rn_0. apply rn_le. nra. }
    assert (H2 : l <= rn (l - rn (t * L))) by (apply rn_ge_fmt; [apply fmt_rn|lra]).
    assert (TT : 0 <= rn (t * l) <= 7000000).
    { split; [rewrite <- rn_0; apply rn_le; nra|]. apply rn_le_fmt; [apply (fmt_Z 7000000); lia|nra]. }
    unfold dewr. fold l. apply div_is; [| |lra|].
    - apply mul_is; auto. apply Rabs_big. nra.
    - apply sub_is; [exact Il|apply mul_is; auto; lra|]. apply Rabs_big. lra.
    - apply Rabs_big. split; [apply Rmult_le_pos; [lra|apply Rlt_le, Rinv_0_lt_compat; lra]|].
      apply Rmult_le_reg_r with (rn (l - rn (t * L))); [lra|]. unfold Rdiv. rewrite Rmult_assoc, Rinv_l, Rmult_1_r by lra. lra.
  Qed.

  Lemma dew_cell_is x z t h : ln_close M -> is x t -> is z h -> 100 <= t <= 500 -> bpow radix2 (-900) <= h <= 100 ->
    exists L, is (m_ln M (Bmult mode_NE z (b64_dec 1 2))) L /\ is (Bmult mode_NE z (b64_dec 1 2)) (yr h) /\ L <= 0 /\
      Rabs (- L - - ln (h * 0.01)) <= 8 * ulp1 * - ln (h * 0.01) + 6 * ulp1 /\ is (dewtemp_cell x z) (dewr t L).
  Proof.
    intros HM Ix Iz Ht Hh. assert (Ft : fmt t) by (apply (is_fmt x); auto). assert (Fh : fmt h) by (apply (is_fmt z); auto).
    pose proof u_le as U. pose proof u_pos as U0. pose proof tiny_le as Ty. pose proof (bpow_gt_0 radix2 (-900)) as P9. pose proof (lr_facts t Ft Ht) as Hl. pose proof (ln_low h Hh) as HA.
    destruct (y_facts h Fh Hh) as [Ny [Y0 Y1]].
    assert (I1 : is (dec 1 2) (rn (1 / 100))) by (apply (dec_is M 1 2); lia).
    assert (C1 : near 1 0 (rn (1 / 100)) (1 / 100)) by (apply near_lit; lra). apply near_pos in C1; try lra.
    assert (Iy : is (Bmult mode_NE z (b64_dec 1 2)) (yr h)) by (apply mul_is; auto; apply Rabs_big; nra).
    destruct (HM _ _ Iy Y0) as (L & IL & EL). exists L. split; [exact IL|]. split; [exact Iy|].
    pose proof (ln_shift (yr h) (h * 0.01) ltac:(nra) Ny) as Sh.
    assert (Ly : ln (yr h) <= 0). { rewrite <- ln_1. destruct Y1 as [Y1|Y1]; [left; apply ln_increasing; auto|rewrite Y1; lra]. }
    rewrite (Rabs_left1 (ln (yr h))) in EL by auto. apply Rabs_le_inv in EL, Sh. set (A := - ln (h * 0.01)) in *. set (w := - ln (yr h)) in *.
    assert (Hw : 0 <= w <= A + 5 * ulp1) by (unfold w, A in *; lra).
    assert (W8 : 8 * ulp1 * w <= 8 * ulp1 * A + ulp1 / 2).
    { assert (ulp1 * w <= ulp1 * A + ulp1 * (5 * ulp1)) by (rewrite <- Rmult_plus_distr_l; apply Rmult_le_compat_l; lra).
      assert (ulp1 * (5 * ulp1) <= ulp1 * / 100) by (apply Rmult_le_compat_l; lra). lra. }
    assert (W9 : 0 <= ulp1 * w <= w). { split; [apply Rmult_le_pos; lra|]. rewrite <- (Rmult_1_l w) at 2. apply Rmult_le_compat_r; lra. }
    assert (L0 : L <= 0). { assert (8 * ulp1 * w <= w). { rewrite <- (Rmult_1_l w) at 2. apply Rmult_le_compat_r; lra. } unfold w in *. lra. }
    split; [exact L0|]. split; [apply Rabs_le; unfold w, A in *; lra|].
    assert (LB : - 10000 <= L) by (unfold w, A in *; lra).
    exact (dew_expr_is x _ t L Ix IL Ht (conj LB L0)).
  Qed.
End D.

Lemma c132_lemma (M : libm) (t rh : inp b64) : ln_close M -> @compat b64 (NumB M) t rh -> exists out, @dewtemp b64 (NumB M) t rh = Ok out /\ shp (as_arr out) = shp (as_arr t) /\
  forall i tk h, inb (shp (as_arr t)) i -> is (get (as_arr t) i) tk -> is (get (as_arr rh) i) h -> 100 <= tk <= 500 -> bpow radix2 (-900) <= h <= 100 ->
    exists v d, is (get (as_arr out) i) v /\ / d = / tk - ln (h * 0.01) / lhv_over_gc tk /\ 0 < d <= tk /\
      Rabs (v - d) <= 41 * ulp1 * d /\ v <= tk + 3 * ulp1 * tk.
Proof.
  intros HM C. destruct (dewtemp_cells t rh C) as (out & E & S & G). exists out. split; [exact E|]. split; [exact S|]. intros i tk h Hi It Ih Ht Hh.
  destruct (dew_cell_is M _ _ tk h HM It Ih Ht Hh) as (L & _ & _ & L0 & EL & Iv). assert (Ft : fmt tk) by (eapply is_fmt; exact It).
  pose proof (ln_low h Hh) as HA. pose proof (lhv_range tk Ht) as Hl. set (A := - ln (h * 0.01)) in *. set (H := lhv_over_gc tk) in *.
  assert (TA : 0 <= tk * A) by (apply Rmult_le_pos; lra). assert (TH : 0 < tk * H) by (apply Rmult_lt_0_compat; lra).
  exists (dewr tk L), (tk * H / (H + tk * A)). rewrite G by auto. split; [exact Iv|].
  split. { unfold A. field. repeat split; try lra. unfold A in TA. lra. }
  split.
  { split; [apply Rdiv_lt_0_compat; lra|]. apply Rmult_le_reg_r with (H + tk * A); [lra|]. unfold Rdiv. rewrite Rmult_assoc, Rinv_l, Rmult_1_r by lra. nra. }
  split; [|apply dew_upper; auto]. pose proof (dew_close tk A L Ft Ht HA L0 EL) as N. unfold near in N. rewrite Rplus_0_r in N. exact N.
Qed.

Lemma c132_order (M : libm) (t rh rh' out out' : inp b64) : ln_close M -> ln_mono M -> @compat b64 (NumB M) t rh -> @compat b64 (NumB M) t rh' ->
  @dewtemp b64 (NumB M) t rh = Ok out -> @dewtemp b64 (NumB M) t rh' = Ok out' ->
  forall i tk h h', inb (shp (as_arr t)) i -> is (get (as_arr t) i) tk -> is (get (as_arr rh) i) h -> is (get (as_arr rh') i) h' -> 100 <= tk <= 500 ->
    bpow radix2 (-900) <= h <= h' -> h' <= 100 -> exists v v', is (get (as_arr out) i) v /\ is (get (as_arr out') i) v' /\ v <= v'.
Proof.
  intros HM HL C C' E E' i tk h h' Hi It Ih Ih' Ht Hh Hh'. destruct (dewtemp_cells t rh C) as (o & Eo & _ & G). destruct (dewtemp_cells t rh' C') as (o' & Eo' & _ & G').
  assert (o = out) by congruence. assert (o' = out') by congruence. subst o o'. rewrite (G i Hi), (G' i Hi).
  destruct (dew_cell_is M _ _ tk h HM It Ih Ht ltac:(lra)) as (L & IL & Iy & L0 & _ & Iv).
  destruct (dew_cell_is M _ _ tk h' HM It Ih' Ht ltac:(lra)) as (L' & IL' & Iy' & L0' & _ & Iv').
  exists (dewr tk L), (dewr tk L'). split; [exact Iv|]. split; [exact Iv'|]. apply dew_mono; auto; [eapply is_fmt; exact It|].
  assert (F : fmt h) by (eapply is_fmt; exact Ih). destruct (y_facts M h F ltac:(lra)) as [_ [Y0 _]].
  apply (HL _ _ _ _ _ _ Iy Iy'); auto. split; [exact Y0|]. unfold yr. apply rn_le. apply Rmult_le_compat_r; [|lra].
  assert (C1 : near 1 0 (rn (1 / 100)) (1 / 100)) by (apply near_lit; lra). apply near_pos in C1; lra.
Qed.

(** a library whose logarithm is correctly rounded meets both assumptions *)
Definition true_ln : libm := mkLibm (fun x => x) (fun x => of_real (ln (B2R x))) (fun x => x) (fun x => x) (fun x => x) (fun x => x).
Lemma near_one r : fmt r -> r <> 1 -> bpow radix2 (-53) <= Rabs (r - 1).
Proof.
  intros F H. destruct (Rlt_le_dec 1 r) as [H1|H1].
  - assert (Q : succ radix2 (FLT_exp (-1074) 53) 1 <= r).
    { apply succ_le_lt; auto; [typeclasses eauto|]. apply (fmt_Z 1). lia. }
    rewrite succ_eq_pos in Q by lra. change 1 with (bpow radix2 0) in Q at 2. rewrite ulp_bpow in Q. change (FLT_exp (-1074) 53 (0 + 1)) with (-52)%Z in Q.
    assert (bpow radix2 (-53) <= bpow radix2 (-52)) by (apply bpow_le; lia). rewrite Rabs_pos_eq; lra.
  - assert (Q : r <= pred radix2 (FLT_exp (-1074) 53) 1).
    { apply pred_ge_gt; auto; [typeclasses eauto| |lra]. apply (fmt_Z 1). lia. }
    change 1 with (bpow radix2 0) in Q. rewrite pred_bpow in Q by typeclasses eauto. change (FLT_exp (-1074) 53 0) with (-53)%Z in Q. change (bpow radix2 0) with 1 in Q. rewrite Rabs_left1; lra.
Qed.
Lemma ln_range x r : is x r -> 0 < r -> Rabs (ln r) <= 2000.
Proof.
  intros Ix H. assert (Q : forall a, 0 < a -> ln a <= a - 1) by (intros a Ha; pose proof (exp_ineq1_le (ln a)) as E; rewrite exp_ln in E by auto; lra).
  assert (L2 : 0 < ln 2 <= 1). { pose proof (Q 2 ltac:(lra)). split; [|lra]. rewrite <- ln_1. apply ln_increasing; lra. }
  assert (F : fmt r) by (eapply is_fmt; exact Ix).
  assert (B : bpow radix2 (-1074) <= r).
  { destruct (Rle_lt_dec (bpow radix2 (-1074)) r) as [B|B]; auto. exfalso.
    assert (ulp radix2 (FLT_exp (-1074) 53) 0 = bpow radix2 (-1074)) by (apply ulp_FLT_0; typeclasses eauto).
    pose proof (ulp_ge_0 radix2 (FLT_exp (-1074) 53) 0) as U.
    assert (Q2 : succ radix2 (FLT_exp (-1074) 53) 0 <= r) by (apply succ_le_lt; auto; [typeclasses eauto|apply generic_format_0]).
    rewrite succ_0 in Q2. lra. }
  destruct Ix as [Fi <-]. pose proof (abs_B2R_lt_emax 53 1024 x) as Bx. rewrite Rabs_pos_eq in Bx by lra.
  assert (E : forall e, ln (bpow radix2 e) = IZR e * ln 2). { intros e. rewrite bpow_exp. change (IZR radix2) with 2. apply ln_exp. }
  assert (Lo : ln (bpow radix2 (-1074)) <= ln (B2R x)). { destruct B as [B|B]; [left; apply ln_increasing; [apply bpow_gt_0|auto]|rewrite B; lra]. }
  assert (Up : ln (B2R x) <= ln (bpow radix2 1024)). { left. apply ln_increasing; auto. }
  rewrite E in Lo, Up. apply Rabs_le. lra.
Qed.
Lemma true_ln_close : ln_close true_ln.
Proof.
  intros x r Ix H. pose proof (ln_range x r Ix H) as B. destruct Ix as [Fi <-]. exists (rn (ln (B2R x))). cbn [true_ln m_ln]. pose proof big_ge as BG.
  split; [apply of_real_is; lra|]. assert (F : fmt (B2R x)) by (apply (is_fmt x); split; auto). pose proof u_pos as U0.
  destruct (Req_dec (B2R x) 1) as [E|E].
  - rewrite E, ln_1, rn_0. unfold Rminus. rewrite Rplus_0_l, Ropp_0, Rabs_R0. lra.
  - pose proof (near_one _ F E) as N. set (r := B2R x) in *.
    assert (Q : forall a, 0 < a -> ln a <= a - 1) by (intros a Ha; pose proof (exp_ineq1_le (ln a)) as X; rewrite exp_ln in X by auto; lra).
    assert (L : bpow radix2 (-1022) <= Rabs (ln r)).
    { assert (P : bpow radix2 (-1022) <= bpow radix2 (-54)) by (apply bpow_le; lia).
      assert (P2 : bpow radix2 (-53) = 2 * bpow radix2 (-54)) by (change 2 with (bpow radix2 1); rewrite <- bpow_plus; reflexivity). pose proof (bpow_gt_0 radix2 (-54)) as P4.
      assert (P5 : bpow radix2 (-54) <= 1) by (change 1 with (bpow radix2 0); apply bpow_le; lia).
      destruct (Rlt_le_dec 1 r) as [H1|H1].
      - rewrite Rabs_pos_eq in N by lra. pose proof (Q (/ r) ltac:(apply Rinv_0_lt_compat; lra)) as Qi. rewrite ln_Rinv in Qi by auto.
        assert (R1 : bpow radix2 (-54) <= 1 - / r).
        { apply Rmult_le_reg_r with r; auto. rewrite Rmult_minus_distr_r, Rinv_l by lra. destruct (Rle_lt_dec r 2).
          - assert (bpow radix2 (-54) * r <= bpow radix2 (-54) * 2) by (apply Rmult_le_compat_l; lra). lra.
          - assert (bpow radix2 (-54) * r <= / 2 * r); [|lra]. apply Rmult_le_compat_r; [lra|]. change (/ 2) with (bpow radix2 (-1)). apply bpow_le. lia. }
        rewrite Rabs_pos_eq; lra.
      - rewrite Rabs_left1 in N by lra. pose proof (Q r H). rewrite Rabs_left1; lra. }
    pose proof (rn_rel _ L) as R. pose proof (Rabs_pos (ln r)). nra.
Qed.
Lemma true_ln_mono : ln_mono true_ln.
Proof.
  intros x y r s u v Ix Iy Hrs Iu Iv. pose proof big_ge as BG. cbn [true_ln m_ln] in Iu, Iv.
  pose proof (ln_range x r Ix ltac:(lra)) as Bx. pose proof (ln_range y s Iy ltac:(lra)) as By. destruct Ix as [Fx <-], Iy as [Fy <-].
  destruct (of_real_is (ln (B2R x)) ltac:(lra)) as [_ E1]. destruct (of_real_is (ln (B2R y)) ltac:(lra)) as [_ E2]. destruct Iu as [_ <-], Iv as [_ <-]. rewrite E1, E2.
  apply rn_le. destruct (proj2 Hrs) as [H|H]; [left; apply ln_increasing; lra|rewrite H; lra].
Qed.
