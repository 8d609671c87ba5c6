(** Arc lengths of gradient.py against the documented formulas. *)
From Coq Require Import Reals List Lra Lia ZArith.
From Coquelicot Require Import Coquelicot.
From Verif Require Import PyBase Num NumFacts Arr Hybrid Gradient PolyZ SpecGrad GradSeries GradRadius GradApi.
Import ListNotations.
Local Open Scope R_scope.

Lemma deriv_rad x : -90 <= x <= 90 -> Rabs (arc_deriv x - PI / 180 * rad_series x) <= 2 / 10 ^ 18.
Proof.
  intros Hx. pose proof (arc_deriv_close x Hx) as H.
  pose proof d2r_PI as [D1 D2]. pose proof (rad_pos x Hx) as HP.
  replace (arc_deriv x - PI / 180 * rad_series x)
    with ((arc_deriv x - rd2r * rad_series x) + - ((PI / 180 - rd2r) * rad_series x)) by ring.
  eapply Rle_trans; [apply Rabs_triang|]. rewrite Rabs_Ropp, (Rabs_right ((PI / 180 - rd2r) * rad_series x)).
  2:{ apply Rle_ge, Rmult_le_pos; lra. }
  assert ((PI / 180 - rd2r) * rad_series x <= 1 / 10 ^ 26 * 6490249) by (apply Rmult_le_compat; lra). lra.
Qed.
Lemma deriv_radius x : -90 <= x <= 90 -> Rabs (arc_deriv x - PI / 180 * ellipsoid_radius x) <= 4 / 10 ^ 13.
Proof.
  intros Hx. pose proof (deriv_rad x Hx) as H. pose proof (radius_close x Hx) as HR.
  pose proof d2r_PI as [D1 D2]. pose proof rd2r_range.
  replace (arc_deriv x - PI / 180 * ellipsoid_radius x)
    with ((arc_deriv x - PI / 180 * rad_series x) + PI / 180 * (rad_series x - ellipsoid_radius x)) by ring.
  eapply Rle_trans; [apply Rabs_triang|]. rewrite (Rabs_mult (PI / 180)), (Rabs_right (PI / 180)) by lra.
  assert (PI / 180 * Rabs (rad_series x - ellipsoid_radius x) <= 0.0181 * (2 / 10 ^ 11)).
  { apply Rmult_le_compat; try lra. apply Rabs_pos. }
  lra.
Qed.

Lemma c50_odd_even x : rad_lat_wgs84 (Fin (- x)) = rad_lat_wgs84 (Fin x) /\
  arc_lat_wgs84 (Fin (- x)) = nneg (arc_lat_wgs84 (Fin x)).
Proof.
  rewrite !rad_fin, !arc_fin. split; [now rewrite rad_even|]. now rewrite arc_odd.
Qed.
Lemma c50_derivative : exists A r, (forall x, arc_lat_wgs84 (Fin x) = Fin (A x) /\ rad_lat_wgs84 (Fin x) = Fin (r x)) /\
  forall x, -90 <= x <= 90 -> exists a', derivable_pt_lim A x a' /\ Rabs (a' - r x * (PI / 180)) <= 2 / 10 ^ 18.
Proof.
  exists arc_series, rad_series. split.
  - intros x. now rewrite arc_fin, rad_fin.
  - intros x Hx. exists (arc_deriv x). split; [apply arc_deriv_ok|]. rewrite (Rmult_comm (rad_series x)). now apply deriv_rad.
Qed.
Lemma c50_lon_linear l1 l2 a b la :
  arc_lon_wgs84 (Fin (a * l1 + b * l2)) (Fin la)
    = nadd (nmul (Fin a) (arc_lon_wgs84 (Fin l1) (Fin la))) (nmul (Fin b) (arc_lon_wgs84 (Fin l2) (Fin la))) /\
  arc_lon_wgs84 (Fin 0) (Fin la) = Fin 0 /\
  arc_lon_wgs84 (Fin l1) (Fin (- la)) = arc_lon_wgs84 (Fin l1) (Fin la).
Proof.
  rewrite !arc_lon_fin. split; [|split]; apply (f_equal Fin); unfold lon_arc; try ring.
  rewrite rad_even. replace (- la * rd2r) with (- (la * rd2r)) by ring. now rewrite cos_neg.
Qed.

(** ** C71 *)
Lemma c71_radius x : -90 <= x <= 90 -> exists r, rad_lat_wgs84 (Fin x) = Fin r /\ Rabs (r - ellipsoid_radius x) <= 2 / 10 ^ 11.
Proof. intros Hx. exists (rad_series x). rewrite rad_fin. split; [reflexivity|]. now apply radius_close. Qed.

Lemma radius_continuous x : continuous ellipsoid_radius x.
Proof.
  unfold ellipsoid_radius, radians. apply continuous_comp; [|apply continuous_sqrt].
  apply (ex_derive_continuous (V := R_NormedModule)). auto_derive. auto.
Qed.
Lemma c71_arc x y : -90 <= x -> x <= y -> y <= 90 ->
  exists ax ay, arc_lat_wgs84 (Fin x) = Fin ax /\ arc_lat_wgs84 (Fin y) = Fin ay /\
    Rabs (ay - ax - RInt (fun t => PI / 180 * ellipsoid_radius t) x y) <= 4 / 10 ^ 13 * (y - x).
Proof.
  intros Hx Hxy Hy. exists (arc_series x), (arc_series y). rewrite !arc_fin. split; [reflexivity|]. split; [reflexivity|].
  set (f := fun t => PI / 180 * ellipsoid_radius t).
  assert (Cf : forall t, continuous f t).
  { intros t. unfold f. apply (continuous_scal_r (PI / 180) ellipsoid_radius). apply radius_continuous. }
  destruct (Rle_lt_or_eq_dec x y Hxy) as [L| ->].
  2:{ rewrite RInt_point. change (zero : R) with 0. rewrite !Rminus_eq_0. rewrite Rabs_R0. lra. }
  set (G := fun t => arc_series t - RInt f x t).
  assert (Dg : forall t, derivable_pt_lim G t (arc_deriv t - f t)).
  { intros t. apply derivable_pt_lim_minus; [apply arc_deriv_ok|]. apply is_derive_Reals.
    apply (is_derive_RInt f (RInt f x) x t).
    - exists (mkposreal 1 Rlt_0_1). intros z _. apply (RInt_correct (V := R_CompleteNormedModule)).
      apply (ex_RInt_continuous (V := R_CompleteNormedModule)). auto.
    - apply Cf. }
  destruct (MVT_cor2 G (fun t => arc_deriv t - f t) x y L) as [c [Hc Hcc]]; [auto|].
  unfold G in Hc. rewrite RInt_point in Hc. change (zero : R) with 0 in Hc.
  replace (arc_series y - arc_series x - RInt f x y) with (arc_series y - RInt f x y - (arc_series x - 0)) by ring.
  rewrite Hc, Rabs_mult, (Rabs_right (y - x)) by lra. apply Rmult_le_compat_r; [lra|].
  apply deriv_radius. lra.
Qed.
Lemma c71_lon_arc lo la : -360 <= lo <= 360 -> -90 <= la <= 90 ->
  exists v, arc_lon_wgs84 (Fin lo) (Fin la) = Fin v /\
    Rabs (v - radians lo * cos (radians la) * ellipsoid_radius la) <= 2 / 10 ^ 10.
Proof.
  intros Hlo Hla. exists (lon_arc lo la). rewrite arc_lon_fin. split; [reflexivity|].
  unfold lon_arc. pose proof (radius_close la Hla) as HR.
  pose proof (rad_pos la Hla) as HP.
  pose proof d2r_PI as [D1 D2]. pose proof rd2r_range as Hr.
  set (P := rad_series la) in *. set (Q := ellipsoid_radius la) in *.
  set (c1 := cos (la * rd2r)). set (c := cos (radians la)). set (p := PI / 180) in *.
  assert (Hc : Rabs (c1 - c) <= 1 / 10 ^ 24).
  { unfold c1, c. eapply Rle_trans; [apply cos_lip|]. unfold radians. fold p.
    replace (la * rd2r - la * p) with (- (la * (p - rd2r))) by ring. rewrite Rabs_Ropp, Rabs_mult.
    rewrite (Rabs_right (p - rd2r)) by lra.
    assert (Rabs la <= 90) by (apply Rabs_le; lra).
    apply Rle_trans with (90 * (1 / 10 ^ 26)); [|lra]. apply Rmult_le_compat; try lra. apply Rabs_pos. }
  assert (C1 : Rabs c1 <= 1) by (apply Rabs_le; pose proof (COS_bound (la * rd2r)); unfold c1; lra).
  assert (C2 : Rabs c <= 1) by (apply Rabs_le; pose proof (COS_bound (radians la)); unfold c; lra).
  unfold radians. fold p.
  replace (P * c1 * lo * rd2r - lo * p * c * Q) with (lo * (- (P * c1 * (p - rd2r)) + p * (P * (c1 - c) + c * (P - Q)))) by ring.
  rewrite Rabs_mult. assert (L : Rabs lo <= 360) by (apply Rabs_le; lra).
  assert (E1 : Rabs (P * c1 * (p - rd2r)) <= 1 / 10 ^ 19).
  { rewrite Rabs_mult, (Rabs_right (p - rd2r)) by lra.
    assert (Rabs (P * c1) <= 6490249 * 1) by (rewrite Rabs_mult, (Rabs_right P) by lra; apply Rmult_le_compat; try lra; apply Rabs_pos).
    apply Rle_trans with (6490249 * (1 / 10 ^ 26)); [|lra]. apply Rmult_le_compat; try lra. apply Rabs_pos. }
  assert (E2 : Rabs (P * (c1 - c)) <= 1 / 10 ^ 17).
  { rewrite Rabs_mult, (Rabs_right P) by lra. apply Rle_trans with (6490249 * (1 / 10 ^ 24)); [|lra].
    apply Rmult_le_compat; try lra. apply Rabs_pos. }
  assert (E3 : Rabs (c * (P - Q)) <= 2 / 10 ^ 11).
  { rewrite Rabs_mult. apply Rle_trans with (1 * (2 / 10 ^ 11)); [|lra]. apply Rmult_le_compat; try lra; apply Rabs_pos. }
  assert (E4 : Rabs (p * (P * (c1 - c) + c * (P - Q))) <= 0.0181 * (2.1 / 10 ^ 11)).
  { rewrite Rabs_mult, (Rabs_right p) by lra. apply Rmult_le_compat; try lra; [apply Rabs_pos|].
    eapply Rle_trans; [apply Rabs_triang|]. lra. }
  apply Rle_trans with (360 * (5 / 10 ^ 13)); [|lra]. apply Rmult_le_compat; try lra; try apply Rabs_pos.
  eapply Rle_trans; [apply Rabs_triang|]. rewrite Rabs_Ropp. lra.
Qed.
