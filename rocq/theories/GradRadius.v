(** The radius series against the documented formula. *)
From Coq Require Import Reals List Lra Lia ZArith.
From Verif Require Import PyBase Num NumFacts Arr Hybrid Gradient PolyZ SpecGrad GradSeries.
Import ListNotations.
Local Open Scope R_scope.

(** (90 d2r)^2 = dn / dd *)
Definition dn : Z := Eval vm_compute in ((9 * 174532925199432957692369) ^ 2)%Z.
Definition dd : Z := Eval vm_compute in (10 ^ 48)%Z.
Definition cosz : list Z := Eval vm_compute in fround sc (cosfr dn dd 0 1 1 12).
Lemma cosz_eq : fround sc (cosfr dn dd 0 1 1 12) = cosz. Proof. vm_compute. reflexivity. Qed.
Lemma dn_ok : (90 * rd2r) ^ 2 = IZR dn / IZR dd.
Proof. unfold rd2r, dn, dd. lra. Qed.
Lemma cosz_ok x : -90 <= x <= 90 ->
  Rabs (cos_approx (rd2r * x) 11 - zeval cosz ((x / 90) ^ 2) / IZR sc) <= 12 / IZR sc.
Proof.
  intros Hx. rewrite <- (cosfr_ok dn dd rd2r x 11 ltac:(reflexivity) dn_ok), <- cosz_eq.
  eapply Rle_trans; [apply fround_ok; [reflexivity|apply cosfr_dens; reflexivity || lia|now apply unit90]|].
  replace (INR (length (cosfr dn dd 0 1 1 12))) with 12; [lra|]. rewrite INR_IZR_INZ. reflexivity.
Qed.
Definition bd : Z := 298257223563. Definition bn : Z := Eval vm_compute in (6378137 * (298257223563 - 1000000000))%Z.
Lemma bn_ok : IZR bn / IZR bd = polar.
Proof. unfold polar, equatorial, flattening, bn, bd. lra. Qed.
(** square of the series minus polar^2 + (equatorial^2 - polar^2) cos^2, all times bd^2 * sc^2 *)
Definition resid : list Z :=
  zadd (zscale (bd * bd) (zmul radz radz))
    (zadd [(- (bn * bn * (sc * sc)))%Z]
       (zscale (- (6378137 * 6378137 * (bd * bd) - bn * bn)) (zmul cosz cosz))).
Definition resid_max : Z := (101 * (bd * bd) * (sc * sc) / 1000000)%Z.
Lemma resid_small : Z.leb (zbound resid) resid_max = true.
Proof. vm_compute. reflexivity. Qed.
Lemma resid_ok u : 0 <= u <= 1 ->
  Rabs ((zeval radz u / IZR sc) ^ 2
        - (polar ^ 2 + (equatorial ^ 2 - polar ^ 2) * (zeval cosz u / IZR sc) ^ 2)) <= 101 / 10 ^ 6.
Proof.
  intros Hx. assert (Hz : Rabs (zeval resid u) <= IZR resid_max).
  { eapply Rle_trans; [now apply zbound_ok|]. apply IZR_le, Z.leb_le. exact resid_small. }
  assert (Hm : IZR resid_max <= 101 / 10 ^ 6 * (IZR bd ^ 2 * IZR sc ^ 2)).
  { replace (101 / 10 ^ 6 * (IZR bd ^ 2 * IZR sc ^ 2)) with (IZR (101 * (bd * bd) * (sc * sc)) / 1000000).
    - unfold resid_max. set (v := (101 * (bd * bd) * (sc * sc))%Z).
      assert (H : (1000000 * (v / 1000000) <= v)%Z) by (apply Z.mul_div_le; lia).
      apply IZR_le in H. rewrite mult_IZR in H. lra.
    - rewrite !mult_IZR. unfold Rdiv. simpl pow. lra. }
  assert (Hs : 0 < IZR sc) by (apply IZR_lt; reflexivity).
  assert (Hb : 0 < IZR bd) by (apply IZR_lt; reflexivity).
  rewrite <- bn_ok.
  replace ((zeval radz u / IZR sc) ^ 2
     - ((IZR bn / IZR bd) ^ 2 + (equatorial ^ 2 - (IZR bn / IZR bd) ^ 2) * (zeval cosz u / IZR sc) ^ 2))
    with (zeval resid u / (IZR bd ^ 2 * IZR sc ^ 2)).
  - assert (Hd : 0 < IZR bd ^ 2 * IZR sc ^ 2) by (apply Rmult_lt_0_compat; apply pow_lt; assumption).
    unfold Rdiv at 1. rewrite Rabs_mult, (Rabs_right (/ _)) by (apply Rle_ge, Rlt_le, Rinv_0_lt_compat; exact Hd).
    apply (Rmult_le_reg_r (IZR bd ^ 2 * IZR sc ^ 2)); [exact Hd|].
    rewrite Rmult_assoc, Rinv_l, Rmult_1_r by lra. lra.
  - unfold resid. rewrite !zadd_ok, !zscale_ok, !zmul_ok. cbn [zeval].
    rewrite !opp_IZR, minus_IZR, !mult_IZR. unfold equatorial.
    generalize (zeval radz u) (zeval cosz u). intros y v. clear Hm Hz.
    set (S := IZR sc) in *. set (B := IZR bd) in *. set (n := IZR bn) in *. clearbody S B n. field. lra.
Qed.
Lemma cos_close x : -90 <= x <= 90 ->
  0 <= cos (rd2r * x) - cos_approx (rd2r * x) 11 <= 1 / 10 ^ 18.
Proof.
  intros Hx. pose proof d2r_PI as [Hp _]. pose proof rd2r_range as H0.
  assert (Hr : - PI / 2 <= rd2r * x <= PI / 2) by (pose proof PI_RGT_0; split; nra).
  destruct (cos_bound (rd2r * x) 5 (proj1 Hr) (proj2 Hr)) as [H1 H2].
  change (2 * 5 + 1)%nat with 11%nat in H1. change (2 * (5 + 1))%nat with 12%nat in H2.
  split; [lra|].
  assert (E : cos_approx (rd2r * x) 12 = cos_approx (rd2r * x) 11 + cos_term (rd2r * x) 12) by reflexivity.
  rewrite E in H2. clear E.
  assert (B : cos_term (rd2r * x) 12 <= 1 / 10 ^ 18).
  { unfold cos_term. replace ((-1) ^ 12) with 1 by ring. rewrite Rmult_1_l. rewrite (pow_mult _ 2 12).
    assert (Q : 0 <= (rd2r * x) ^ 2 <= 2.6).
    { split; [apply pow2_ge_0|]. replace ((rd2r * x) ^ 2) with (rd2r * rd2r * (x * x)) by ring.
      assert (rd2r * rd2r <= 0.000305) by (unfold rd2r; lra). assert (0 <= x * x <= 8100) by nra. nra. }
    assert (Hpw : ((rd2r * x) ^ 2) ^ (2 * 12 / 2) <= 2.6 ^ 12) by (apply pow_incr; exact Q).
    change (2 * 12 / 2)%nat with 12%nat in Hpw.
    assert (Hf : INR (fact (2 * 12)) = 620448401733239439360000).
    { change (2 * 12)%nat with 24%nat. repeat (rewrite fact_simpl, mult_INR). rewrite !INR_IZR_INZ. cbn [fact]. simpl Z.of_nat. lra. }
    rewrite Hf. lra. }
  lra.
Qed.
Lemma cos_lip u v : Rabs (cos u - cos v) <= Rabs (u - v).
Proof.
  destruct (Req_dec u v) as [->|N].
  { rewrite !Rminus_eq_0. lra. }
  assert (G : forall a b, a < b -> Rabs (cos b - cos a) <= Rabs (b - a)).
  { intros a b Hab. destruct (MVT_cor2 cos (fun x => - sin x) a b Hab) as [c [Hc _]].
    { intros. apply derivable_pt_lim_cos. }
    rewrite Hc, Rabs_mult, Rabs_Ropp.
    assert (Rabs (sin c) <= 1) by (apply Rabs_le; pose proof (SIN_bound c); lra).
    pose proof (Rabs_pos (b - a)). nra. }
  destruct (Rtotal_order u v) as [H|[H|H]]; [|contradiction|].
  - rewrite Rabs_minus_sym, (Rabs_minus_sym u v). now apply G.
  - now apply G.
Qed.

Lemma radius_close x : -90 <= x <= 90 -> Rabs (rad_series x - ellipsoid_radius x) <= 2 / 10 ^ 11.
Proof.
  intros Hx.
  pose proof (rad_pos x Hx) as HP. pose proof (resid_ok _ (unit90 x Hx)) as Hres. pose proof (rad_close x Hx) as Hrz.
  pose proof (cos_close x Hx) as HC. pose proof (cosz_ok x Hx) as HZ.
  set (u := (x / 90) ^ 2) in *. set (P := rad_series x) in *. set (P0 := zeval radz u / IZR sc) in *. set (C := cos_approx (rd2r * x) 11) in *. set (Z0 := zeval cosz u / IZR sc) in *.
  set (c1 := cos (rd2r * x)) in *. set (c := cos (radians x)).
  set (b2 := polar ^ 2) in *. set (a2 := equatorial ^ 2) in *.
  assert (Et : (equatorial * cos (radians x)) ^ 2 + (polar * sin (radians x)) ^ 2 = b2 + (a2 - b2) * c ^ 2).
  { unfold a2, b2. pose proof (sin2_cos2 (radians x)) as S. unfold Rsqr in S. fold c in S |- *.
    replace ((polar * sin (radians x)) ^ 2) with (polar ^ 2 * (sin (radians x) * sin (radians x))) by ring.
    replace (sin (radians x) * sin (radians x)) with (1 - c * c) by lra. ring. }
  assert (Hab : 0 <= a2 - b2 <= 3 * 10 ^ 11).
  { unfold a2, b2, polar, equatorial, flattening. lra. }
  assert (Hb : 0 <= b2) by (unfold b2; apply pow2_ge_0).
  assert (HcL : Rabs (c - c1) <= 1 / 10 ^ 24).
  { unfold c, c1. eapply Rle_trans; [apply cos_lip|]. unfold radians.
    replace (x * (PI / 180) - rd2r * x) with (x * (PI / 180 - rd2r)) by ring. rewrite Rabs_mult.
    pose proof d2r_PI as [D1 D2]. rewrite (Rabs_right (PI / 180 - rd2r)) by lra.
    assert (Hx90 : Rabs x <= 90) by (apply Rabs_le; lra). pose proof (Rabs_pos x) as Hx0.
    apply Rle_trans with (90 * (1 / 10 ^ 26)); [|lra]. apply Rmult_le_compat; lra. }
  assert (HZ' : Rabs (C - Z0) <= 1 / 10 ^ 28) by (unfold sc in HZ; lra).
  assert (HP0 : Rabs (P0 - P) <= 1 / 10 ^ 28) by (rewrite Rabs_minus_sym; unfold sc in Hrz; lra).
  clear HZ Hrz. clearbody P0 Z0.
  assert (Hc1 : -1 <= c1 <= 1) by apply COS_bound. assert (Hc : -1 <= c <= 1) by apply COS_bound.
  assert (Hcc : Rabs (c ^ 2 - Z0 ^ 2) <= 4 / 10 ^ 18).
  { replace (c ^ 2 - Z0 ^ 2) with ((c - Z0) * (c + Z0)) by ring. rewrite Rabs_mult.
    assert (A1 : Rabs (c - Z0) <= 1.1 / 10 ^ 18).
    { replace (c - Z0) with ((c - c1) + ((c1 - C) + (C - Z0))) by ring. eapply Rle_trans; [apply Rabs_triang|].
      assert (Rabs ((c1 - C) + (C - Z0)) <= 1.01 / 10 ^ 18).
      { eapply Rle_trans; [apply Rabs_triang|]. rewrite (Rabs_right (c1 - C)) by lra. lra. }
      lra. }
    assert (A2 : Rabs (c + Z0) <= 3).
    { replace (c + Z0) with (2 * c + - (c - Z0)) by ring. eapply Rle_trans; [apply Rabs_triang|].
      rewrite Rabs_Ropp. assert (Rabs (2 * c) <= 2) by (apply Rabs_le; lra). lra. }
    apply Rle_trans with ((1.1 / 10 ^ 18) * 3); [|lra]. apply Rmult_le_compat; auto using Rabs_pos. }
  assert (HPP : Rabs (P ^ 2 - P0 ^ 2) <= 1 / 10 ^ 20).
  { replace (P ^ 2 - P0 ^ 2) with ((P0 - P) * (- (2 * P + (P0 - P)))) by ring. rewrite Rabs_mult, Rabs_Ropp.
    apply Rabs_le_between in HP0. assert (A : Rabs (2 * P + (P0 - P)) <= 13000000) by (apply Rabs_le; lra).
    apply Rle_trans with (1 / 10 ^ 28 * 13000000); [|lra].
    apply Rmult_le_compat; auto using Rabs_pos. apply Rabs_le. lra. }
  assert (Ht : Rabs (P ^ 2 - (b2 + (a2 - b2) * c ^ 2)) <= 103 / 10 ^ 6).
  { replace (P ^ 2 - (b2 + (a2 - b2) * c ^ 2)) with ((P ^ 2 - P0 ^ 2) + ((P0 ^ 2 - (b2 + (a2 - b2) * Z0 ^ 2)) + - ((a2 - b2) * (c ^ 2 - Z0 ^ 2)))) by ring.
    eapply Rle_trans; [apply Rabs_triang|].
    assert (Rabs ((P0 ^ 2 - (b2 + (a2 - b2) * Z0 ^ 2)) + - ((a2 - b2) * (c ^ 2 - Z0 ^ 2))) <= 102.5 / 10 ^ 6); [|lra].
    eapply Rle_trans; [apply Rabs_triang|]. rewrite Rabs_Ropp, Rabs_mult, (Rabs_right (a2 - b2)) by lra.
    assert ((a2 - b2) * Rabs (c ^ 2 - Z0 ^ 2) <= (3 * 10 ^ 11) * (4 / 10 ^ 18)).
    { apply Rmult_le_compat; try lra. apply Rabs_pos. }
    lra. }
  unfold ellipsoid_radius. rewrite Et. set (t := b2 + (a2 - b2) * c ^ 2) in *.
  assert (T0 : 0 <= t).
  { unfold t. pose proof (pow2_ge_0 c). assert (0 <= (a2 - b2) * c ^ 2) by (apply Rmult_le_pos; lra). lra. }
  pose proof (sqrt_pos t) as S0.
  assert (Hf : (P - sqrt t) * (P + sqrt t) = P ^ 2 - t).
  { replace ((P - sqrt t) * (P + sqrt t)) with (P ^ 2 - sqrt t * sqrt t) by ring. now rewrite sqrt_sqrt. }
  rewrite <- Hf, Rabs_mult, (Rabs_right (P + sqrt t)) in Ht by lra.
  pose proof (Rabs_pos (P - sqrt t)) as Hq.
  assert (Rabs (P - sqrt t) * 6266025 <= 103 / 10 ^ 6).
  { eapply Rle_trans; [|exact Ht]. apply Rmult_le_compat_l; lra. }
  lra.
Qed.
