(** The WGS84 series of gradient.py as real functions. *)
From Coq Require Import Reals List Lra Lia ZArith.
From Verif Require Import PyBase Num NumFacts Arr Hybrid Gradient PolyZ SpecGrad.
Import ListNotations.
Local Open Scope R_scope.

Lemma Rabs_le_between a b : Rabs a <= b -> - b <= a <= b.
Proof. unfold Rabs. destruct (Rcase_abs a); lra. Qed.
Lemma npow_fin x p : npow (Fin x) p = Fin (x ^ p).
Proof. induction p as [|p IH]; [reflexivity|]. cbn [npow pow]. now rewrite IH. Qed.
Lemma term_fin x t : term (Fin x) t = Fin (rterm x t).
Proof. destruct t as [[m k] p]. unfold term, rterm. rewrite npow_fin. reflexivity. Qed.
Lemma fold_terms ts x a : fold_left (fun acc t => nadd acc (term (Fin x) t)) ts (Fin a) = Fin (a + tsum ts x).
Proof.
  revert a. induction ts as [|t ts IH]; intros a.
  - unfold tsum. simpl. f_equal. lra.
  - cbn [fold_left]. rewrite term_fin. change (nadd (Fin a) (Fin (rterm x t))) with (Fin (a + rterm x t)).
    rewrite IH. f_equal. unfold tsum. cbn [fold_right]. lra.
Qed.
Lemma poly_fin ts x : poly ts (Fin x) = Fin (tsum ts x).
Proof.
  destruct ts as [|t ts]; [reflexivity|]. unfold poly. rewrite term_fin, fold_terms. reflexivity.
Qed.

Definition rad_series (x : R) : R := tsum rad_terms x.
Definition arc_series (x : R) : R := tsum arc_terms x.
Definition arc_deriv (x : R) : R := tsum (map dterm arc_terms) x.
Lemma rad_fin x : rad_lat_wgs84 (Fin x) = Fin (rad_series x).
Proof. apply poly_fin. Qed.
Lemma arc_fin x : arc_lat_wgs84 (Fin x) = Fin (arc_series x).
Proof. apply poly_fin. Qed.
Lemma arc_deriv_ok x : derivable_pt_lim arc_series x (arc_deriv x).
Proof. apply tsum_deriv. Qed.
Lemma rad_even x : rad_series (- x) = rad_series x.
Proof. apply tsum_even. reflexivity. Qed.
Lemma arc_odd x : arc_series (- x) = - arc_series x.
Proof. apply tsum_odd. reflexivity. Qed.

Definition rd2r : R := 174532925199432957692369 / 10000000000000000000000000.
Lemma d2r_fin : d2r = Fin rd2r.
Proof. unfold d2r, rd2r. reflexivity. Qed.
Lemma rd2r_range : 0.017 < rd2r < 0.018.
Proof. unfold rd2r. lra. Qed.

(** scale of the fixed-point computations *)
Definition sc : Z := 100000000000000000000000000000000.
Lemma sc_pos : (0 < sc)%Z. Proof. reflexivity. Qed.

(** the conversion factor is pi/180 to 26 digits, and below it *)
Lemma d2r_PI : 0 < PI / 180 - rd2r <= 1 / 10 ^ 26.
Proof.
  pose proof (PI_2_3_7_ineq 14) as [H1 H2].
  pose proof (piz_ok sc (S (2 * 14)) sc_pos) as E1. pose proof (piz_ok sc (2 * 14) sc_pos) as E2.
  assert (V1 : piz sc (S (2 * 14)) = 78539816339744830961566084581934%Z) by (vm_compute; reflexivity).
  assert (V2 : piz sc (2 * 14) = 78539816339744830961566084582175%Z) by (vm_compute; reflexivity).
  rewrite V1 in E1. rewrite V2 in E2. rewrite INR_IZR_INZ in E1, E2.
  change (Z.of_nat (S (S (2 * 14)))) with 30%Z in E1. change (Z.of_nat (S (2 * 14))) with 29%Z in E2.
  unfold sc in E1, E2. apply Rabs_le_between in E1, E2. unfold rd2r. lra.
Qed.

(** ** Rounded coefficients in (x/90)^2 *)
Definition radfr : list (Z * Z) := fr_of 1 (rev rad_terms).
Definition radz : list Z := Eval vm_compute in fround sc radfr.
Lemma radz_eq : fround sc radfr = radz. Proof. vm_compute. reflexivity. Qed.
Lemma rad_close x : -90 <= x <= 90 -> Rabs (rad_series x - zeval radz ((x / 90) ^ 2) / IZR sc) <= 25 / IZR sc.
Proof.
  intros Hx. pose proof (fround_ok sc radfr _ sc_pos (fr_dens 1 _) (unit90 x Hx)) as H. rewrite radz_eq in H.
  pose proof (fr_ok 0 (rev rad_terms) 1 x eq_refl eq_refl) as E. rewrite tsum_rev in E. cbn [pow] in E. rewrite Rmult_1_l in E.
  change ((x / 90) * ((x / 90) * 1)) with ((x / 90) ^ 2) in E. fold (rad_series x) radfr in E. rewrite <- E in H.
  replace (INR (length radfr)) with 25 in H; [exact H|]. rewrite INR_IZR_INZ. reflexivity.
Qed.
Lemma rad_range x : -90 <= x <= 90 -> Rabs (rad_series x - 6378137) <= 112112.
Proof.
  intros Hx. pose proof (rad_close x Hx) as H.
  assert (B : Rabs (zeval (zadd radz [(-6378137 * sc)%Z]) ((x / 90) ^ 2)) <= IZR (112111 * sc + 20 * (sc / 100))).
  { eapply Rle_trans; [apply zbound_ok, unit90, Hx|]. apply IZR_le. apply Z.leb_le. vm_compute. reflexivity. }
  rewrite zadd_ok, plus_IZR, !mult_IZR in B. cbn [zeval] in B. rewrite mult_IZR in B.
  change (IZR (sc / 100)) with (IZR 1000000000000000000000000000000) in B. unfold sc in H, B.
  apply Rabs_le_between in H, B. apply Rabs_le. lra.
Qed.
Lemma rad_pos x : -90 <= x <= 90 -> 6266025 <= rad_series x <= 6490249.
Proof. intros Hx. pose proof (rad_range x Hx) as H. apply Rabs_le_between in H. lra. Qed.

(** ** Derivative of the arc series *)
Definition darcfr : list (Z * Z) := fr_of 1 (rev (map dterm arc_terms)).
Definition rad_d2r_terms : list (Z * nat * nat) :=
  map (fun t : Z * nat * nat => let '(m, k, p) := t in ((m * 174532925199432957692369)%Z, (k + 25)%nat, p)) rad_terms.
Lemma rad_d2r_ok x : tsum rad_d2r_terms x = rd2r * rad_series x.
Proof.
  unfold rad_d2r_terms, rad_series. induction rad_terms as [|[[m k] p] ts IH]; [unfold tsum; simpl; lra|].
  unfold tsum in *. cbn [map fold_right]. rewrite IH. unfold rterm, rd2r.
  rewrite mult_IZR, Nat2Z.inj_add, Z.pow_add_r, mult_IZR by lia.
  change (IZR (10 ^ Z.of_nat 25)) with 10000000000000000000000000.
  assert (IZR (10 ^ Z.of_nat k) <> 0) by (apply not_0_IZR; pose proof (Z.pow_pos_nonneg 10 (Z.of_nat k)); lia).
  field. auto.
Qed.
Definition darcz : list Z := Eval vm_compute in fround sc darcfr.
Definition rdz : list Z := Eval vm_compute in fround sc (fr_of 1 (rev rad_d2r_terms)).
Lemma darcz_eq : fround sc darcfr = darcz. Proof. vm_compute. reflexivity. Qed.
Lemma rdz_eq : fround sc (fr_of 1 (rev rad_d2r_terms)) = rdz. Proof. vm_compute. reflexivity. Qed.
Lemma arc_deriv_close x : -90 <= x <= 90 -> Rabs (arc_deriv x - rd2r * rad_series x) <= 1 / 10 ^ 18.
Proof.
  intros Hx. set (u := (x / 90) ^ 2).
  pose proof (fround_ok sc darcfr _ sc_pos (fr_dens 1 _) (unit90 x Hx)) as H1. rewrite darcz_eq in H1.
  pose proof (fround_ok sc (fr_of 1 (rev rad_d2r_terms)) _ sc_pos (fr_dens 1 _) (unit90 x Hx)) as H2. rewrite rdz_eq in H2.
  pose proof (fr_ok 0 (rev (map dterm arc_terms)) 1 x eq_refl eq_refl) as E1.
  pose proof (fr_ok 0 (rev rad_d2r_terms) 1 x eq_refl eq_refl) as E2.
  rewrite tsum_rev in E1, E2. cbn [pow] in E1, E2. rewrite Rmult_1_l in E1, E2.
  change ((x / 90) * ((x / 90) * 1)) with u in E1, E2. fold u in H1, H2.
  fold (arc_deriv x) darcfr in E1. rewrite rad_d2r_ok in E2.
  rewrite <- E1 in H1. rewrite <- E2 in H2.
  replace (INR (length darcfr)) with 25 in H1 by (rewrite INR_IZR_INZ; reflexivity).
  replace (INR (length (fr_of 1 (rev rad_d2r_terms)))) with 25 in H2 by (rewrite INR_IZR_INZ; reflexivity).
  assert (B : Rabs (zeval (zadd darcz (zscale (-1) rdz)) u) <= IZR 40000000000000).
  { eapply Rle_trans; [apply zbound_ok, unit90, Hx|]. apply IZR_le. apply Z.leb_le. vm_compute. reflexivity. }
  rewrite zadd_ok, zscale_ok in B. unfold sc in H1, H2. apply Rabs_le_between in H1, H2, B. apply Rabs_le. lra.
Qed.
