(** Length of day by season, hemisphere and beyond the polar circles. *)
From Coq Require Import Reals List Bool Arith Lra Lia String.
From Verif Require Import PyBase Num NumFacts Arr ArrFacts ExtrapFacts Meteo SpecMeteo MeteoCells MeteoApi2.
Import ListNotations.
Local Open Scope R_scope.

Lemma cos_order w w' : 0 <= w <= PI -> 0 <= w' <= PI -> (w < w' <-> cos w' < cos w).
Proof.
  intros A B. split; intros H.
  - apply cos_decreasing_1; lra.
  - apply cos_decreasing_0; lra.
Qed.
Lemma tan_order x y : Rabs x < PI / 2 -> Rabs y < PI / 2 -> (x < y <-> tan x < tan y).
Proof.
  intros A B. apply Rabs_def2 in A. apply Rabs_def2 in B. assert (I : forall u v, - (PI / 2) < u -> v < PI / 2 -> u < v -> tan u < tan v) by (intros; apply tan_increasing; lra).
  split; [apply I; lra|]. intros H. destruct (Rlt_dec x y) as [L|L]; [exact L|exfalso]. destruct (Req_dec x y) as [->|N]; [lra|]. pose proof (I y x ltac:(lra) ltac:(lra) ltac:(lra)). lra.
Qed.
Lemma decl_small n : Rabs (declination n) < PI / 2.
Proof. pose proof (decl_bound n). pose proof PI_307. lra. Qed.
Lemma lat_small y : -66 <= y <= 66 -> Rabs (y * (PI / 180)) < PI / 2.
Proof. intros H. pose proof (lat_bound y H). lra. Qed.
Lemma tan_sign x : Rabs x < PI / 2 -> (0 < x <-> 0 < tan x).
Proof. intros H. rewrite (tan_order 0 x), tan_0; [reflexivity| |exact H]. rewrite Rabs_R0. pose proof PI_RGT_0. lra. Qed.
Lemma decl_year n : declination (n + 365) = declination n.
Proof. unfold declination. replace (2 * PI / 365 * (n + 365) - 1.39) with ((2 * PI / 365 * n - 1.39) + 2 * PI) by field. rewrite sin_plus, sin_2PI, cos_2PI. ring. Qed.
Lemma decl_half n : declination (n + 365 / 2) = - declination n.
Proof. unfold declination. replace (2 * PI / 365 * (n + 365 / 2) - 1.39) with ((2 * PI / 365 * n - 1.39) + PI) by field. rewrite neg_sin. ring. Qed.

Section Day.
  (** hour angles *)
  Variables (n y v : R).
  Definition day_of : Prop := 0 < v < 24 /\ cos (PI / 24 * v) = - (tan (y * (PI / 180)) * tan (declination n)).
End Day.
Lemma day_cmp n y v n' y' v' : day_of n y v -> day_of n' y' v' -> (v < v' <-> tan (y * (PI / 180)) * tan (declination n) < tan (y' * (PI / 180)) * tan (declination n')).
Proof.
  intros [B C] [B' C']. pose proof PI_RGT_0 as P.
  assert (E : v < v' <-> PI / 24 * v < PI / 24 * v') by (split; intros H; [apply Rmult_lt_compat_l; lra|apply Rmult_lt_reg_l with (PI / 24); lra]).
  rewrite E, cos_order by nra. rewrite C, C'. lra.
Qed.

Lemma day_entry jday lat wn out i j n y : daylight_ranks jday lat -> max_daylight jday lat = Ok (wn, out) -> entry jday i = Fin n -> entry lat j = Fin y -> -66 <= y <= 66 ->
  exists v, get (as_arr out) [i; j] = Fin v /\ day_of n y v.
Proof.
  intros R E En Ey Hy. destruct (c33_lemma jday lat R) as (wn' & out' & E' & _ & H). rewrite E in E'. injection E' as <- <-.
  destruct (H i j n y En Ey Hy) as (v & G & B & C & _). exists v. split; [exact G|]. split; assumption.
Qed.
Lemma tan_nz d x x' : 0 < d -> (d * x < d * x' <-> x < x'). Proof. intros H. split; intros L; [apply Rmult_lt_reg_l with d|apply Rmult_lt_compat_l]; assumption. Qed.
Lemma prod_pos x y : (0 < x * y <-> 0 < x /\ 0 < y \/ x < 0 /\ y < 0).
Proof.
  split; [|intros [[A B]|[A B]]; nra]. intros H. destruct (Rlt_dec 0 x), (Rlt_dec 0 y); [left; lra| | |].
  - exfalso. nra.
  - exfalso. nra.
  - right. split; [destruct (Req_dec x 0)|destruct (Req_dec y 0)]; try (subst; lra); nra.
Qed.
Lemma tan_neg_sign x : Rabs x < PI / 2 -> (x < 0 <-> tan x < 0).
Proof. intros H. pose proof (tan_sign (- x)) as S. rewrite Rabs_Ropp, tan_neg in S. specialize (S H). lra. Qed.
Lemma c124_sun jday lat wn out : daylight_ranks jday lat -> max_daylight jday lat = Ok (wn, out) ->
  forall i j n y v, entry jday i = Fin n -> entry lat j = Fin y -> -66 <= y <= 66 -> get (as_arr out) [i; j] = Fin v ->
    (12 < v <-> 0 < y * declination n) /\ (v < 12 <-> y * declination n < 0) /\
    (forall j' y' v', entry lat j' = Fin y' -> y < y' <= 66 -> get (as_arr out) [i; j'] = Fin v' ->
       (v < v' <-> 0 < declination n) /\ (v' < v <-> declination n < 0)) /\
    (forall i' n' v', entry jday i' = Fin n' -> get (as_arr out) [i'; j] = Fin v' ->
       (0 < y -> (v < v' <-> declination n < declination n')) /\ (y < 0 -> (v < v' <-> declination n' < declination n)) /\
       (n' = n + 365 -> v' = v) /\ (n' = n + 365 / 2 -> v' = 24 - v)).
Proof.
  intros R E i j n y v En Ey Hy Gv. destruct (day_entry jday lat wn out i j n y R E En Ey Hy) as (u & Gu & D). rewrite Gv in Gu. injection Gu as <-.
  pose proof PI_RGT_0 as P. pose proof (lat_small y Hy) as Ly. pose proof (decl_small n) as Ln.
  assert (Z0 : Rabs (0 * (PI / 180)) < PI / 2) by (rewrite Rmult_0_l, Rabs_R0; lra).
  assert (D12 : day_of n 0 12) by (split; [lra|]; replace (PI / 24 * 12) with (PI / 2) by field; rewrite Rmult_0_l, tan_0, cos_PI2; ring).
  assert (Sy : (0 < y <-> 0 < y * (PI / 180)) /\ (y < 0 <-> y * (PI / 180) < 0)) by (split; split; intros; nra).
  split; [|split; [|split]].
  - rewrite (day_cmp n 0 12 n y v D12 D), Rmult_0_l, tan_0, Rmult_0_l, !prod_pos, <- !tan_sign, <- !tan_neg_sign by assumption. tauto.
  - rewrite (day_cmp n y v n 0 12 D D12), Rmult_0_l, tan_0, Rmult_0_l.
    assert (Q : forall a b, a * b < 0 <-> 0 < - a * b) by (intros; lra). rewrite (Q y), (Q (tan _)), <- tan_neg, !prod_pos.
    rewrite <- (tan_sign (- _)), <- (tan_neg_sign (- _)), <- tan_sign, <- tan_neg_sign by (try rewrite Rabs_Ropp; assumption). intuition lra.
  - intros j' y' v' Ey' Hy' Gv'. destruct (day_entry jday lat wn out i j' n y' R E En Ey' ltac:(lra)) as (u & Gu & D'). rewrite Gv' in Gu. injection Gu as <-.
    assert (T : tan (y * (PI / 180)) < tan (y' * (PI / 180))) by (apply (proj1 (tan_order _ _ Ly (lat_small y' ltac:(lra)))); nra).
    rewrite (day_cmp n y v n y' v' D D'), (day_cmp n y' v' n y v D' D). rewrite (tan_sign (declination n)), (tan_neg_sign (declination n)) by exact Ln. split; split; intros H; nra.
  - intros i' n' v' En' Gv'. destruct (day_entry jday lat wn out i' j n' y R E En' Ey Hy) as (u & Gu & D'). rewrite Gv' in Gu. injection Gu as <-. pose proof (decl_small n') as Ln'. split; [|split; [|split]].
    + intros Py. assert (Tp : 0 < tan (y * (PI / 180))) by (apply (proj1 (tan_sign _ Ly)); nra). rewrite (day_cmp n y v n' y v' D D'), (tan_nz _ _ _ Tp), <- tan_order by assumption. reflexivity.
    + intros Py. assert (Tp : tan (y * (PI / 180)) < 0) by (apply (proj1 (tan_neg_sign _ Ly)); nra). rewrite (day_cmp n y v n' y v' D D'), (tan_order (declination n')) by assumption. split; intros H; nra.
    + intros ->. destruct D as [B C], D' as [B' C']. rewrite decl_year, <- C in C'.
      assert (Q : PI / 24 * v' = PI / 24 * v) by (apply hour_angle_unique; [nra|nra|exact C']). apply Rmult_eq_reg_l with (PI / 24); lra.
    + intros ->. destruct D as [B C], D' as [B' C']. rewrite decl_half, tan_neg in C'. replace (- (tan (y * (PI / 180)) * - tan (declination n))) with (- cos (PI / 24 * v)) in C' by (rewrite C; ring).
      assert (Q : PI / 24 * v' = PI - PI / 24 * v) by (apply hour_angle_unique; [nra|nra|rewrite Rtrigo_facts.cos_pi_minus; exact C']).
      apply Rmult_eq_reg_l with (PI / 24); lra.
Qed.

(** ** any latitude between the poles *)
Lemma cell_any n y : -90 < y < 90 ->
  daylight_cell (Fin n) (Fin y) = if Rle_dec (Rabs (tan (y * (PI / 180)) * tan (declination n))) 1 then Fin (24 / PI * acos (- (tan (y * (PI / 180)) * tan (declination n)))) else NaN.
Proof.
  intros Hy. pose proof PI_RGT_0 as P. unfold daylight_cell. cbv zeta. flsimpl. declit. rewrite !fdiv_fin by lra. cbn [fl_mul fl_sub fl_fin1 fl_neg].
  replace (409 / 1000 * sin (2 * PI / 365 * n - 139 / 100)) with (declination n) by (unfold declination; replace (139 / 100) with 1.39 by lra; lra).
  rewrite !ftan_fin; [|apply cos_nonzero, decl_small|apply cos_nonzero; apply Rabs_def1; nra].
  cbn [fl_neg fl_mul]. set (x := tan (y * (PI / 180)) * tan (declination n)). replace (- tan (y * (PI / 180)) * tan (declination n)) with (- x) by (unfold x; ring).
  destruct (Rle_dec (Rabs x) 1) as [L|L].
  - rewrite facos_fin; [reflexivity|]. unfold Rabs in L. destruct (Rcase_abs x); lra.
  - cbn. unfold Rabs in L. destruct (Rle_dec (-1) (- x)); [destruct (Rle_dec (- x) 1)|]; try reflexivity. exfalso. destruct (Rcase_abs x); lra.
Qed.
Lemma c124_polar jday lat wn out : daylight_ranks jday lat -> max_daylight jday lat = Ok (wn, out) ->
  forall i j n y, entry jday i = Fin n -> entry lat j = Fin y -> -90 < y < 90 ->
    (get (as_arr out) [i; j] = NaN <-> 1 < Rabs (tan (y * (PI / 180)) * tan (declination n))) /\
    (forall v, get (as_arr out) [i; j] = Fin v -> 0 <= v <= 24) /\
    (get (as_arr out) [i; j] = NaN \/ exists v, get (as_arr out) [i; j] = Fin v).
Proof.
  intros R E i j n y En Ey Hy. destruct (max_daylight_ok jday lat R) as (wn' & out' & E' & _ & _ & _ & _ & G). rewrite E in E'. injection E' as <- <-. rewrite G, En, Ey, cell_any by exact Hy. pose proof PI_RGT_0 as P.
  destruct (Rle_dec _ 1) as [L|L].
  - split; [split; [discriminate|lra]|]. split; [|right; eauto]. intros v Hv. injection Hv as <-. match goal with |- context [acos ?x] => pose proof (acos_bound x) as B; set (w := acos x) in * end.
    assert (0 < / PI) by (apply Rinv_0_lt_compat; lra). assert (PI * / PI = 1) by (apply Rinv_r; lra). unfold Rdiv. split; nra.
  - split; [split; [lra|reflexivity]|]. split; [discriminate|left; reflexivity].
Qed.
