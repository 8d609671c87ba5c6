(** max_daylight in binary64 (C149). *)
From Coq Require Import Reals List Bool Arith ZArith Lra Lia String.
From Flocq Require Import Core BinarySingleNaN.
From Verif Require Import PyBase PyFacts Num NumFacts NumB64 Arr ArrFacts SpecB64 B64Facts Hybrid Meteo B64Relhum B64Heat DaylightPrec DaylightPrecFacts SpecB64Day.
Import ListNotations.
Local Open Scope R_scope.

Lemma is_own x : is_finite x = true -> is x (B2R x). Proof. split; auto. Qed.
Lemma same_is x a b : is x a -> is x b -> a = b. Proof. intros [_ <-] [_ <-]. reflexivity. Qed.
Lemma nan_not x v : is x v -> is_nan x = true -> False. Proof. intros [F _] N. destruct x; discriminate. Qed.

Notation P0 := (B2R pi64).
(** 24/pi in doubles, meteorology.py:859 *)
Definition con64 : b64 := Bdiv mode_NE (b64_ofZ 24) pi64.
Notation K0 := (B2R con64).
Lemma pi_is : is pi64 P0. Proof. apply is_own. reflexivity. Qed.
Lemma con_is : is con64 K0. Proof. apply is_own. reflexivity. Qed.
Lemma z_is z : (Z.abs z <= 2 ^ 53)%Z -> is (b64_ofZ z) (IZR z). Proof. apply ofZ_exact. Qed.
Lemma P_range : 3 < P0 < 3.15.
Proof.
  split.
  - assert (Q : Bltb (b64_ofZ 3) pi64 = true) by reflexivity. rewrite (lt_is _ _ _ _ (z_is 3 ltac:(lia)) pi_is) in Q. destruct (Rlt_bool_spec 3 P0); [auto|discriminate].
  - assert (Q : Bltb pi64 (Bdiv mode_NE (b64_ofZ 22) (b64_ofZ 7)) = true) by reflexivity. pose proof big_ge as BG.
    pose proof (div_is _ _ _ _ (z_is 22 ltac:(lia)) (z_is 7 ltac:(lia)) ltac:(lra) ltac:(rewrite Rabs_pos_eq; lra)) as D. rewrite (lt_is _ _ _ _ pi_is D) in Q.
    destruct (Rlt_bool_spec P0 (rn (22 / 7))); [|discriminate]. pose proof (rn_err (22 / 7) 4 ltac:(rewrite Rabs_pos_eq; lra)) as E. apply Rabs_le_inv in E. unfold uu, ww in E. lra.
Qed.
Lemma K_range : 0 < K0 < 10.
Proof.
  split.
  - assert (Q : Bltb (b64_ofZ 0) con64 = true) by reflexivity. rewrite (lt_is _ _ _ _ (z_is 0 ltac:(lia)) con_is) in Q. destruct (Rlt_bool_spec 0 K0); [auto|discriminate].
  - assert (Q : Bltb con64 (b64_ofZ 10) = true) by reflexivity. rewrite (lt_is _ _ _ _ con_is (z_is 10 ltac:(lia))) in Q. destruct (Rlt_bool_spec K0 10); [auto|discriminate].
Qed.
Lemma whole_day : rn (K0 * P0) = 24.
Proof.
  pose proof P_range. pose proof K_range. pose proof big_ge as BG.
  pose proof (mul_is _ _ _ _ con_is pi_is ltac:(rewrite Rabs_pos_eq; nra)) as D.
  assert (Q : Beqb (Bmult mode_NE con64 pi64) (b64_ofZ 24) = true) by reflexivity. rewrite (eq_is _ _ _ _ D (z_is 24 ltac:(lia))) in Q.
  destruct (Req_bool_spec (rn (K0 * P0)) 24); [auto|discriminate].
Qed.
Lemma half_day : is (Bmult mode_NE con64 half_pi64) 12.
Proof.
  assert (D : is (Bmult mode_NE con64 half_pi64) (B2R (Bmult mode_NE con64 half_pi64))) by (apply is_own; reflexivity).
  assert (Q : Beqb (Bmult mode_NE con64 half_pi64) (b64_ofZ 12) = true) by reflexivity. rewrite (eq_is _ _ _ _ D (z_is 12 ltac:(lia))) in Q.
  destruct (Req_bool_spec (B2R (Bmult mode_NE con64 half_pi64)) 12) as [E|]; [|discriminate]. rewrite E in D. exact D.
Qed.
Lemma hours (y : b64) v : is y v -> 0 <= v <= P0 -> is (Bmult mode_NE con64 y) (rn (K0 * v)) /\ 0 <= rn (K0 * v) <= 24.
Proof.
  intros Iy B. pose proof P_range. pose proof K_range. pose proof big_ge as BG. split.
  - apply mul_is; [exact con_is|exact Iy|]. rewrite Rabs_pos_eq; nra.
  - split; [apply rn_ge_fmt; [apply fmt_0|nra]|]. rewrite <- whole_day. apply rn_le. apply Rmult_le_compat_l; lra.
Qed.
Lemma acos_cases M x : acos_ok M -> (exists r v, is x r /\ -1 <= r <= 1 /\ is (m_acos M x) v /\ 0 <= v <= P0) \/ is_nan (m_acos M x) = true.
Proof.
  intros A. destruct (is_finite x) eqn:F.
  - destruct (Rle_dec (-1) (B2R x)) as [L|L], (Rle_dec (B2R x) 1) as [R|R].
    2-4: right; apply (acos_out M A); intros r [_ <-]; lra.
    left. destruct (acos_in M A x (B2R x) (is_own x F) (conj L R)) as (v & Iv & B). exists (B2R x), v. split; [apply is_own; auto|auto].
  - right. apply (acos_out M A). intros r [F' _]. congruence.
Qed.
Lemma nan_mul (x y : b64) : is_nan y = true -> is_nan (Bmult mode_NE x y) = true.
Proof. destruct y; try discriminate. destruct x; reflexivity. Qed.
Lemma c149_range L L' jday lat n m rj rl : acos_ok L -> holds jday n rj -> holds lat m rl -> kind_of jday = KNd \/ kind_of lat = KNd ->
  exists wn out, max_daylight_np L L' jday lat = Ok (wn, out) /\ shp (as_arr out) = [n; m] /\
    forall i j, (i < n)%nat -> (j < m)%nat -> is_nan (get (as_arr out) [i; j]) = true \/ exists v, is (get (as_arr out) [i; j]) v /\ 0 <= v <= 24.
Proof.
  intros A Hj Hl K. destruct (c104_precision L L' jday lat n m rj rl Hj Hl) as (wn & out & E & Sh & _ & G & _). exists wn, out. split; [exact E|]. split; [exact Sh|].
  intros i j Hi Hj'. destruct (G K i j Hi Hj') as (y & ->). change (Bdiv mode_NE (b64_ofZ 24) npi) with con64.
  destruct (acos_cases L y A) as [(r & v & _ & _ & Iv & B)|N]; [right|left; apply nan_mul; auto].
  destruct (hours _ _ Iv B) as [I H]. eauto.
Qed.

(** ** ndarrays: the cell *)
Section Lib.
Variable M : libm.
Local Instance NB : Num b64 := NumB M.
Hypothesis (Hsin : sin_ok M) (Htan : tan_ok M) (Hacos : acos_ok M).
(** the tangent of the declination, the part of [daylight_cell] that depends on the day, meteorology.py:857, 862, 865 *)
Definition sunward (x : b64) : b64 :=
  ntan (nmul (dec 409 3) (nsin (nsub (nmul (ndiv (nmul (ofZ 2) npi) (ofZ 365)) x) (dec 139 2)))).
Lemma cell_is (j l : b64) : daylight_cell j l = Bmult mode_NE con64 (m_acos M (Bmult mode_NE (Bopp (m_tan M (Bmult mode_NE l (Bdiv mode_NE pi64 (b64_ofZ 180))))) (sunward j))).
Proof. reflexivity. Qed.
Lemma sunward_is (x : b64) n : is x n -> Rabs n <= big32 -> exists d, is (sunward x) d /\ Rabs d <= 4 /\ Rabs d <= 0.436.
Proof.
  intros Ix H. pose proof P_range. pose proof big_ge as BG. assert (B32 : 0 < big32 /\ big32 * 1024 <= big).
  { split; [apply bpow_gt_0|]. unfold big32, big. change 1024 with (bpow radix2 10). rewrite <- bpow_plus. apply bpow_le. lia. }
  assert (I2 : is (Bmult mode_NE (b64_ofZ 2) pi64) (rn (2 * P0))) by (apply mul_is; [apply (z_is 2); lia|exact pi_is|rewrite Rabs_pos_eq; lra]).
  assert (R2 : 0 <= rn (2 * P0) <= 7) by (split; [apply rn_ge_fmt; [apply fmt_0|lra]|apply rn_le_fmt; [apply (fmt_Z 7); lia|lra]]).
  pose proof (div_is _ _ _ _ I2 (z_is 365 ltac:(lia)) ltac:(lra) ltac:(rewrite Rabs_pos_eq; lra)) as I3. set (q := rn (rn (2 * P0) / 365)) in *.
  assert (R3 : 0 <= q <= 1) by (split; [apply rn_ge_fmt; [apply fmt_0|lra]|apply rn_le_fmt; [apply (fmt_Z 1); lia|lra]]).
  pose proof (Rabs_pos n) as Pn. assert (B4 : Rabs (q * n) <= big32) by (rewrite Rabs_mult, (Rabs_pos_eq q) by lra; nra).
  pose proof (mul_is _ _ _ _ I3 Ix ltac:(lra)) as I4.
  assert (F32 : fmt big32) by (apply fmt_bpow; lia). pose proof (rn_abs_le _ _ F32 B4) as R4. set (p := rn (q * n)) in *.
  pose proof (dec_is M 139 2 ltac:(lia) ltac:(lia)) as I5. change (10 ^ Z.of_nat 2)%Z with 100%Z in I5.
  assert (R5 : 0 <= rn (139 / 100) <= 2) by (split; [apply rn_ge_fmt; [apply fmt_0|lra]|apply rn_le_fmt; [apply (fmt_Z 2); lia|lra]]).
  assert (B6 : Rabs (p - rn (139 / 100)) <= big) by (apply Rabs_le_inv in R4; apply Rabs_le; lra).
  pose proof (sub_is _ _ _ _ I4 I5 B6) as I6. destruct (Hsin _ _ I6) as (s & Is & Bs).
  pose proof (dec_is M 409 3 ltac:(lia) ltac:(lia)) as I7. change (10 ^ Z.of_nat 3)%Z with 1000%Z in I7.
  assert (R7 : 0 <= rn (409 / 1000) <= 1) by (split; [apply rn_ge_fmt; [apply fmt_0|lra]|apply rn_le_fmt; [apply (fmt_Z 1); lia|lra]]).
  assert (B8 : Rabs (rn (409 / 1000) * s) <= 1) by (apply Rabs_le; nra).
  pose proof (mul_is _ _ _ _ I7 Is ltac:(lra)) as I8. pose proof (rn_abs_le _ _ (fmt_Z 1 ltac:(lia)) B8) as R8.
  destruct (tan_in M Htan _ _ I8 ltac:(lra)) as (d & Id & Bd). exists d. split; [exact Id|]. split; [exact Bd|]. apply (proj1 (tan_small M Htan _ _ _ I8 Id)).
  pose proof (rn_err (409 / 1000) 1 ltac:(rewrite Rabs_pos_eq; lra)) as E7. apply Rabs_le_inv in E7. pose proof (rn_err _ _ B8) as E8. apply Rabs_le_inv in E8. unfold uu, ww in E7, E8. clear - E7 E8 Bs R7.
  assert (- 0.4091 <= rn (409 / 1000) * s <= 0.4091) by nra. apply Rabs_le. lra.
Qed.
(** pi/180 in doubles, meteorology.py:856 *)
Definition radr : R := rn (P0 / 180).
Lemma rad_is : is (Bdiv mode_NE pi64 (b64_ofZ 180)) radr /\ 0 <= radr <= 0.01751.
Proof.
  pose proof P_range. pose proof big_ge as BG. split; [apply div_is; [exact pi_is|apply (z_is 180); lia|lra|rewrite Rabs_pos_eq; lra]|].
  unfold radr. split; [apply rn_ge_fmt; [apply fmt_0|lra]|]. pose proof (rn_err (P0 / 180) 1 ltac:(rewrite Rabs_pos_eq; lra)) as E. apply Rabs_le_inv in E. unfold uu, ww in E. lra.
Qed.
Lemma angle_is (l : b64) y : is l y -> -66 <= y <= 66 -> is (Bmult mode_NE l (Bdiv mode_NE pi64 (b64_ofZ 180))) (rn (y * radr)) /\ Rabs (rn (y * radr)) <= 1.2.
Proof.
  intros Il H. destruct rad_is as [Ir Br]. pose proof big_ge as BG. assert (B : Rabs (y * radr) <= 1.156) by (apply Rabs_le; nra).
  split; [apply mul_is; auto; lra|]. pose proof (rn_err _ _ B) as E. apply Rabs_le_inv in E, B. unfold uu, ww in E. apply Rabs_le. lra.
Qed.
Lemma opp_is (x : b64) a : is x a -> is (Bopp x) (- a).
Proof. intros [F <-]. split; [rewrite is_finite_Bopp; auto|apply B2R_Bopp]. Qed.
(** the argument of arccos: minus the rounded product *)
Lemma arg_is (j l : b64) d y : is (sunward j) d -> Rabs d <= 4 -> is l y -> -66 <= y <= 66 -> exists u,
  is (m_tan M (Bmult mode_NE l (Bdiv mode_NE pi64 (b64_ofZ 180)))) u /\
  is (Bmult mode_NE (Bopp (m_tan M (Bmult mode_NE l (Bdiv mode_NE pi64 (b64_ofZ 180))))) (sunward j)) (rn (- u * d)).
Proof.
  intros Id Bd Il Hy. destruct (angle_is l y Il Hy) as [Ia Ba]. destruct (tan_in M Htan _ _ Ia Ba) as (u & Iu & Bu). exists u. split; [exact Iu|].
  apply mul_is; [apply opp_is; auto|auto|]. pose proof big_ge as BG. rewrite Rabs_mult, Rabs_Ropp. pose proof (Rabs_pos u). pose proof (Rabs_pos d). nra.
Qed.
Lemma cell_number (j l : b64) v : is (daylight_cell j l) v -> forall r, is (Bmult mode_NE (Bopp (m_tan M (Bmult mode_NE l (Bdiv mode_NE pi64 (b64_ofZ 180))))) (sunward j)) r ->
  exists w, is (m_acos M (Bmult mode_NE (Bopp (m_tan M (Bmult mode_NE l (Bdiv mode_NE pi64 (b64_ofZ 180))))) (sunward j))) w /\ v = rn (K0 * w).
Proof.
  intros Iv r Ir. rewrite cell_is in Iv. match type of Ir with is ?e _ => destruct (acos_cases M e Hacos) as [(r' & w & _ & _ & Iw & B)|N] end.
  - exists w. split; [exact Iw|]. destruct (hours _ _ Iw B) as [I _]. exact (same_is _ _ _ Iv I).
  - exfalso. apply (nan_not _ _ Iv). apply nan_mul. exact N.
Qed.
Lemma cell_order (j l l' : b64) d y y' v v' : is (sunward j) d -> Rabs d <= 4 -> is l y -> is l' y' -> -66 <= y <= y' -> y' <= 66 ->
  is (daylight_cell j l) v -> is (daylight_cell j l') v' -> (0 <= d -> v <= v') /\ (d <= 0 -> v' <= v).
Proof.
  intros Id Bd Il Il' H1 H2 Iv Iv'. destruct (arg_is j l d y Id Bd Il ltac:(lra)) as (u & Iu & Ix). destruct (arg_is j l' d y' Id Bd Il' ltac:(lra)) as (u' & Iu' & Ix').
  destruct (cell_number _ _ _ Iv _ Ix) as (w & Iw & ->). destruct (cell_number _ _ _ Iv' _ Ix') as (w' & Iw' & ->).
  destruct (angle_is l y Il ltac:(lra)) as [Ia Ba]. destruct (angle_is l' y' Il' ltac:(lra)) as [Ia' Ba']. destruct rad_is as [_ Br]. pose proof K_range.
  assert (Hu : u <= u') by (refine (tan_rises M Htan _ _ _ _ _ _ Ia Ia' Ba Ba' _ Iu Iu'); apply rn_le, Rmult_le_compat_r; lra).
  split; intros Hd; apply rn_le, Rmult_le_compat_l; try lra.
  - refine (acos_falls M Hacos _ _ _ _ _ _ Ix' Ix _ Iw' Iw). apply rn_le. nra.
  - refine (acos_falls M Hacos _ _ _ _ _ _ Ix Ix' _ Iw Iw'). apply rn_le. nra.
Qed.
Lemma cell_equator (j l : b64) n : is j n -> Rabs n <= big32 -> is l 0 -> is (daylight_cell j l) 12.
Proof.
  intros Ij Hn Il. destruct (sunward_is j n Ij Hn) as (d & Id & Bd & _). rewrite cell_is.
  destruct (angle_is l 0 Il ltac:(lra)) as [Ia _]. rewrite Rmult_0_l, rn_0 in Ia. pose proof (opp_is _ _ (tan_zero M Htan _ Ia)) as Io. rewrite Ropp_0 in Io.
  pose proof big_ge as BG. pose proof (mul_is _ _ _ _ Io Id ltac:(rewrite Rmult_0_l, Rabs_R0; lra)) as I. rewrite Rmult_0_l, rn_0 in I.
  rewrite (acos_zero M Hacos _ I). exact half_day.
Qed.
Lemma cell_inside (j l : b64) n y : is j n -> Rabs n <= big32 -> is l y -> -66 <= y <= 66 -> exists v, is (daylight_cell j l) v /\ 0 <= v <= 24.
Proof.
  intros Ij Hn Il Hy. destruct (sunward_is j n Ij Hn) as (d & Id & Bd & Bd'). destruct (arg_is j l d y Id Bd Il Hy) as (u & Iu & Ix). rewrite cell_is.
  destruct (angle_is l y Il Hy) as [Ia _]. destruct rad_is as [_ Br].
  assert (Ba : Rabs (rn (y * radr)) <= 1.156).
  { assert (B : Rabs (y * radr) <= 1.1557) by (apply Rabs_le; nra). pose proof (rn_err _ _ B) as E. apply Rabs_le_inv in E, B. unfold uu, ww in E. apply Rabs_le. lra. }
  pose proof (proj2 (tan_small M Htan _ _ _ Ia Iu) Ba) as Bu.
  assert (B : Rabs (- u * d) <= 1). { rewrite Rabs_mult, Rabs_Ropp. pose proof (Rabs_pos u). pose proof (Rabs_pos d). nra. }
  pose proof (rn_abs_le _ _ (fmt_Z 1 ltac:(lia)) B) as R. destruct (acos_in M Hacos _ _ Ix (Rabs_le_inv _ _ R)) as (w & Iw & Bw). destruct (hours _ _ Iw Bw) as [I H]. eauto.
Qed.
End Lib.

Lemma nd_cells {T} {N : Num T} (a b : arr T) n m wn out : shp a = [n] -> shp b = [m] -> max_daylight (INd a) (INd b) = Ok (wn, out) ->
  forall i j, (i < n)%nat -> (j < m)%nat -> get (as_arr out) [i; j] = daylight_cell (get a [i]) (get b [j]).
Proof.
  intros Sa Sb G i j Hi Hj. unfold max_daylight in G. cbv zeta in G. destruct (_ || _)%bool; [discriminate|]. injection G as _ <-. cbn [as_arr get nth].
  assert (R : forall (c : arr T) k q, shp c = [q] -> (k < q)%nat -> nth k (ravel c) nnan = get c [k]).
  { intros c k q S Hk. assert (I : inb (shp c) [k]) by (rewrite S; repeat constructor; auto). pose proof (nth_ravel nnan c _ I) as Q. rewrite S in Q. cbn in Q. replace (k * 1 + 0)%nat with k in Q by lia. exact Q. }
  rewrite (R a i n), (R b j m); auto.
Qed.
Lemma np_cells L L' (a b : arr b64) n m rj rl : holds (INd a) n rj -> holds (INd b) m rl -> exists wn out, max_daylight_np L L' (INd a) (INd b) = Ok (wn, out) /\
  shp (as_arr out) = [n; m] /\ forall i j, (i < n)%nat -> (j < m)%nat -> get (as_arr out) [i; j] = @daylight_cell b64 (NumB L) (get a [i]) (get b [j]).
Proof.
  intros Hj Hl. destruct (c104_precision L L' (INd a) (INd b) n m rj rl Hj Hl) as (wn & out & E & Sh & _ & _ & G). specialize (G eq_refl eq_refl). exists wn, out. split; [exact E|]. split; [exact Sh|].
  exact (@nd_cells b64 (NumB L) a b n m wn out (proj1 Hj) (proj1 Hl) G).
Qed.
Lemma c149_latitude L L' (a b : arr b64) n m rj rl : sin_ok L -> tan_ok L -> acos_ok L -> holds (INd a) n rj -> holds (INd b) m rl ->
  exists wn out, max_daylight_np L L' (INd a) (INd b) = Ok (wn, out) /\ forall i, (i < n)%nat ->
    let longer_north s := forall j j' v v', (j < m)%nat -> (j' < m)%nat -> -66 <= rl j <= rl j' -> rl j' <= 66 ->
      is (get (as_arr out) [i; j]) v -> is (get (as_arr out) [i; j']) v' -> if s : bool then v <= v' else v' <= v in
    longer_north true \/ longer_north false.
Proof.
  intros Hs Ht Ha Hj Hl. destruct (np_cells L L' a b n m rj rl Hj Hl) as (wn & out & E & _ & G). exists wn, out. split; [exact E|]. intros i Hi. cbv zeta.
  destruct Hj as [_ Hj]. destruct Hl as [_ Hl]. destruct (Hj i Hi) as [Ij Bj]. destruct (sunward_is L Hs Ht _ _ Ij Bj) as (d & Id & Bd & _).
  assert (Q : forall j j' v v', (j < m)%nat -> (j' < m)%nat -> -66 <= rl j <= rl j' -> rl j' <= 66 ->
      is (get (as_arr out) [i; j]) v -> is (get (as_arr out) [i; j']) v' -> (0 <= d -> v <= v') /\ (d <= 0 -> v' <= v)).
  { intros j j' v v' H1 H2 B1 B2 Iv Iv'. rewrite (G i j Hi H1) in Iv. rewrite (G i j' Hi H2) in Iv'. destruct (Hl j H1) as [Il _]. destruct (Hl j' H2) as [Il' _].
    exact (cell_order L Ht Ha _ _ _ d _ _ v v' Id Bd Il Il' B1 B2 Iv Iv'). }
  destruct (Rle_dec 0 d) as [D|D]; [left|right]; intros j j' v v' H1 H2 B1 B2 Iv Iv'; destruct (Q j j' v v' H1 H2 B1 B2 Iv Iv') as [Q1 Q2]; [apply Q1|apply Q2]; lra.
Qed.
Lemma c149_equator L L' (a b : arr b64) n m rj rl : sin_ok L -> tan_ok L -> acos_ok L -> holds (INd a) n rj -> holds (INd b) m rl ->
  exists wn out, max_daylight_np L L' (INd a) (INd b) = Ok (wn, out) /\ forall i j, (i < n)%nat -> (j < m)%nat -> rl j = 0 -> is (get (as_arr out) [i; j]) 12.
Proof.
  intros Hs Ht Ha Hj Hl. destruct (np_cells L L' a b n m rj rl Hj Hl) as (wn & out & E & _ & G). exists wn, out. split; [exact E|]. intros i j Hi H1 Z. rewrite (G i j Hi H1).
  destruct Hj as [_ Hj]. destruct Hl as [_ Hl]. destruct (Hj i Hi) as [Ij Bj]. destruct (Hl j H1) as [Il _]. rewrite Z in Il. exact (cell_equator L Hs Ht Ha _ _ _ Ij Bj Il).
Qed.
Lemma c149_inside L L' (a b : arr b64) n m rj rl : sin_ok L -> tan_ok L -> acos_ok L -> holds (INd a) n rj -> holds (INd b) m rl ->
  exists wn out, max_daylight_np L L' (INd a) (INd b) = Ok (wn, out) /\ forall i j, (i < n)%nat -> (j < m)%nat -> -66 <= rl j <= 66 -> exists v, is (get (as_arr out) [i; j]) v /\ 0 <= v <= 24.
Proof.
  intros Hs Ht Ha Hj Hl. destruct (np_cells L L' a b n m rj rl Hj Hl) as (wn & out & E & _ & G). exists wn, out. split; [exact E|]. intros i j Hi H1 Z. rewrite (G i j Hi H1).
  destruct Hj as [_ Hj]. destruct Hl as [_ Hl]. destruct (Hj i Hi) as [Ij Bj]. destruct (Hl j H1) as [Il _]. exact (cell_inside L Hs Ht Ha _ _ _ _ Ij Bj Il Z).
Qed.

(** ** a library that meets the conditions *)
Definition lib0 : libm := {| m_exp := fun x => x; m_ln := fun x => x; m_sin := fun _ => b64_ofZ 1; m_cos := fun x => x; m_tan := fun x => x;
  m_acos := fun x => if Bleb (b64_ofZ (-1)) x && Bleb x (b64_ofZ 1) then (if Bltb x (b64_ofZ 0) then pi64 else if Bltb (b64_ofZ 0) x then b64_ofZ 0 else half_pi64) else B754_nan |}.
Lemma lib0_acos x r : is x r -> m_acos lib0 x = if Rle_dec (-1) r then if Rle_dec r 1 then (if Rlt_dec r 0 then pi64 else if Rlt_dec 0 r then b64_ofZ 0 else half_pi64) else B754_nan else B754_nan.
Proof.
  intros I. cbn [lib0 m_acos]. rewrite (le_is _ _ _ _ (z_is (-1) ltac:(lia)) I), (le_is _ _ _ _ I (z_is 1 ltac:(lia))), (lt_is _ _ _ _ I (z_is 0 ltac:(lia))), (lt_is _ _ _ _ (z_is 0 ltac:(lia)) I).
  destruct (Rle_bool_spec (-1) r), (Rle_bool_spec r 1), (Rlt_bool_spec r 0), (Rlt_bool_spec 0 r), (Rle_dec (-1) r), (Rle_dec r 1), (Rlt_dec r 0), (Rlt_dec 0 r); cbn [andb]; try reflexivity; lra.
Qed.
Lemma half_is : is half_pi64 (B2R half_pi64) /\ 0 <= B2R half_pi64 <= P0.
Proof.
  assert (I : is half_pi64 (B2R half_pi64)) by (apply is_own; reflexivity). split; [exact I|].
  assert (Q : Bleb (b64_ofZ 0) half_pi64 = true) by reflexivity. rewrite (le_is _ _ _ _ (z_is 0 ltac:(lia)) I) in Q.
  assert (Q' : Bleb half_pi64 pi64 = true) by reflexivity. rewrite (le_is _ _ _ _ I pi_is) in Q'.
  destruct (Rle_bool_spec 0 (B2R half_pi64)), (Rle_bool_spec (B2R half_pi64) P0); try discriminate; lra.
Qed.
Lemma lib0_ok : sin_ok lib0 /\ tan_ok lib0 /\ acos_ok lib0.
Proof.
  pose proof P_range as PR. destruct half_is as [Hh Rh]. pose proof (z_is 0 ltac:(lia)) as I0. pose proof pi_is as Ip.
  split; [|split].
  - intros x r _. exists 1. split; [apply (z_is 1); lia|lra].
  - split.
    + intros x r I B. exists r. split; [exact I|lra].
    + intros x r v I J. cbn in J. rewrite <- (same_is _ _ _ I J). split; lra.
    + intros x y r s u v I J _ _ H I' J'. cbn in I', J'. rewrite <- (same_is _ _ _ I I'), <- (same_is _ _ _ J J'). exact H.
    + intros x I. exact I.
  - split.
    + intros x r I B. rewrite (lib0_acos x r I). destruct (Rle_dec (-1) r); [|lra]. destruct (Rle_dec r 1); [|lra].
      destruct (Rlt_dec r 0); [exists P0; split; [exact Ip|lra]|]. destruct (Rlt_dec 0 r); [exists 0; split; [exact I0|lra]|]. eauto.
    + intros x H. destruct (is_finite x) eqn:F.
      * rewrite (lib0_acos x _ (is_own x F)). specialize (H _ (is_own x F)). destruct (Rle_dec (-1) (B2R x)); [|reflexivity]. destruct (Rle_dec (B2R x) 1); [exfalso; apply H; lra|reflexivity].
      * destruct x as [s|s| |]; try discriminate; [destruct s; reflexivity|reflexivity].
    + intros x y r s u v I J H. rewrite (lib0_acos x r I), (lib0_acos y s J). intros A B.
      destruct (Rle_dec (-1) r); [|destruct A; discriminate]. destruct (Rle_dec r 1); [|destruct A; discriminate].
      destruct (Rle_dec (-1) s); [|destruct B; discriminate]. destruct (Rle_dec s 1); [|destruct B; discriminate].
      destruct (Rlt_dec r 0), (Rlt_dec s 0), (Rlt_dec 0 r), (Rlt_dec 0 s); try lra;
      repeat match goal with A : is pi64 _ |- _ => apply (same_is _ _ _ Ip) in A; subst | A : is half_pi64 _ |- _ => apply (same_is _ _ _ Hh) in A; subst | A : is (b64_ofZ 0) _ |- _ => apply (same_is _ _ _ I0) in A; subst end; lra.
    + intros x I. rewrite (lib0_acos x 0 I). destruct (Rle_dec (-1) 0); [|lra]. destruct (Rle_dec 0 1); [|lra]. destruct (Rlt_dec 0 0); [lra|reflexivity].
Qed.
