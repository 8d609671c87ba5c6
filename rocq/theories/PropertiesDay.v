(** C124: length of day by season and hemisphere, and beyond the polar circles. *)
From Coq Require Import Reals List Bool Arith Lra Lia String.
From Verif Require Import PyBase Num NumFacts Arr ArrFacts Meteo SpecMeteo MeteoCells MeteoApi2 PsiGuards MeteoDay.
Import ListNotations.
Local Open Scope R_scope.

(** C124.  For latitudes up to 66 degrees: the day is longer than 12 hours exactly in the hemisphere tilted to the sun (declination is
    the solar declination of FAO-56); it grows with latitude exactly while the declination is positive; at a northern latitude the
    longer of two days is the one with the larger declination; 365 days later the day is as long, half a year later as long as the
    night was. *)
Theorem C124_seasons :
  forall jday lat wn out,
  daylight_ranks jday lat -> max_daylight jday lat = Ok (wn, out) ->
  forall i j n y v, entry jday i = Fin n -> entry lat j = Fin y -> -66 <= y <= 66 -> get (as_arr out) [i; j] = Fin v ->
    (12 < v <-> 0 < y * declination n) /\ (v < 12 <-> y * declination n < 0) /\
    (forall j' y' v', entry lat j' = Fin y' -> y < y' <= 66 -> get (as_arr out) [i; j'] = Fin v' ->
       (v < v' <-> 0 < declination n) /\ (v' < v <-> declination n < 0)) /\
    (forall i' n' v', entry jday i' = Fin n' -> get (as_arr out) [i'; j] = Fin v' ->
       (0 < y -> (v < v' <-> declination n < declination n')) /\ (y < 0 -> (v < v' <-> declination n' < declination n)) /\
       (n' = n + 365 -> v' = v) /\ (n' = n + 365 / 2 -> v' = 24 - v)).
Proof. exact c124_sun. Qed.
Print Assumptions C124_seasons.

(** C124.  At any latitude short of the poles an entry is NaN exactly on the days without sunrise or sunset and otherwise between 0
    and 24. *)
Theorem C124_polar :
  forall jday lat wn out,
  daylight_ranks jday lat -> max_daylight jday lat = Ok (wn, out) ->
  forall i j n y, entry jday i = Fin n -> entry lat j = Fin y -> -90 < y < 90 ->
    (get (as_arr out) [i; j] = NaN <-> 1 < Rabs (tan (y * (PI / 180)) * tan (declination n))) /\
    (forall v, get (as_arr out) [i; j] = Fin v -> 0 <= v <= 24) /\
    (get (as_arr out) [i; j] = NaN \/ exists v, get (as_arr out) [i; j] = Fin v).
Proof. exact c124_polar. Qed.
Print Assumptions C124_polar.

(** Intended: the polar day has 24 hours, or at least a warning is given.  Refuted: with latitudes 0 and 84 on day 172 there is no
    warning and the entry for 84 is NaN. *)
Lemma decl_172 : 0.4 < declination 172.
Proof.
  unfold declination. pose proof PI_bounds as B. set (z := 2 * PI / 365 * 172 - 1.39). replace (sin z) with (cos (PI / 2 - z)) by (rewrite cos_shift; reflexivity).
  assert (H : -1 <= PI / 2 - z <= 1) by (unfold z; lra). pose proof (proj1 (pre_cos_bound (PI / 2 - z) 0 ltac:(lra) ltac:(lra))) as C.
  unfold cos_approx, cos_term in C. cbn [sum_f_R0 Nat.mul Nat.add pow fact INR] in C.
  assert (Q : -0.01 <= PI / 2 - z <= 0.01) by (unfold z; lra). assert ((PI / 2 - z) * (PI / 2 - z) <= 0.0001) by nra. lra.
Qed.
Lemma tan_84 : 5 < tan (84 * (PI / 180)).
Proof.
  pose proof PI_bounds as B. replace (84 * (PI / 180)) with (PI / 2 - PI / 30) by field. set (x := PI / 30). assert (Hx : 0 < x < 0.105) by (unfold x; lra).
  unfold tan. rewrite sin_shift, cos_shift. assert (S : 0 < sin x) by (apply sin_gt_0; lra). assert (L : sin x < x) by (apply sin_lt_x; lra).
  pose proof (proj1 (pre_cos_bound x 0 ltac:(lra) ltac:(lra))) as C. unfold cos_approx, cos_term in C. cbn [sum_f_R0 Nat.mul Nat.add pow fact INR] in C.
  apply Rmult_lt_reg_r with (sin x); [exact S|]. unfold Rdiv. rewrite Rmult_assoc, Rinv_l by lra. nra.
Qed.
Lemma long_84 : 1 < Rabs (tan (84 * (PI / 180)) * tan (declination 172)).
Proof.
  pose proof tan_84 as T. pose proof decl_172 as D. assert (Q : 0.3 < tan (declination 172)).
  { pose proof (decl_bound 172) as L. rewrite Rabs_right in L by lra. pose proof PI_bounds. set (d := declination 172) in *. assert (C : 0 < cos d) by (apply cos_gt_0; lra). pose proof (COS_bound d).
    pose proof (proj1 (pre_sin_bound d 0 ltac:(lra) ltac:(lra))) as X. unfold sin_approx, sin_term in X. cbn [sum_f_R0 Nat.mul Nat.add pow fact INR] in X.
    assert (d * d <= 0.17) by nra. assert (0.3 < sin d) by nra. unfold tan. apply Rmult_lt_reg_r with (cos d); [exact C|]. unfold Rdiv. rewrite Rmult_assoc, Rinv_l by lra. nra. }
  rewrite Rabs_right; nra.
Qed.
Theorem C124_polar_day_refuted : exists jday lat out,
  max_daylight jday lat = Ok (None, out) /\ entry jday 0 = Fin 172 /\ entry lat 1 = Fin 84 /\ get (as_arr out) [0; 1]%nat = NaN.
Proof.
  set (jd := INd (vec NaN [Fin 172])). set (la := INd (vec NaN [Fin 0; Fin 84])).
  assert (R : daylight_ranks jd la) by (split; [cbn; lia|]; split; [cbn; lia|discriminate]).
  destruct (max_daylight_ok jd la R) as (wn & out & E & _ & _ & W1 & W2 & _). exists jd, la, out.
  assert (N0 : nlt (Fin 55) (nabs (Fin 0)) = false /\ nlt (Fin 66) (nabs (Fin 0)) = false) by (cbn; rewrite Rabs_R0; split; apply rltb_false; lra).
  assert (Wn : wn = None).
  { destruct wn as [[|]|]; [| |reflexivity].
    - destruct (proj1 W1 eq_refl 0%nat ltac:(cbn; lia)) as [Q _]. change (entry la 0) with (Fin 0) in Q. destruct N0; congruence.
    - destruct (proj1 W2 eq_refl) as [_ Q]. specialize (Q 0%nat ltac:(cbn; lia)). change (entry la 0) with (Fin 0) in Q. destruct N0; congruence. }
  rewrite Wn in E. split; [exact E|]. split; [reflexivity|]. split; [reflexivity|].
  apply (C124_polar jd la None out R E 0%nat 1%nat 172 84 eq_refl eq_refl ltac:(lra)). exact long_84.
Qed.
Print Assumptions C124_polar_day_refuted.

(** days 172 and 537 (365 later), latitudes 0 and 40 *)
Example C124_example : exists out v,
  max_daylight (IList (vec NaN [Fin 172; Fin 537])) (IList (vec NaN [Fin 0; Fin 40])) = Ok (None, out) /\
  get (as_arr out) [0; 1]%nat = Fin v /\ 12 < v < 24 /\ get (as_arr out) [1; 1]%nat = Fin v.
Proof.
  set (jd := IList (vec NaN [Fin 172; Fin 537])). set (la := IList (vec NaN [Fin 0; Fin 40])).
  assert (R : daylight_ranks jd la) by (split; [cbn; lia|]; split; [cbn; lia|discriminate]).
  destruct (max_daylight_ok jd la R) as (wn & out & E & _ & _ & W1 & W2 & _).
  assert (N0 : nlt (Fin 55) (nabs (Fin 0)) = false /\ nlt (Fin 66) (nabs (Fin 0)) = false) by (cbn; rewrite Rabs_R0; split; apply rltb_false; lra).
  assert (Wn : wn = None).
  { destruct wn as [[|]|]; [| |reflexivity].
    - destruct (proj1 W1 eq_refl 0%nat ltac:(cbn; lia)) as [Q _]. change (entry la 0) with (Fin 0) in Q. destruct N0; congruence.
    - destruct (proj1 W2 eq_refl) as [_ Q]. specialize (Q 0%nat ltac:(cbn; lia)). change (entry la 0) with (Fin 0) in Q. destruct N0; congruence. }
  rewrite Wn in E. destruct (day_entry jd la None out 0 1 172 40 R E eq_refl eq_refl ltac:(lra)) as (v & G & D). destruct (day_entry jd la None out 1 1 537 40 R E eq_refl eq_refl ltac:(lra)) as (v' & G' & D').
  destruct (C124_seasons jd la None out R E 0%nat 1%nat 172 40 v eq_refl eq_refl ltac:(lra) G) as (H1 & _ & _ & H4). destruct (H4 1%nat 537 v' eq_refl G') as (_ & _ & H5 & _).
  exists out, v. split; [exact E|]. split; [exact G|]. split; [|rewrite G', H5; [reflexivity|lra]]. split; [|apply D]. apply H1. pose proof decl_172. lra.
Qed.
