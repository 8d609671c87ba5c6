(** Correctly rounded cosines: on latitudes between the poles they are not negative, and near 0 they are 1 (C116). *)
From Coq Require Import Reals List Bool Arith ZArith Lra Lia String.
From Flocq Require Import Core BinarySingleNaN.
From Verif Require Import PyBase PyFacts Num Arr NumB64 SpecB64 B64Facts Nmse GradSeries B64Nmse B64NmseEx.
Import ListNotations.
Local Open Scope R_scope.

(** the mathematical library's cosine is correctly rounded; NaN and infinities give NaN *)
Definition cos_rounded (M : libm) : Prop :=
  (forall x r, is x r -> is (m_cos M x) (rn (cos r))) /\ (forall x, is_finite x = false -> is_nan (m_cos M x) = true).
(** a latitude between the poles, or a missing one *)
Definition latitude (x : b64) : Prop := is_nan x = true \/ exists r, is x r /\ -90 <= r <= 90.

Definition rad1 : b64 := Bdiv mode_NE (binary_normalize 53 1024 _ _ mode_NE 884279719003555 (-48) false) (b64_ofZ 180).
Lemma rad1_is : is rad1 (IZR 5030569068109113 * bpow radix2 (-58)).
Proof.
  assert (E : B2SF rad1 = SpecFloat.S754_finite false 5030569068109113 (-58)) by (vm_compute; reflexivity).
  destruct rad1 as [s|s| |s m e B]; cbn in E; try discriminate. injection E as -> -> ->. split; reflexivity.
Qed.
Lemma rad90_is : is (Bmult mode_NE (b64_ofZ 90) rad1) (IZR 7074237752028440 * bpow radix2 (-52)).
Proof.
  assert (E : B2SF (Bmult mode_NE (b64_ofZ 90) rad1) = SpecFloat.S754_finite false 7074237752028440 (-52)) by (vm_compute; reflexivity).
  destruct (Bmult mode_NE (b64_ofZ 90) rad1) as [s|s| |s m e B]; cbn in E; try discriminate. injection E as -> -> ->. split; reflexivity.
Qed.
(** the double 1.5707963267948966 lies below the real pi/2 *)
Lemma rad90_PI : IZR 7074237752028440 * bpow radix2 (-52) < PI / 2.
Proof.
  pose proof d2r_PI as [H _]. unfold rd2r in H. change (bpow radix2 (-52)) with (/ 4503599627370496). lra.
Qed.
Lemma deg90 : is (b64_ofZ 90) 90. Proof. apply (ofZ_exact 90). apply Z.leb_le. reflexivity. Qed.
Lemma deg2rad_is x r : is x r -> -90 <= r <= 90 -> is (Bmult mode_NE x rad1) (rn (r * (IZR 5030569068109113 * bpow radix2 (-58)))) /\
  Rabs (rn (r * (IZR 5030569068109113 * bpow radix2 (-58)))) <= PI / 2.
Proof.
  intros Hx Hr. set (q := IZR 5030569068109113 * bpow radix2 (-58)).
  assert (Hq : 0 < q < 0.02) by (unfold q; change (bpow radix2 (-58)) with (/ 288230376151711744); lra).
  assert (Ha : forall s, -90 <= s <= 90 -> Rabs (s * q) <= big).
  { intros s Hs. apply Rle_trans with 2; [apply Rabs_le; nra|]. apply Rle_trans with (bpow radix2 1); [cbn; lra|apply bpow_le; lia]. }
  split; [apply mul_is; auto; apply rad1_is|].
  assert (E90 : rn (90 * q) = IZR 7074237752028440 * bpow radix2 (-52)).
  { destruct (mul_is _ _ _ _ deg90 rad1_is (Ha 90 ltac:(lra))) as [_ V]. destruct rad90_is as [_ V']. fold q in V. congruence. }
  pose proof rad90_PI as HP. rewrite <- E90 in HP. apply Rabs_le. split.
  - apply Rle_trans with (rn (- (90 * q))); [rewrite rn_opp; lra|apply rn_le; nra].
  - apply Rle_trans with (rn (90 * q)); [apply rn_le; nra|lra].
Qed.
Lemma cos_latitude M x : cos_rounded M -> latitude x -> nonneg_or_nan (m_cos M (Bmult mode_NE x rad1)).
Proof.
  intros [C1 C2] [Hx|(r & Hx & Hr)].
  - left. apply C2. destruct x; try discriminate. reflexivity.
  - destruct (deg2rad_is x r Hx Hr) as [I B]. apply Rabs_le_inv in B. pose proof (C1 _ _ I) as I'. right.
    assert (I0 : is (B754_zero false) 0) by (split; reflexivity). rewrite (le_is _ _ 0 _ I0 I'). apply Rle_bool_true. apply rn_ge_fmt; [apply fmt_0|]. apply cos_ge_0; lra.
Qed.

(** near 0 the rounded cosine is 1 *)
Lemma rn_one x : 1 - bpow radix2 (-55) <= x <= 1 -> rn x = 1.
Proof.
  intros [H1 H2]. assert (F : fmt 1) by (apply (fmt_bpow 0); lia). apply Rle_antisym; [apply rn_le_fmt; auto|].
  unfold rn. apply round_N_ge_midp; [typeclasses eauto|exact F|].
  change 1 with (bpow radix2 0) at 2. rewrite pred_bpow. unfold FLT_exp. cbn [Z.max Z.sub Z.add Z.opp Z.pos_sub Pos.pred_double Z.compare Pos.compare Pos.compare_cont CompOpp].
  change (bpow radix2 0) with 1. change (bpow radix2 (-53)) with (/ 9007199254740992). change (bpow radix2 (-55)) with (/ 36028797018963968) in H1. lra.
Qed.
Lemma one_is x : is x 1 -> x = b64_ofZ 1.
Proof.
  intros [F V]. destruct (ofZ_exact 1) as [F1 V1]; [apply Z.leb_le; reflexivity|]. apply B2R_Bsign_inj; auto; [congruence|].
  destruct x as [s|s| |s m e B]; try discriminate; [cbn in V; lra|]. destruct s; [|reflexivity]. exfalso.
  assert (B2R (B754_finite true m e B) < 0) by (cbn; apply F2R_lt_0; cbn; lia). lra.
Qed.
Lemma step40_is : is step40 (bpow radix2 (-40)).
Proof.
  assert (E : B2SF step40 = SpecFloat.S754_finite false 4503599627370496 (-92)) by (vm_compute; reflexivity).
  destruct step40 as [s|s| |s m e B]; cbn in E; try discriminate. injection E as -> -> ->. split; [reflexivity|].
  cbn [B2R F2R Fnum Fexp cond_Zopp]. unfold F2R. cbn [Fnum Fexp]. change (bpow radix2 (-92)) with (/ 4951760157141521099596496896). change (bpow radix2 (-40)) with (/ 1099511627776). lra.
Qed.
Lemma unit_cos_rounded M : cos_rounded M -> unit_cos M.
Proof.
  intros [C _] x Hx. change (m_cos M (Bmult mode_NE x rad1) = b64_ofZ 1). apply one_is.
  assert (A : exists r, is x r /\ 0 <= r <= bpow radix2 (-40)).
  { destruct Hx as [<-|[<-|[]]].
    - exists 0. split; [split; reflexivity|]. split; [lra|apply bpow_ge_0].
    - exists (bpow radix2 (-40)). split; [|split; [apply bpow_ge_0|lra]].
      apply step40_is. }
  destruct A as (r & Hr & R0 & R1). change (bpow radix2 (-40)) with (/ 1099511627776) in R1.
  destruct (deg2rad_is x r Hr ltac:(lra)) as [I B]. set (q := IZR 5030569068109113 * bpow radix2 (-58)) in *.
  assert (Hq : 0 < q < 0.02) by (unfold q; change (bpow radix2 (-58)) with (/ 288230376151711744); lra).
  assert (Q : 0 <= rn (r * q) <= bpow radix2 (-40)).
  { split; [apply rn_ge_fmt; [apply fmt_0|nra]|apply rn_le_fmt; [apply fmt_bpow; lia|]]. change (bpow radix2 (-40)) with (/ 1099511627776). nra. }
  change (bpow radix2 (-40)) with (/ 1099511627776) in Q.
  replace 1 with (rn (cos (rn (r * q)))); [apply C; exact I|]. apply rn_one. split; [|apply COS_bound].
  set (y := rn (r * q)) in *. replace y with (2 * (y / 2)) by lra. rewrite cos_2a_sin.
  assert (S : 0 <= sin (y / 2) <= y / 2).
  { destruct (Req_dec y 0) as [->|Hy]; [replace (0 / 2) with 0 by lra; rewrite sin_0; lra|]. split; [apply sin_ge_0; pose proof PI2_3_2; unfold PI2 in *; lra|].
    left. apply sin_lt_x. lra. }
  change (bpow radix2 (-55)) with (/ 36028797018963968). nra.
Qed.

(** such a cosine exists *)
Definition of_real (r : R) : b64 := binary_normalize 53 1024 eq_refl eq_refl mode_NE (Ztrunc (scaled_mantissa radix2 (FLT_exp (-1074) 53) (rn r))) (cexp radix2 (FLT_exp (-1074) 53) (rn r)) false.
Lemma of_real_is r : Rabs r <= big -> is (of_real r) (rn r).
Proof.
  intros H. pose proof (binary_normalize_correct 53 1024 eq_refl eq_refl mode_NE (Ztrunc (scaled_mantissa radix2 (FLT_exp (-1074) 53) (rn r))) (cexp radix2 (FLT_exp (-1074) 53) (rn r)) false) as K.
  assert (E : F2R (Float radix2 (Ztrunc (scaled_mantissa radix2 (FLT_exp (-1074) 53) (rn r))) (cexp radix2 (FLT_exp (-1074) 53) (rn r))) = rn r) by (symmetry; apply fmt_rn).
  cbv zeta in K. rewrite E in K. assert (E' : round radix2 (SpecFloat.fexp 53 1024) (round_mode mode_NE) (rn r) = rn r) by exact (rn_fmt (rn r) (fmt_rn r)).
  rewrite E', rn_small in K by exact H. destruct K as (K1 & K2 & _). split; auto.
Qed.
Definition true_cos : libm := mkLibm (fun x => x) (fun x => x) (fun x => x) (fun x => if is_finite x then of_real (cos (B2R x)) else B754_nan) (fun x => x) (fun x => x).
Lemma true_cos_rounded : cos_rounded true_cos.
Proof.
  split.
  - intros x r [F <-]. cbn [m_cos true_cos]. rewrite F. apply of_real_is. pose proof (COS_bound (B2R x)) as B. apply Rle_trans with 1; [apply Rabs_le; lra|].
    change 1 with (bpow radix2 0). apply bpow_le. lia.
  - intros x F. cbn [m_cos true_cos]. rewrite F. reflexivity.
Qed.
Lemma c116_latitudes M cf_lat cf_lon o m r : cos_rounded M -> @nmse b64 (NumB M) cf_lat cf_lon o m = Ok r ->
  (forall name lat i, In name (cf_lat o) -> slookup name (ncoords o) = Some lat -> latitude (get (cdat lat) i)) -> each_value r nonneg_or_nan.
Proof. intros C E H. apply (c116_sign M cf_lat cf_lon o m r E). intros name lat i Hn Hl. apply cos_latitude; auto. apply (H name lat i); auto. Qed.
