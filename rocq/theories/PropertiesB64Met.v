(** C147: relhum_ice, relhum_water, psychrometric_constant and the saturation vapour pressures in double precision. *)
From Coq Require Import Reals List Bool Arith ZArith Lra Lia String.
From Flocq Require Import Core BinarySingleNaN.
From Verif Require Import PyBase PyFacts Num NumFacts NumB64 Arr ArrFacts Spec SpecB64 SpecB64Met B64Facts Hybrid Meteo B64Relhum B64Met.
Import ListNotations.
Local Open Scope R_scope.

(** C147.  relhum_ice (ice = true) and relhum_water, with any exponential function: at the same temperature and pressure, where the
    humidity for the mixing ratio a > 0 is a positive number v, a mixing ratio of 0 to a never gives more than v, to the last bit,
    and never a NaN or infinity; a mixing ratio of zero gives zero *)
Theorem C147_relhum :
  forall (M : libm) (ice : bool) (t w w' p : inp b64), @alike b64 (NumB M) t w p -> @alike b64 (NumB M) t w' p ->
  exists out out', @relhum_iw b64 (NumB M) ice t w p = Ok out /\ @relhum_iw b64 (NumB M) ice t w' p = Ok out' /\
  forall i a a' v, inb (shp (as_arr t)) i -> is (get (as_arr w) i) a -> 0 < a -> is (get (as_arr w') i) a' -> 0 <= a' <= a ->
    is (get (as_arr out) i) v -> 0 < v -> exists v', is (get (as_arr out') i) v' /\ 0 <= v' <= v /\ (a' = 0 -> v' = 0).
Proof. exact c147_relhum. Qed.
Print Assumptions C147_relhum.

(** C147.  psychrometric_constant is within 3 * 2^-53 of 0.00066474 times the pressure, relatively (an absolute 2^-1075 where the
    result is that small), and never decreases from one point to another of no lower pressure *)
Theorem C147_psychrometric :
  forall (M : libm) (p : inp b64) i x, is (get (as_arr p) i) x -> Rabs x <= hi900 ->
  exists v, is (get (as_arr (@psychrometric_constant b64 (NumB M) p)) i) v /\ Rabs (v - 0.00066474 * x) <= 3 * ulp1 * (0.00066474 * Rabs x) + tiny /\
    forall j x', is (get (as_arr p) j) x' -> x <= x' <= hi900 -> exists v', is (get (as_arr (@psychrometric_constant b64 (NumB M) p)) j) v' /\ v <= v'.
Proof. exact c147_psychrometric. Qed.
Print Assumptions C147_psychrometric.

(** C147.  The fill value is returned for exactly the temperatures up to 32 degrees Fahrenheit, although they are converted in
    rounded arithmetic: any number f <= 32 gives the fill value, in the pressure and in its slope *)
Theorem C147_freezing :
  forall (M : libm) (t : inp b64) (fill : b64) i f, is (get (as_arr t) i) f -> Rabs f <= hi900 -> f <= 32 ->
  get (as_arr (@saturation_vapor_pressure b64 (NumB M) t fill)) i = fill /\ get (as_arr (@actual_saturation_vapor_pressure b64 (NumB M) t fill)) i = fill /\
  get (as_arr (@saturation_vapor_pressure_slope b64 (NumB M) t fill)) i = fill.
Proof. exact c147_freezing. Qed.
Print Assumptions C147_freezing.

(** C147.  ... and so does a missing temperature: with a fill value that is a number the answer does not show it is missing *)
Theorem C147_missing :
  forall (M : libm) (t : inp b64) (fill : b64) i, get (as_arr t) i = B754_nan ->
  get (as_arr (@saturation_vapor_pressure b64 (NumB M) t fill)) i = fill /\ get (as_arr (@actual_saturation_vapor_pressure b64 (NumB M) t fill)) i = fill /\
  get (as_arr (@saturation_vapor_pressure_slope b64 (NumB M) t fill)) i = fill.
Proof. exact c147_missing. Qed.
Print Assumptions C147_missing.

(** C147.  Any number above 32, however close, gives a pressure no lower than the double nearest 0.6108 kPa *)
Theorem C147_warm :
  forall (M : libm) (t : inp b64) (fill : b64) i f, exp_ok M -> is (get (as_arr t) i) f -> Rabs f <= hi900 -> 32 < f ->
  exists v, is (get (as_arr (@saturation_vapor_pressure b64 (NumB M) t fill)) i) v /\ is (get (as_arr (@actual_saturation_vapor_pressure b64 (NumB M) t fill)) i) v /\ rn 0.6108 <= v.
Proof. exact c147_warm. Qed.
Print Assumptions C147_warm.

(** arguments meeting the hypotheses: 32 and 50 degrees, a mixing ratio at one point and none at the other *)
Definition exm_t : inp b64 := INd (mkArr [2%nat] (fun i => b64_ofZ (nth (hd 0%nat i) [32; 50] 0)%Z)).
Definition exm_w : inp b64 := INd (mkArr [2%nat] (fun i => b64_ofZ (nth (hd 0%nat i) [1; 3] 0)%Z)).
Definition exm_p : inp b64 := INd (mkArr [2%nat] (fun i => b64_ofZ (nth (hd 0%nat i) [50000; 80000] 0)%Z)).
Ltac lit := apply ofZ_exact; apply Z.leb_le; reflexivity.
Example C147_example :
  exp_ok true_exp /\ @alike b64 (NumB true_exp) exm_t exm_w exm_p /\ inb (shp (as_arr exm_t)) [1%nat] /\ is (get (as_arr exm_w) [1%nat]) 3 /\ 0 < 3 /\
  is (get (as_arr exm_t) [0%nat]) 32 /\ is (get (as_arr exm_t) [1%nat]) 50 /\ is (get (as_arr exm_p) [0%nat]) 50000 /\ is (get (as_arr exm_p) [1%nat]) 80000 /\
  50000 <= 80000 <= hi900.
Proof.
  split; [exact true_exp_ok|]. split; [repeat split|]. split; [repeat constructor|]. split; [lit|]. split; [lra|]. split; [lit|]. split; [lit|]. split; [lit|]. split; [lit|].
  split; [lra|]. apply Rle_trans with (bpow radix2 20); [change (bpow radix2 20) with 1048576; lra|apply bpow_le; lia].
Qed.
(** ... and the humidity at that point is a positive number, with a library whose exponential is 1 *)
Example C147_example_positive :
  let M := mkLibm (fun _ => b64_ofZ 1) (fun x => x) (fun x => x) (fun x => x) (fun x => x) (fun x => x) in
  exists v, is (@rh_cell b64 (NumB M) (@est_water b64 (NumB M)) (b64_ofZ 50) (b64_ofZ 3) (b64_ofZ 80000)) v /\ 0 < v.
Proof.
  intros M. eexists. split; [split; [reflexivity|reflexivity]|].
  assert (Q : Bltb (b64_ofZ 0) (@rh_cell b64 (NumB M) (@est_water b64 (NumB M)) (b64_ofZ 50) (b64_ofZ 3) (b64_ofZ 80000)) = true) by reflexivity.
  match goal with |- 0 < B2R ?e => assert (Ie : is e (B2R e)) by (split; [reflexivity|reflexivity]) end.
  assert (I0 : is (b64_ofZ 0) 0) by lit. rewrite (lt_is _ _ _ _ I0 Ie) in Q. match type of Q with Rlt_bool 0 ?r = true => destruct (Rlt_bool_spec 0 r); [auto|discriminate] end.
Qed.
