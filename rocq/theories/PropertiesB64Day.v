(** C149: max_daylight in double precision. *)
From Coq Require Import Reals List Bool Arith ZArith Lra Lia String.
From Flocq Require Import Core BinarySingleNaN.
From Verif Require Import PyBase PyFacts Num NumFacts NumB64 Arr ArrFacts SpecB64 B64Facts Hybrid Meteo DaylightPrec DaylightPrecFacts SpecB64Day B64Day.
Import ListNotations.
Local Open Scope R_scope.

(** C149.  If one argument is an ndarray, every computed length is a number of hours from 0 to 24, to the last bit, or missing *)
Theorem C149_range :
  forall L L' jday lat n m rj rl, acos_ok L -> holds jday n rj -> holds lat m rl -> kind_of jday = KNd \/ kind_of lat = KNd ->
  exists wn out, max_daylight_np L L' jday lat = Ok (wn, out) /\ shp (as_arr out) = [n; m] /\
    forall i j, (i < n)%nat -> (j < m)%nat -> is_nan (get (as_arr out) [i; j]) = true \/ exists v, is (get (as_arr out) [i; j]) v /\ 0 <= v <= 24.
Proof. exact c149_range. Qed.
Print Assumptions C149_range.

(** C149.  ndarrays, latitudes up to 66 degrees north and south: never missing, whatever the day *)
Theorem C149_inside :
  forall L L' (jday lat : arr b64) n m rj rl, sin_ok L -> tan_ok L -> acos_ok L -> holds (INd jday) n rj -> holds (INd lat) m rl ->
  exists wn out, max_daylight_np L L' (INd jday) (INd lat) = Ok (wn, out) /\
    forall i j, (i < n)%nat -> (j < m)%nat -> -66 <= rl j <= 66 -> exists v, is (get (as_arr out) [i; j]) v /\ 0 <= v <= 24.
Proof. exact c149_inside. Qed.
Print Assumptions C149_inside.

(** C149.  ndarrays: at the equator the day lasts exactly 12 hours, whatever the day *)
Theorem C149_equator :
  forall L L' (jday lat : arr b64) n m rj rl, sin_ok L -> tan_ok L -> acos_ok L -> holds (INd jday) n rj -> holds (INd lat) m rl ->
  exists wn out, max_daylight_np L L' (INd jday) (INd lat) = Ok (wn, out) /\
    forall i j, (i < n)%nat -> (j < m)%nat -> rl j = 0 -> is (get (as_arr out) [i; j]) 12.
Proof. exact c149_equator. Qed.
Print Assumptions C149_equator.

(** C149.  ndarrays: on any one day the length never falls towards one and the same pole, over latitudes up to 66 degrees; rounding
    breaks no order *)
Theorem C149_latitude :
  forall L L' (jday lat : arr b64) n m rj rl, sin_ok L -> tan_ok L -> acos_ok L -> holds (INd jday) n rj -> holds (INd lat) m rl ->
  exists wn out, max_daylight_np L L' (INd jday) (INd lat) = Ok (wn, out) /\ forall i, (i < n)%nat ->
    let ordered s := forall j j' v v', (j < m)%nat -> (j' < m)%nat -> -66 <= rl j <= rl j' -> rl j' <= 66 ->
      is (get (as_arr out) [i; j]) v -> is (get (as_arr out) [i; j']) v' -> if s : bool then v <= v' else v' <= v in
    ordered true \/ ordered false.
Proof. exact c149_latitude. Qed.
Print Assumptions C149_latitude.

(** a library meeting the conditions, and a call: days 100 and 200, latitudes 0 and 45; the lengths are 12 and 24 hours with this library *)
Definition exd_j : arr b64 := mkArr [2%nat] (fun i => b64_ofZ (nth (hd 0%nat i) [100; 200] 0)%Z).
Definition exd_l : arr b64 := mkArr [2%nat] (fun i => b64_ofZ (nth (hd 0%nat i) [0; 45] 0)%Z).
Example C149_example :
  sin_ok lib0 /\ tan_ok lib0 /\ acos_ok lib0 /\
  holds (INd exd_j) 2 (fun k => nth k [100; 200] 0) /\ holds (INd exd_l) 2 (fun k => nth k [0; 45] 0) /\
  exists wn out, max_daylight_np lib0 lib0 (INd exd_j) (INd exd_l) = Ok (wn, out) /\
    Beqb (get (as_arr out) [1%nat; 0%nat]) (b64_ofZ 12) = true /\ Beqb (get (as_arr out) [1%nat; 1%nat]) (b64_ofZ 24) = true.
Proof.
  destruct lib0_ok as (A & B & C). split; [exact A|]. split; [exact B|]. split; [exact C|].
  assert (Z : forall z, (Z.abs z <= 1000)%Z -> is (b64_ofZ z) (IZR z) /\ Rabs (IZR z) <= big32).
  { intros z Hz. split; [apply ofZ_exact; lia|]. rewrite <- abs_IZR. apply Rle_trans with (IZR (2 ^ 10)); [apply IZR_le; lia|]. change (IZR (2 ^ 10)) with (bpow radix2 10). apply bpow_le. lia. }
  assert (HJ : holds (INd exd_j) 2 (fun k => nth k [100; 200] 0)).
  { split; [reflexivity|]. intros [|[|k]] H; [apply (Z 100%Z); lia|apply (Z 200%Z); lia|lia]. }
  assert (HL : holds (INd exd_l) 2 (fun k => nth k [0; 45] 0)).
  { split; [reflexivity|]. intros [|[|k]] H; [apply (Z 0%Z); lia|apply (Z 45%Z); lia|lia]. }
  split; [exact HJ|]. split; [exact HL|]. destruct (np_cells lib0 lib0 exd_j exd_l 2 2 _ _ HJ HL) as (wn & out & E & _ & G). exists wn, out. split; [exact E|].
  rewrite !G by lia. split; reflexivity.
Qed.
