(** C103, C104: max_daylight and single precision. *)
From Coq Require Import Reals List Bool Arith ZArith String Lia Lra.
From Flocq Require Import Core BinarySingleNaN.
From Verif Require Import PyBase Num NumB64 Arr Meteo SpecB64 B64Facts DaylightPrec DaylightPrecFacts.
Import ListNotations.
Local Open Scope R_scope.

(** C103.  Days in a DataArray [d] with values rj 0 .. rj (n-1), latitudes of any kind with values rl: the result is labelled "doy"
    and "lat" in this order, and its labels are the caller's values rounded to single precision ([rn32]); latitudes in an ndarray are
    not rounded.  L, L': numpy's elementary functions in double and single precision, arbitrary. *)
Theorem C103_labels :
  forall L L' d lat n m rj rl,
  holds (IDa d) n rj -> holds lat m rl -> exists wn out cd cl,
    max_daylight_np L L' (IDa d) lat = Ok (wn, IDa out) /\ dims out = ["doy"; "lat"]%string /\ shp (dat out) = [n; m] /\
    coords out = [("doy"%string, mkCoord ["doy"%string] cd); ("lat"%string, mkCoord ["lat"%string] cl)] /\ shp cd = [n] /\ shp cl = [m] /\
    (forall k, (k < n)%nat -> is (get cd [k]) (rn32 (rj k))) /\
    (forall k, (k < m)%nat -> is (get cl [k]) (match lat with INd _ => rl k | _ => rn32 (rl k) end)).
Proof. exact c103_labels. Qed.
Print Assumptions C103_labels.

(** C103.  Intended: the labels are the caller's days and latitudes.  Refuted: a label is the caller's value exactly when that value
    is a single precision number. *)
Theorem C103_labels_refuted :
  forall L L' d lat n m rj rl,
  holds (IDa d) n rj -> holds lat m rl -> exists wn out cd cl,
    max_daylight_np L L' (IDa d) lat = Ok (wn, IDa out) /\ slookup "doy" (coords out) = Some (mkCoord ["doy"%string] cd) /\
    slookup "lat" (coords out) = Some (mkCoord ["lat"%string] cl) /\
    (forall k, (k < n)%nat -> is (get cd [k]) (rj k) <-> fmt32 (rj k)) /\
    (kind_of lat <> KNd -> forall k, (k < m)%nat -> is (get cl [k]) (rl k) <-> fmt32 (rl k)).
Proof. exact c103_refuted. Qed.
Print Assumptions C103_labels_refuted.

(** days 1 and 182; latitudes -30 and 40.1, which is not a single precision number *)
Definition ex_days : inp b64 := IDa (mkDa ["t"%string] (vec B754_nan [b64_ofZ 1; b64_ofZ 182]) [] [] None).
Definition ex_lat : b64 := b64_dec 401 1.
Definition ex_lats : inp b64 := IDa (mkDa ["y"%string] (vec B754_nan [b64_ofZ (-30); ex_lat]) [] [] None).
Lemma small_big x : Rabs x <= 1024 -> Rabs x <= big32.
Proof. intros H. apply Rle_trans with (1 := H). change 1024 with (bpow radix2 10). apply bpow_le. lia. Qed.
Lemma ex_days_hold : holds ex_days 2 (fun k => if Nat.eqb k 0 then 1 else 182).
Proof.
  split; [reflexivity|]. intros k Hk. destruct k as [|[|k]]; [| |lia]; cbn [ex_days as_arr dat vec get hd nth Nat.eqb];
    (split; [apply ofZ_exact; lia|apply small_big; rewrite Rabs_right; lra]).
Qed.
Lemma ex_lat_is : is ex_lat (B2R ex_lat) /\ 40 < B2R ex_lat < 41 /\ ~ fmt32 (B2R ex_lat).
Proof.
  assert (F : is_finite ex_lat = true) by (vm_compute; reflexivity). split; [split; auto|].
  assert (G : 40 < B2R ex_lat < 41).
  { pose proof (lt_is (b64_ofZ 40) ex_lat _ _ (ofZ_exact 40 ltac:(lia)) (conj F eq_refl)) as A.
    pose proof (lt_is ex_lat (b64_ofZ 41) _ _ (conj F eq_refl) (ofZ_exact 41 ltac:(lia))) as B.
    replace (Bltb (b64_ofZ 40) ex_lat) with true in A by (vm_compute; reflexivity).
    replace (Bltb ex_lat (b64_ofZ 41)) with true in B by (vm_compute; reflexivity).
    destruct (Rlt_bool_spec 40 (B2R ex_lat)), (Rlt_bool_spec (B2R ex_lat) 41); try discriminate. lra. }
  split; [exact G|]. intros H. apply rn32_id in H.
  assert (Hb : Rabs (B2R ex_lat) <= big32) by (apply small_big; rewrite Rabs_right; lra).
  pose proof (eq_is _ _ _ _ (to_single_is ex_lat _ (conj F eq_refl) Hb) (conj F eq_refl)) as A. rewrite H in A.
  replace (Beqb (to_single ex_lat) ex_lat) with false in A by (vm_compute; reflexivity).
  destruct (Req_bool_spec (B2R ex_lat) (B2R ex_lat)); [discriminate|congruence].
Qed.
Example C103_example :
  holds ex_days 2 (fun k => if Nat.eqb k 0 then 1 else 182) /\
  holds ex_lats 2 (fun k => if Nat.eqb k 0 then -30 else B2R ex_lat) /\ kind_of ex_lats <> KNd /\ ~ fmt32 (B2R ex_lat).
Proof.
  split; [exact ex_days_hold|]. destruct ex_lat_is as (E & G & Nf). split; [|split; [discriminate|exact Nf]].
  split; [reflexivity|]. intros k Hk. destruct k as [|[|k]]; [| |lia]; cbn [ex_lats as_arr dat vec get hd nth Nat.eqb]; split.
  - apply ofZ_exact. lia.
  - apply small_big. rewrite Rabs_left; lra.
  - exact E.
  - apply small_big. rewrite Rabs_right; lra.
Qed.

(** C104.  Lists, scalars and DataArrays that agree after rounding to single precision give the same result, labels and warning. *)
Theorem C104_single_precision :
  forall L L' jday jday' lat lat',
  same_single jday jday' -> same_single lat lat' -> max_daylight_np L L' jday lat = max_daylight_np L L' jday' lat'.
Proof. exact c104_single. Qed.
Print Assumptions C104_single_precision.

(** C104.  The warnings are about the numbers the function works with ([seen]: rounded unless an ndarray). *)
Theorem C104_warnings :
  forall L L' jday lat n m rj rl,
  holds jday n rj -> holds lat m rl -> exists wn out,
    max_daylight_np L L' jday lat = Ok (wn, out) /\ shp (as_arr out) = [n; m] /\
    (wn = Some WLimited <-> forall k, (k < m)%nat -> 55 < Rabs (seen lat rl k) <= 66) /\
    (wn = Some WImpossible <-> (0 < m)%nat /\ forall k, (k < m)%nat -> 66 < Rabs (seen lat rl k)).
Proof. exact c104_warnings. Qed.
Print Assumptions C104_warnings.

(** C104.  Intended: an ndarray and a list of the same numbers give the same answer.  Refuted by the latitude 66.000001, whatever the
    days: the array draws the warning for latitudes above 66, the list the one for latitudes up to 66. *)
Theorem C104_container_refuted :
  forall L L' jday n rj,
  holds jday n rj -> exists o o',
    max_daylight_np L L' jday (INd lat66s) = Ok (Some WImpossible, o) /\ max_daylight_np L L' jday (IList lat66s) = Ok (Some WLimited, o').
Proof. exact c104_refuted. Qed.
Print Assumptions C104_container_refuted.

(** two different lists that agree in single precision *)
Example C104_example :
  holds ex_days 2 (fun k => if Nat.eqb k 0 then 1 else 182) /\
  same_single (IList lat66s) (IList (vec B754_nan [b64_ofZ 66])) /\ Beqb lat66 (b64_ofZ 66) = false.
Proof.
  split; [exact ex_days_hold|]. split; [|vm_compute; reflexivity].
  split; [reflexivity|]. split; [discriminate|]. split; [reflexivity|]. intros i Hi. inversion Hi as [|a b k s Ha Hb]; subst. inversion Hb; subst.
  replace a with 0%nat by lia. cbn [as_arr lat66s vec get hd nth].
  apply B2R_Bsign_inj; try (vm_compute; reflexivity). 
Qed.

(** C104.  Precision of the values: with two arguments that are not ndarrays every value is a single precision number; with an
    ndarray among them every value is the double precision product of 24/pi and an arc cosine taken in double precision; with two
    ndarrays the whole result and the warning are those of the double precision function (C33, C34). *)
Theorem C104_precision :
  forall L L' jday lat n m rj rl,
  holds jday n rj -> holds lat m rl -> exists wn out,
    max_daylight_np L L' jday lat = Ok (wn, out) /\ shp (as_arr out) = [n; m] /\
    (kind_of jday <> KNd -> kind_of lat <> KNd -> forall i j, (i < n)%nat -> (j < m)%nat -> exists z : b32, get (as_arr out) [i; j] = up z) /\
    (kind_of jday = KNd \/ kind_of lat = KNd -> forall i j, (i < n)%nat -> (j < m)%nat -> exists y,
       get (as_arr out) [i; j] = Bmult mode_NE (Bdiv mode_NE (b64_ofZ 24) (@npi _ (NumB L))) (m_acos L y)) /\
    (kind_of jday = KNd -> kind_of lat = KNd -> @max_daylight _ (NumB L) jday lat = Ok (wn, out)).
Proof. exact c104_precision. Qed.
Print Assumptions C104_precision.

(** C104.  Arguments of more than one dimension are rejected; with the days in a DataArray so are scalars. *)
Theorem C104_ranks :
  forall L L' jday lat,
  ((1 < ndim (as_arr jday))%nat \/ (1 < ndim (as_arr lat))%nat -> max_daylight_np L L' jday lat = Err ValueError) /\
  (forall d, jday = IDa d -> ndim (dat d) <> 1%nat \/ ndim (as_arr lat) <> 1%nat -> max_daylight_np L L' jday lat = Err ValueError).
Proof. intros L L' jday lat. split; [apply c104_ranks|]. intros d ->. apply c104_rejected. Qed.
Print Assumptions C104_ranks.
Example C104_example_ranks : ndim (as_arr (IFloat ex_lat)) = 0%nat /\ kind_of ex_days <> KNd.
Proof. split; [reflexivity|discriminate]. Qed.
