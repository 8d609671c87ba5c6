(** Published statements about the scalar meteorology functions (C26-C37, C68, C69). *)
From Coq Require Import Reals List Bool Arith ZArith Lra Lia String.
From Verif Require Import PyBase Num NumFacts Arr ArrFacts XrFacts Spec SpecMeteo Hybrid Meteo ListFacts CellFacts MeteoFacts RelhumFacts MeteoCells MeteoApi MeteoApi2.
Import ListNotations.
Local Open Scope R_scope.

(** ** inputs used in the examples: a 2 x 2 labelled grid and its values as an array *)
Definition ex_a (w x y z : R) : arr fl := mkArr [2; 2]%nat (fun i => match i with [O; O] => Fin w | [O; _] => Fin x | [_; O] => Fin y | _ => Fin z end).
Definition ex_d (w x y z : R) : da fl :=
  mkDa ["lat"; "lon"]%string (ex_a w x y z) [("lat"%string, mkCoord ["lat"%string] (vec NaN [Fin 10; Fin 20]))] [] None.
Lemma ex_same_frame a b c d a' b' c' d' : same_frame (ex_d a b c d) (ex_d a' b' c' d').
Proof.
  assert (N : NoDup ["lat"; "lon"]%string) by (repeat constructor; cbn; intuition discriminate).
  split; [split; [reflexivity|exact N]|]. split; [split; [reflexivity|exact N]|]. split; [reflexivity|]. split; [reflexivity|].
  unfold labels_agree. cbn. unfold index_labels. cbn. rewrite !reqb_true by reflexivity. reflexivity.
Qed.

(** C26. Dew point: range, equality at saturation, the Clausius-Clapeyron relation, zero and negative humidity *)
Theorem C26_dewtemp_bounds :
  forall (t rh : inp fl),
  compat t rh -> exists out, dewtemp t rh = Ok out /\ shp (as_arr out) = shp (as_arr t) /\
  forall i tk h, inb (shp (as_arr t)) i -> get (as_arr t) i = Fin tk -> get (as_arr rh) i = Fin h -> 0 < tk < 1320 ->
    (0 < h <= 100 -> exists d, get (as_arr out) i = Fin d /\ 0 < d <= tk /\ (d = tk <-> h = 100) /\
       / d = / tk - ln (h * 0.01) / lhv_over_gc tk) /\
    (h = 0 -> get (as_arr out) i = Fin 0) /\ (h < 0 -> get (as_arr out) i = NaN).
Proof. exact c26_lemma. Qed.
Print Assumptions C26_dewtemp_bounds.

(** C26. Strictly increasing in humidity *)
Theorem C26_dewtemp_increasing :
  forall (t rh rh' out out' : inp fl),
  compat t rh -> compat t rh' -> dewtemp t rh = Ok out -> dewtemp t rh' = Ok out' ->
  forall i tk h h', inb (shp (as_arr t)) i -> get (as_arr t) i = Fin tk -> get (as_arr rh) i = Fin h -> get (as_arr rh') i = Fin h' ->
    0 < tk < 1320 -> 0 < h < h' -> h' <= 100 ->
    exists d d', get (as_arr out) i = Fin d /\ get (as_arr out') i = Fin d' /\ d < d'.
Proof. exact c26_monotone. Qed.
Print Assumptions C26_dewtemp_increasing.

(** C26. A DataArray cannot be combined with another container *)
Theorem C26_dewtemp_types :
  forall (t rh : inp fl),
  (kind_of t = KDa <-> kind_of rh <> KDa) -> dewtemp t rh = Err TypeError.
Proof. exact c26_types. Qed.
Print Assumptions C26_dewtemp_types.

Example C26_example : compat (IDa (ex_d 300 280 260 240)) (IDa (ex_d 10 50 100 0)) /\
  compat (IList (ex_a 300 280 260 240)) (INd (ex_a 10 50 100 0)) /\ inb (shp (ex_a 300 280 260 240)) [0; 1]%nat /\
  get (ex_a 300 280 260 240) [0; 1]%nat = Fin 280 /\ 0 < 280 < 1320 /\ 0 < 10 < 50 /\ 50 <= 100.
Proof. split; [apply ex_same_frame|]. split; [reflexivity|]. split; [repeat constructor|]. split; [reflexivity|lra]. Qed.

(** C27. Different containers *)
Theorem C27_heat_index_types :
  forall (t rh : inp fl) alt,
  kind_of t <> kind_of rh -> heat_index t rh alt = Err TypeError.
Proof. exact c27_types. Qed.
Print Assumptions C27_heat_index_types.

(** C27. Different shapes *)
Theorem C27_heat_index_shapes :
  forall (t rh : inp fl) alt,
  kind_of t = kind_of rh -> shp (as_arr t) <> shp (as_arr rh) -> heat_index t rh alt = Err ValueError.
Proof. exact c27_shapes. Qed.
Print Assumptions C27_heat_index_shapes.

(** C27. Humidity range and warning, exactly. range_rejects: some value outside 0..100 that the check sees; looks_fractional: every value at most 1 *)
Theorem C27_heat_index_checks :
  forall (t rh : inp fl) alt,
  kind_of t = kind_of rh -> compat rh t -> ravel (as_arr rh) <> [] ->
  (range_rejects rh -> heat_index t rh alt = Err ValueError) /\
  (~ range_rejects rh -> exists w out, heat_index t rh alt = Ok (w, out) /\ (w = true <-> looks_fractional rh) /\
     same_container (kind_of t) (kind_of out) /\ shp (as_arr out) = shp (as_arr t)).
Proof. exact c27_checks. Qed.
Print Assumptions C27_heat_index_checks.

(** C27. "Any humidity outside 0..100 raises ValueError" is false for non-DataArrays: one NaN hides every other value *)
Theorem C27_heat_index_range_check_refuted :
  forall (a b : arr fl) alt,
  shp a = shp b -> In NaN (ravel b) -> exists out, heat_index (INd a) (INd b) alt = Ok (false, INd out).
Proof. exact c27_nan_hides. Qed.
Print Assumptions C27_heat_index_range_check_refuted.

Example C27_example : compat (IDa (ex_d 90 10 50 100)) (IDa (ex_d 80 85 90 95)) /\ ravel (as_arr (IDa (ex_d 90 10 50 100))) <> [] /\
  ~ range_rejects (IDa (ex_d 90 10 50 100)) /\ range_rejects (IDa (ex_d 90 10 50 100.5)) /\ looks_fractional (INd (ex_a 0.9 0.1 0.5 1)).
Proof.
  split; [apply ex_same_frame|]. split; [discriminate|]. split; [|split].
  - intros [(x & H & [O|O]) _]; cbn in H; destruct H as [<-|[<-|[<-|[<-|[]]]]]; cbn in O; unfold rltb in O; destruct (Rlt_dec _ _); try discriminate; lra.
  - split; [|left; reflexivity]. exists (Fin 100.5). split; [cbn; auto|]. right. cbn. apply rltb_true. lra.
  - split; [exists (Fin 0.9); split; [cbn; auto|discriminate]|]. split; [|right; cbn; intuition discriminate].
    intros x H. right. cbn in H. destruct H as [<-|[<-|[<-|[<-|[]]]]]; cbn; apply rleb_true; lra.
Qed.
Example C27_refuted_example : In NaN (ravel (vec NaN [NaN; Fin 150])) /\ shp (vec NaN [Fin 80; Fin 90]) = shp (vec NaN [NaN; Fin 150]).
Proof. split; [cbn; auto|reflexivity]. Qed.

(** C28. The value in every cell *)
Theorem C28_heat_index_formula :
  forall (t rh : inp fl) alt w out,
  kind_of t = kind_of rh -> compat rh t -> ravel (as_arr rh) <> [] -> heat_index t rh alt = Ok (w, out) ->
  forall i x h, inb (shp (as_arr t)) i -> get (as_arr t) i = Fin x -> get (as_arr rh) i = Fin h ->
    exists v, get (as_arr out) i = Fin v /\ index_value alt x h v.
Proof. exact c28_lemma. Qed.
Print Assumptions C28_heat_index_formula.

(** all three cases of index_value occur *)
Example C28_example : dry_window 85 10 /\ humid_window 85 90 /\ (~ dry_window 85 50 /\ ~ humid_window 85 50) /\
  base_index false 30 50 = 30 /\ base_index false 85 50 = regression false 85 50 /\ base_index false 60 50 = (61 + 1.2 * (60 - 68) + 0.094 * 50 + 60) / 2.
Proof.
  unfold dry_window, humid_window, base_index, simple_index, critical. split; [lra|]. split; [lra|]. split; [split; lra|].
  repeat match goal with |- context [Rlt_dec ?a ?b] => destruct (Rlt_dec a b); try lra end.
  repeat match goal with |- context [Rle_dec ?a ?b] => destruct (Rle_dec a b); try lra end.
Qed.

(** C29. A call where the simple average applies (below 79) and yet is not returned *)
Theorem C29_adjusts_only_regression_refuted :
  exists t h w v, heat_index (IFloat (Fin t)) (IFloat (Fin h)) false = Ok (w, IFloat (Fin v)) /\
  0 <= h <= 100 /\ simple_index t h < 79 /\ v <> simple_index t h.
Proof. exact c29_refuted. Qed.
Print Assumptions C29_adjusts_only_regression_refuted.

(** C29. Exactly when this happens: below 79 in the dry window, 80 to 81.2 F, humidity under 13 percent; the result is too low by the dry adjustment *)
Theorem C29_adjusted_simple_average :
  forall alt x h v,
  index_value alt x h v -> 0 <= h <= 100 -> simple_index x h < critical alt ->
  (v <> simple_index x h <-> alt = false /\ 80 <= x /\ h < 13) /\
  (v <> simple_index x h -> v = simple_index x h - dry_adjustment x h /\ v < simple_index x h /\ x < 81.2).
Proof. exact c29_characterised. Qed.
Print Assumptions C29_adjusted_simple_average.

Example C29_example : exists v, hi_cell false (Fin 80) (Fin 10) = Fin v /\ index_value false 80 10 v /\ simple_index 80 10 < critical false.
Proof.
  destruct (hi_cell_fin false 80 10) as (v & E & I). exists v. split; auto. split; auto. unfold simple_index, critical. destruct (Rlt_dec 80 40); lra.
Qed.

(** C30. The unique piecewise linear function through the table, constant outside it, is positive, non-decreasing and continuous (with a Lipschitz constant); relhum is its documented formula and never fails on finite temperatures *)
Theorem C30_relhum_table :
  forall E,
  table_function E ->
  (forall t, 0 < E t) /\ (forall s t, s <= t -> E s <= E t) /\ (forall s t, Rabs (E t - E s) <= 3780 * Rabs (t - s)) /\
  forall t w p r, relhum_call t w p r -> (forall i, inb (shp t) i -> finite (get t i)) ->
    exists out, r = Ok out /\ shp out = shp t /\ forall i x a b, inb (shp t) i -> get t i = Fin x -> get w i = Fin a -> get p i = Fin b ->
      get out i = Fin (Rmax (100 * (a * (b - 0.378 * E x) / (0.622 * E x))) 0.0001).
Proof. exact c30_lemma. Qed.
Print Assumptions C30_relhum_table.

(** C30. A NaN temperature makes the whole call fail *)
Theorem C30_relhum_nan :
  forall (t w p : arr fl) i,
  inb (shp t) i -> get t i = NaN -> (forall j, inb (shp t) j -> get t j = NaN \/ finite (get t j)) -> relhum_np t w p = Err IndexError.
Proof. exact c30_nan. Qed.
Print Assumptions C30_relhum_nan.

Example C30_example : table_function Esat /\ frame3 (ex_d 300 280 100 400) (ex_d 0.01 0.02 0 0.001) (ex_d 100000 90000 80000 1000) /\
  relhum_call (ex_a 300 280 100 400) (ex_a 0.01 0.02 0 0.001) (ex_a 100000 90000 80000 1000) (relhum_np (ex_a 300 280 100 400) (ex_a 0.01 0.02 0 0.001) (ex_a 100000 90000 80000 1000)) /\
  Esat 173.16 = 0.001403 /\ Esat 400 = 108774.
Proof.
  split; [apply Esat_table|]. split; [split; [|split; [|split]]; apply ex_same_frame|]. split; [constructor; reflexivity|]. split.
  - replace 173.16 with (173.16 + INR 0) by (cbn; lra). rewrite Esat_node by lia. cbn [nth vapour_table]. lra.
  - rewrite Esat_clip. unfold clipT. rewrite Rmax_left, Rmin_right by lra. replace 375.16 with (173.16 + INR 202) by (rewrite INR_IZR_INZ; cbn [Z.of_nat Pos.of_succ_nat Pos.succ]; lra).
    rewrite Esat_node by lia. cbn [nth vapour_table]. lra.
Qed.

(** C31. Colder, moister (w >= 0) or at higher pressure (>= 0) means at least as humid; never below 0.0001 *)
Theorem C31_relhum_monotone :
  forall t t' w w' p p' r r',
  relhum_call t w p r -> relhum_call t' w' p' r' -> shp t' = shp t ->
  (forall i, inb (shp t) i -> exists x x' a a' b b', get t i = Fin x /\ get t' i = Fin x' /\ get w i = Fin a /\ get w' i = Fin a' /\ get p i = Fin b /\ get p' i = Fin b' /\
     x' <= x /\ 0 <= a <= a' /\ b <= b' /\ 0 <= b') ->
  exists out out', r = Ok out /\ r' = Ok out' /\ forall i, inb (shp t) i ->
    exists v v', get out i = Fin v /\ get out' i = Fin v' /\ 0.0001 <= v <= v'.
Proof. exact c31_lemma. Qed.
Print Assumptions C31_relhum_monotone.

(** C31. Temperatures outside the table count as its nearest end *)
Theorem C31_relhum_clipped :
  forall t w p r t' r',
  relhum_call t w p r -> relhum_call t' w p r' -> shp t' = shp t ->
  (forall i, inb (shp t) i -> exists x a b, get t i = Fin x /\ get t' i = Fin (Rmin (Rmax x 173.16) 375.16) /\ get w i = Fin a /\ get p i = Fin b) ->
  exists out out', r = Ok out /\ r' = Ok out' /\ forall i, inb (shp t) i -> get out i = get out' i.
Proof. exact c31_clipped. Qed.
Print Assumptions C31_relhum_clipped.

Example C31_example : forall i, inb (shp (ex_a 300 280 260 240)) i ->
  exists x x' a a' b b', get (ex_a 300 280 260 240) i = Fin x /\ get (ex_a 300 270 260 240) i = Fin x' /\
    get (ex_a 0.01 0.02 0 0.001) i = Fin a /\ get (ex_a 0.01 0.02 0.01 0.002) i = Fin a' /\
    get (ex_a 100000 90000 80000 1000) i = Fin b /\ get (ex_a 100000 90001 80000 2000) i = Fin b' /\ x' <= x /\ 0 <= a <= a' /\ b <= b' /\ 0 <= b'.
Proof.
  intros i H. inversion H as [|k n r s Hk Hr]; subst. inversion Hr as [|k' n' r' s' Hk' Hr']; subst. inversion Hr'; subst.
  destruct k as [|[|k]]; [| |lia]; (destruct k' as [|[|k']]; [| |lia]); do 6 eexists; repeat (split; [reflexivity|]); lra.
Qed.

(** C32. relhum_iw true is relhum_ice, relhum_iw false is relhum_water *)
Theorem C32_relhum_iw_types :
  forall ice (t w p : inp fl),
  kind_of w <> kind_of t \/ kind_of p <> kind_of t -> relhum_iw ice t w p = Err TypeError.
Proof. exact c32_types. Qed.
Print Assumptions C32_relhum_iw_types.

Theorem C32_relhum_iw_shapes :
  forall ice (t w p : inp fl),
  kind_of w = kind_of t -> kind_of p = kind_of t ->
  shp (as_arr w) <> shp (as_arr t) \/ shp (as_arr p) <> shp (as_arr t) -> relhum_iw ice t w p = Err ValueError.
Proof. exact c32_shapes. Qed.
Print Assumptions C32_relhum_iw_shapes.

(** C32. Value in every cell above the pole of the formula *)
Theorem C32_relhum_iw_formula :
  forall ice (t w p : inp fl),
  iw_args t w p -> exists out, relhum_iw ice t w p = Ok out /\ shp (as_arr out) = shp (as_arr t) /\
  kind_of out = match kind_of t with KInt => KFloat | KList => if ice then KList else KNd | k => k end /\
  forall i x a b, inb (shp (as_arr t)) i -> get (as_arr t) i = Fin x -> get (as_arr w) i = Fin a -> get (as_arr p) i = Fin b ->
    pole ice < x -> 0.378 * magnus ice x < 0.01 * b ->
    get (as_arr out) i = Fin (100 * (a / q_sat (magnus ice x) b)).
Proof. exact c32_lemma. Qed.
Print Assumptions C32_relhum_iw_formula.

(** C32. Linear in w, 100 at saturation, increasing with pressure *)
Theorem C32_relhum_iw_laws :
  forall ice (t w p w' p' out out' : inp fl),
  iw_args t w p -> iw_args t w' p' -> relhum_iw ice t w p = Ok out -> relhum_iw ice t w' p' = Ok out' ->
  forall i x a b a' b', inb (shp (as_arr t)) i -> get (as_arr t) i = Fin x -> get (as_arr w) i = Fin a -> get (as_arr p) i = Fin b ->
    get (as_arr w') i = Fin a' -> get (as_arr p') i = Fin b' ->
    pole ice < x -> 0.378 * magnus ice x < 0.01 * b -> b <= b' ->
    exists v v', get (as_arr out) i = Fin v /\ get (as_arr out') i = Fin v' /\
      (b' = b -> forall c, a' = c * a -> v' = c * v) /\
      (a = q_sat (magnus ice x) b -> v = 100) /\
      (b < b' -> a' = a -> 0 < a -> v < v').
Proof. exact c32_laws. Qed.
Print Assumptions C32_relhum_iw_laws.

(** C32. Both agree at 273.15 K *)
Theorem C32_relhum_iw_freezing :
  forall (t w p out out' : inp fl),
  iw_args t w p -> relhum_ice t w p = Ok out -> relhum_water t w p = Ok out' ->
  forall i a b, inb (shp (as_arr t)) i -> get (as_arr t) i = Fin 273.15 -> get (as_arr w) i = Fin a -> get (as_arr p) i = Fin b ->
    0.378 * 6.1128 < 0.01 * b -> get (as_arr out) i = get (as_arr out') i.
Proof. exact c32_freezing. Qed.
Print Assumptions C32_relhum_iw_freezing.

Example C32_example : iw_args (IDa (ex_d 300 280 273.15 250)) (IDa (ex_d 0.01 0.02 0 0.001)) (IDa (ex_d 100000 90000 80000 50000)) /\
  iw_args (IList (ex_a 300 280 273.15 250)) (IList (ex_a 0.01 0.02 0 0.001)) (IList (ex_a 100000 90000 80000 50000)) /\
  pole true < 273.15 /\ pole false < 273.15 /\ 0.378 * magnus true 273.15 < 0.01 * 80000 /\ 0.378 * magnus false 273.15 < 0.01 * 80000.
Proof.
  split; [|split; [|]].
  - split; [reflexivity|]. split; [reflexivity|]. repeat (split; [apply ex_same_frame|]). intros n c [H|[]]. injection H as <- <-. reflexivity.
  - repeat split.
  - unfold pole, magnus. destruct magnus_freezing as [-> ->]. lra.
Qed.

(** C33. entry v k: k-th value of argument v; count v: how many *)
Theorem C33_daylight_physical :
  forall jday lat,
  daylight_ranks jday lat -> exists wn out, max_daylight jday lat = Ok (wn, out) /\ shp (as_arr out) = [count jday; count lat] /\
  forall i j n y, entry jday i = Fin n -> entry lat j = Fin y -> -66 <= y <= 66 ->
    exists v, get (as_arr out) [i; j] = Fin v /\ 0 < v < 24 /\
      cos (PI / 24 * v) = - (tan (y * (PI / 180)) * tan (declination n)) /\
      (y = 0 -> v = 12) /\
      (forall j', entry lat j' = Fin (- y) -> get (as_arr out) [i; j'] = Fin (24 - v)).
Proof. exact c33_lemma. Qed.
Print Assumptions C33_daylight_physical.

(** C34. Rank check *)
Theorem C34_daylight_rank :
  forall jday lat,
  ((1 < ndim (as_arr jday))%nat \/ (1 < ndim (as_arr lat))%nat) \/
  (kind_of jday = KDa /\ (ndim (as_arr jday) = 0%nat \/ ndim (as_arr lat) = 0%nat)) -> max_daylight jday lat = Err ValueError.
Proof. exact c34_rank. Qed.
Print Assumptions C34_daylight_rank.

(** C34. Warnings (an empty latitude list gives the first one) *)
Theorem C34_daylight_warnings :
  forall jday lat,
  daylight_ranks jday lat -> exists wn out, max_daylight jday lat = Ok (wn, out) /\
  kind_of out = (match jday with IDa _ => KDa | _ => KNd end) /\
  (wn = Some WLimited <-> forall k, (k < count lat)%nat -> nlt (Fin 55) (nabs (entry lat k)) = true /\ nle (nabs (entry lat k)) (Fin 66) = true) /\
  (wn = Some WImpossible <-> (0 < count lat)%nat /\ forall k, (k < count lat)%nat -> nlt (Fin 66) (nabs (entry lat k)) = true).
Proof. exact c34_warnings. Qed.
Print Assumptions C34_daylight_warnings.

Example C33_C34_example : daylight_ranks (IList (vec NaN [Fin 1; Fin 182])) (IFloat (Fin 66)) /\
  entry (IList (vec NaN [Fin 1; Fin 182])) 1 = Fin 182 /\ entry (IFloat (Fin 66)) 0 = Fin 66 /\ count (IList (vec NaN [Fin 1; Fin 182])) = 2%nat /\
  (nlt (Fin 55) (nabs (Fin 66)) = true /\ nle (nabs (Fin 66)) (Fin 66) = true).
Proof.
  split; [split; [cbn; lia|]; split; [cbn; lia|discriminate]|]. split; [reflexivity|]. split; [reflexivity|]. split; [reflexivity|].
  cbn. rewrite Rabs_right by lra. split; [apply rltb_true|apply rleb_true]; lra.
Qed.

(** C35. Temperatures in Fahrenheit *)
Theorem C35_saturation_vapor_pressure :
  forall (t : inp fl) tfill,
  let out := saturation_vapor_pressure t tfill in
  shp (as_arr out) = shp (as_arr t) /\
  (forall i f, get (as_arr t) i = Fin f -> 32 < f ->
     exists v, get (as_arr out) i = Fin v /\ 0.6108 < v /\ v = tetens (celsius f) /\
       forall i' f', get (as_arr t) i' = Fin f' -> f < f' -> exists v', get (as_arr out) i' = Fin v' /\ v < v') /\
  (forall i, fahrenheit_not_above_freezing (get (as_arr t) i) -> get (as_arr out) i = tfill) /\
  (forall i, get (as_arr (actual_saturation_vapor_pressure t tfill)) i = get (as_arr out) i) /\
  shp (as_arr (actual_saturation_vapor_pressure t tfill)) = shp (as_arr t).
Proof. exact c35_lemma. Qed.
Print Assumptions C35_saturation_vapor_pressure.

Example C35_example : get (as_arr (INd (ex_a 50 32 70 (-10)))) [0; 0]%nat = Fin 50 /\ 32 < 50 < 70 /\
  fahrenheit_not_above_freezing (get (as_arr (INd (ex_a 50 32 70 (-10)))) [0; 1]%nat) /\ fahrenheit_not_above_freezing NaN.
Proof. split; [reflexivity|]. split; [lra|]. cbn. split; [lra|auto]. Qed.

(** C36. Slope against the derivative of the vapour pressure *)
Theorem C36_slope_is_derivative :
  forall (t : inp fl) tfill,
  let out := saturation_vapor_pressure_slope t tfill in
  shp (as_arr out) = shp (as_arr t) /\
  (forall i f, get (as_arr t) i = Fin f -> 32 < f ->
     exists v d, get (as_arr out) i = Fin v /\ derivable_pt_lim tetens (celsius f) d /\
       v = 4096 / (17.27 * 237.3) * d /\ 0 < d /\ Rabs (v - d) <= 0.0006 * d) /\
  (forall i, fahrenheit_not_above_freezing (get (as_arr t) i) -> get (as_arr out) i = tfill).
Proof. exact c36_lemma. Qed.
Print Assumptions C36_slope_is_derivative.

Example C36_example : get (as_arr (INd (ex_a 50 32 70 (-10)))) [1; 0]%nat = Fin 70 /\ 32 < 70.
Proof. split; [reflexivity|lra]. Qed.

(** C37. *)
Theorem C37_psychrometric_linear :
  forall (p : inp fl),
  let out := psychrometric_constant p in
  kind_of out = (match p with IDa _ => KDa | _ => KNd end) /\ shp (as_arr out) = shp (as_arr p) /\
  (forall i x, get (as_arr p) i = Fin x -> get (as_arr out) i = Fin (0.00066474 * x)) /\
  (forall d, p = IDa d -> exists d', out = IDa d' /\ dims d' = dims d /\ coords d' = coords d) /\
  forall q c i x, get (as_arr p) i = Fin x -> get (as_arr q) i = Fin (c * x) ->
    exists v, get (as_arr out) i = Fin v /\ get (as_arr (psychrometric_constant q)) i = Fin (c * v).
Proof. exact c37_lemma. Qed.
Print Assumptions C37_psychrometric_linear.

Example C37_example : get (as_arr (IDa (ex_d 80 90 100 101))) [0; 1]%nat = Fin 90 /\ get (as_arr (INd (ex_a 160 180 200 202))) [0; 1]%nat = Fin (2 * 90).
Proof. split; [reflexivity|]. cbn. apply f_equal. lra. Qed.

(** C68. A column of temperatures and a row of humidities of any lengths is accepted and gives the outer table *)
Theorem C68_dewtemp_shape_check_refuted :
  forall n m (f g : list nat -> fl),
  exists out,
  dewtemp (INd (mkArr [n; 1%nat] f)) (INd (mkArr [m] g)) = Ok (INd out) /\ shp out = [n; m] /\
  forall i j tk h, (i < n)%nat -> (j < m)%nat -> f [i; 0%nat] = Fin tk -> g [j] = Fin h -> 0 < tk < 1320 -> 0 < h <= 100 ->
    exists d, get out [i; j] = Fin d /\ / d = / tk - ln (h * 0.01) / lhv_over_gc tk.
Proof. exact c68_dewtemp. Qed.
Print Assumptions C68_dewtemp_shape_check_refuted.

(** C68. relhum likewise *)
Theorem C68_relhum_shape_check_refuted :
  forall n m (f g h : list nat -> fl),
  (forall i, (i < n)%nat -> finite (f [i; 0%nat])) -> exists out,
  relhum_np (mkArr [n; 1%nat] f) (mkArr [m] g) (mkArr [m] h) = Ok out /\ shp out = [n; m].
Proof. exact c68_relhum. Qed.
Print Assumptions C68_relhum_shape_check_refuted.

Example C68_example : finite (Fin 300) /\ 0 < 300 < 1320 /\ 0 < 50 <= 100.
Proof. split; [exists 300; reflexivity|lra]. Qed.

(** C69. With w stored in the other dimension order the result carries t's dimensions but w's layout: the cell labelled (i, j) holds the humidity of cell (j, i) *)
Theorem C69_relhum_iw_labels_refuted :
  forall ice n (x y : string) (ft fw fp : list nat -> fl),
  x <> y ->
  let t := mkDa [x; y] (mkArr [n; n] ft) [] [] None in
  let w := mkDa [y; x] (mkArr [n; n] fw) [] [] None in
  let p := mkDa [x; y] (mkArr [n; n] fp) [] [] None in
  exists d, relhum_iw ice (IDa t) (IDa w) (IDa p) = Ok (IDa d) /\ dims d = [x; y] /\ shp (dat d) = [n; n] /\
    forall i j, get (dat d) [i; j] = rh_cell (if ice then est_ice else est_water) (ft [j; i]) (fw [i; j]) (fp [j; i]).
Proof. exact c69_lemma. Qed.
Print Assumptions C69_relhum_iw_labels_refuted.

(** cell (x=0, y=1) should use t[0, 1] but uses t[1, 0] *)
Example C69_example : "lat"%string <> "lon"%string /\ get (ex_a 300 280 260 240) [0; 1]%nat <> get (ex_a 300 280 260 240) [1; 0]%nat.
Proof. split; [discriminate|]. cbn. intros H. injection H. lra. Qed.
