(** C113: relhum_ice and relhum_water compared with each other, with temperature and with zero. *)
From Coq Require Import Reals List Bool Arith ZArith Lra Lia String.
From Verif Require Import PyBase Num NumFacts Arr ArrFacts CellFacts Hybrid Meteo SpecMeteo MeteoFacts MeteoCells MeteoApi MeteoApi2 RelhumOrder.
Import ListNotations.
Local Open Scope R_scope.

(** C113.  The same moist air: between 154.49 K and the freezing point the humidity over ice exceeds the humidity over
    water, above the freezing point it is below it; in air colder than 154.48 K it is below it again. *)
Theorem C113_ice_and_water_ordered :
  forall (t w p out out' : inp fl),
  iw_args t w p -> relhum_ice t w p = Ok out -> relhum_water t w p = Ok out' ->
  forall i x a b, inb (shp (as_arr t)) i -> get (as_arr t) i = Fin x -> get (as_arr w) i = Fin a -> get (as_arr p) i = Fin b ->
    35.86 < x -> 0 < a -> 0.378 * magnus_ice x < 0.01 * b -> 0.378 * magnus_water x < 0.01 * b ->
    exists vi vw, get (as_arr out) i = Fin vi /\ get (as_arr out') i = Fin vw /\
      (154.49 <= x < 273.15 -> vw < vi) /\ (273.15 < x -> vi < vw) /\ (x <= 154.48 -> vi < vw).
Proof. exact c113_ice_water. Qed.
Print Assumptions C113_ice_and_water_ordered.

(** C113.  At the same mixing ratio and pressure warmer air is less humid, strictly, over both surfaces; the two cells may
    lie in one call or in two. *)
Theorem C113_falls_with_temperature :
  forall ice (t w p t' w' p' out out' : inp fl),
  iw_args t w p -> iw_args t' w' p' -> relhum_iw ice t w p = Ok out -> relhum_iw ice t' w' p' = Ok out' ->
  forall i j x y a b, inb (shp (as_arr t)) i -> inb (shp (as_arr t')) j -> get (as_arr t) i = Fin x -> get (as_arr t') j = Fin y ->
    get (as_arr w) i = Fin a -> get (as_arr w') j = Fin a -> get (as_arr p) i = Fin b -> get (as_arr p') j = Fin b ->
    pole ice < x -> x < y -> 0 < a -> 0.378 * magnus ice y < 0.01 * b ->
    exists v v', get (as_arr out) i = Fin v /\ get (as_arr out') j = Fin v' /\ v' < v.
Proof. exact c113_temperature. Qed.
Print Assumptions C113_falls_with_temperature.

(** C113.  Refuted: the humidity of moist air is not always positive.  Where 0.378 times the saturation vapour pressure
    exceeds the pressure the result is a negative number, with no warning and no error. *)
Theorem C113_never_negative_refuted :
  forall ice (t w p : inp fl),
  iw_args t w p -> exists out, relhum_iw ice t w p = Ok out /\
  forall i x a b, inb (shp (as_arr t)) i -> get (as_arr t) i = Fin x -> get (as_arr w) i = Fin a -> get (as_arr p) i = Fin b ->
    pole ice < x -> 0 < a -> 0.01 * b < 0.378 * magnus ice x -> exists v, get (as_arr out) i = Fin v /\ v < 0.
Proof. exact c113_negative. Qed.
Print Assumptions C113_never_negative_refuted.

(** Air at 250 K, at 150 K and at 300 K, at 500 hPa; 240 K against 250 K; 270 K at 1 hPa (the stratopause). *)
Example C113_example :
  let a l := IList (vec NaN l) in
  iw_args (a [Fin 250; Fin 150; Fin 300]) (a [Fin 0.001; Fin 0.001; Fin 0.001]) (a [Fin 50000; Fin 50000; Fin 50000]) /\
  (forall x, x = 250 \/ x = 150 \/ x = 300 -> forall ice, pole ice < x /\ 0.378 * magnus ice x < 0.01 * 50000) /\
  iw_args (a [Fin 270]) (a [Fin 0.001]) (a [Fin 100]) /\
  (forall ice, pole ice < 270 /\ 0.01 * 100 < 0.378 * magnus ice 270).
Proof.
  cbv zeta. split; [repeat split|]. split; [|split; [repeat split|]].
  - intros x Hx ice. assert (P : pole ice < x) by (destruct ice; cbn [pole]; lra). split; auto. apply magnus_upto_300. split; auto. lra.
  - intros ice. split; [destruct ice; cbn [pole]; lra|apply stratopause].
Qed.
