(** Public theorems on relhum with arguments of different kinds. *)
From Coq Require Import Reals List Bool Arith ZArith Lra Lia String.
From Verif Require Import PyBase Num NumFacts Arr ArrFacts XrFacts Spec SpecMeteo CellFacts RelhumFacts Meteo RelhumMix RelhumMixFacts MeteoApi2 PropertiesMeteo.
Import ListNotations.
Local Open Scope R_scope.

(** C99.  relhum with any mixture of DataArrays on one grid, arrays or lists of its shape, and single numbers ([mixable]; a single
    number counts for every cell, [cell]).  With finite temperatures the call never fails; the result has the shape of the grid and is
    a DataArray exactly when some argument is one, with the dimensions of every DataArray among the arguments, labels that agree with
    theirs, and only the three documented attributes; each number is the documented formula. *)
Theorem C99_any_kinds :
  forall E, table_function E ->
  forall s (t w p : inp fl), mixable s [t; w; p] -> (shp (as_arr t) = [] -> exists i, inb s i) -> (forall i, inb s i -> finite (cell t i)) ->
  exists r, relhum t w p = Ok r /\ shp (as_arr r) = s /\ is_da r = is_da t || is_da w || is_da p /\
    (forall d, r = IDa d -> attrs d = rh_attrs /\ forall x, In (IDa x) [t; w; p] -> dims d = dims x /\ labels_agree d x = true) /\
    forall i x a b, inb s i -> cell t i = Fin x -> cell w i = Fin a -> cell p i = Fin b ->
      get (as_arr r) i = Fin (Rmax (100 * (a * (b - 0.378 * E x) / (0.622 * E x))) 0.0001).
Proof. exact c99_kinds. Qed.
Print Assumptions C99_any_kinds.

(** C99.  Whatever the kinds, one NaN among the temperatures makes the whole call fail *)
Theorem C99_any_kinds_nan :
  forall (t w p : inp fl) i,
  inb (shp (as_arr t)) i -> get (as_arr t) i = NaN -> (forall j, inb (shp (as_arr t)) j -> get (as_arr t) j = NaN \/ finite (get (as_arr t) j)) ->
  relhum t w p = Err IndexError.
Proof. exact c99_nan. Qed.
Print Assumptions C99_any_kinds_nan.

Example C99_example :
  let t := IFloat (Fin 300) in let w := IDa (ex_d 0.01 0.02 0 0.001) in let p := INd (ex_a 100000 90000 80000 1000) in
  table_function Esat /\ mixable [2; 2]%nat [t; w; p] /\ (exists i, inb [2; 2]%nat i) /\ (forall i, inb [2; 2]%nat i -> finite (cell t i)) /\
  relhum (IDa (ex_d 300 280 100 400)) w (IDa (ex_d 100000 90000 80000 1000)) = rmap IDa (relhum_xr (ex_d 300 280 100 400) (ex_d 0.01 0.02 0 0.001) (ex_d 100000 90000 80000 1000)).
Proof.
  cbv zeta. split; [apply Esat_table|]. split; [|split; [exists [0; 0]%nat; repeat constructor|split; [intros i _; exists 300; reflexivity|apply relhum_da]]].
  split; [|split].
  - intros x [<-|[<-|[<-|[]]]]; cbn; auto.
  - intros d e [H|[H|[H|[]]]] [H'|[H'|[H'|[]]]]; try discriminate. injection H as <-. injection H' as <-. apply ex_same_frame.
  - eexists. split; [right; left; reflexivity|]. reflexivity.
Qed.
