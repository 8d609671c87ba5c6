(** C117: what DataArray results of the meteorology functions say about themselves. *)
From Coq Require Import Reals List Bool Arith ZArith Lra Lia String.
From Verif Require Import PyBase Num NumFacts Arr ArrFacts XrFacts Spec SpecMeteo Hybrid Meteo CellFacts MeteoApi MeteoApi2 MeteoAttrs PropertiesMeteo.
Import ListNotations.
Local Open Scope string_scope.

(** C117.  Whatever the arguments, a DataArray returned by dewtemp, heat_index or max_daylight carries exactly these attributes *)
Theorem C117_descriptions :
  forall (T : Type) (N : Num T) (x y : inp T) alt w d,
  (dewtemp x y = Ok (IDa d) -> attrs d = [("long_name", "dew point temperature"); ("units", "Kelvin")]) /\
  (heat_index x y alt = Ok (w, IDa d) ->
     attrs d = [("long_name", "heat index: NWS"); ("units", "F"); ("www", "https://www.wpc.ncep.noaa.gov/html/heatindex_equation.shtml");
                ("info", "appropriate for shady locations with no wind"); ("tag", "heat_index: (Steadman+t)*0.5 and Rothfusz")]) /\
  forall w, max_daylight x y = Ok (w, IDa d) ->
     attrs d = [("long_name", "maximum daylight: FAO_56"); ("units", "hours/day"); ("url", "http://www.fao.org/docrep/X0490E/x0490e07.htm");
                ("info", "FAO 56; EQN 34; max_daylight")].
Proof. intros T N x y alt w d. split; [apply c117_dewtemp|]. split; [apply c117_heat_index|]. intros w'. apply c117_daylight. Qed.
Print Assumptions C117_descriptions.

(** C117.  The functions of one DataArray return its dimensions, coordinates and shape, and attributes of their own; the argument's are dropped *)
Theorem C117_one_argument :
  forall (T : Type) (N : Num T) (x : da T) tfill,
  exists p s a l,
  psychrometric_constant (IDa x) = IDa p /\ saturation_vapor_pressure (IDa x) tfill = IDa s /\
  actual_saturation_vapor_pressure (IDa x) tfill = IDa a /\ saturation_vapor_pressure_slope (IDa x) tfill = IDa l /\
  (forall r, In r [p; s; a; l] -> dims r = dims x /\ coords r = coords x /\ shp (dat r) = shp (dat x)) /\
  attrs p = [("long_name", "psychrometric constant"); ("units", "kPa/C"); ("url", "https://www.fao.org/docrep/X0490E/x0490e07.htm"); ("info", "FAO 56; EQN 8; psychrometric_constant")] /\
  attrs s = [("long_name", "saturation vapor pressure"); ("units", "kPa"); ("url", "https://www.fao.org/docrep/X0490E/x0490e07.htm"); ("info", "FAO 56; EQN 11; saturation_vapor_pressure")] /\
  attrs a = [("long_name", "actual saturation vapor pressure via Tdew"); ("units", "kPa"); ("url", "https://www.fao.org/docrep/X0490E/x0490e07.htm"); ("info", "FAO 56; EQN 14; actual_saturation_vapor_pressure")] /\
  attrs l = [("long_name", "slope saturation vapor pressure curve"); ("units", "kPa/C"); ("url", "https://www.fao.org/docrep/X0490E/x0490e07.htm"); ("info", "FAO 56; EQN 13; saturation_vapor_pressure_slope")].
Proof. exact @c117_one. Qed.
Print Assumptions C117_one_argument.

(** C117.  Temperature and humidity on one grid: dew point and heat index are on that grid *)
Theorem C117_two_arguments :
  forall (T : Type) (N : Num T) (t rh : da T),
  same_frame rh t -> same_frame t rh ->
  (exists d, dewtemp (IDa t) (IDa rh) = Ok (IDa d) /\ dims d = dims t /\ shp (dat d) = shp (dat t) /\
     forall k c, slookup k (coords t) = Some c -> slookup k (coords d) = Some c) /\
  forall alt w d, heat_index (IDa t) (IDa rh) alt = Ok (w, IDa d) -> dims d = dims t /\ shp (dat d) = shp (dat t) /\
     forall k c, slookup k (coords rh) = Some c -> slookup k (coords d) = Some c.
Proof. exact @c117_grid. Qed.
Print Assumptions C117_two_arguments.

(** C117 does not extend to relhum_ice ([ice] = true) and relhum_water: their results carry the temperature's attributes, units included *)
Theorem C117_relhum_iw_units_refuted :
  forall (T : Type) (N : Num T) ice (t w p : da T) d,
  relhum_iw ice (IDa t) (IDa w) (IDa p) = Ok (IDa d) -> attrs d = attrs t /\ dims d = dims t /\ coords d = coords t.
Proof. exact @c117_iw. Qed.
Print Assumptions C117_relhum_iw_units_refuted.

Definition in_kelvin (d : da fl) : da fl := mkDa (dims d) (dat d) (coords d) [("units", "K")] (daname d).
Example C117_example : same_frame (ex_d 10 50 100 0) (ex_d 300 280 260 240) /\ same_frame (ex_d 300 280 260 240) (ex_d 10 50 100 0) /\
  (exists w d, max_daylight (IDa (mkDa ["t"] (vec NaN [Fin 1; Fin 2]) [] [] None)) (INd (vec NaN [Fin 10])) = Ok (w, IDa d)) /\
  (exists w d, heat_index (IDa (ex_d 80 85 90 95)) (IDa (ex_d 90 10 50 100)) false = Ok (w, IDa d)) /\
  forall ice, exists d, relhum_iw ice (IDa (in_kelvin (ex_d 270 260 250 240))) (IDa (ex_d 0 0 0 0)) (IDa (ex_d 100 100 100 100)) = Ok (IDa d) /\ slookup "units" (attrs d) = Some "K".
Proof.
  split; [apply ex_same_frame|]. split; [apply ex_same_frame|]. split; [|split].
  - do 2 eexists. unfold max_daylight. cbn [as_arr dat ndim shp vec List.length Nat.ltb Nat.leb orb Nat.eqb]. reflexivity.
  - destruct C27_example as (C & Ne & R & _). destruct (heat_index_run (IDa (ex_d 80 85 90 95)) (IDa (ex_d 90 10 50 100)) false eq_refl C Ne) as [_ H].
    destruct (H R) as (w & out & E & _ & K & _). exists w. destruct out as [d|d|d|d|d]; cbn in K; try discriminate. exists d. exact E.
  - intros ice. assert (A : iw_args (IDa (in_kelvin (ex_d 270 260 250 240))) (IDa (ex_d 0 0 0 0)) (IDa (ex_d 100 100 100 100))).
    { split; [reflexivity|]. split; [reflexivity|]. split; [apply (ex_same_frame 270 260 250 240 100 100 100 100)|].
      split; [apply (ex_same_frame 0 0 0 0 270 260 250 240)|]. split; [apply ex_same_frame|]. intros n c [H|[]]. injection H as <- <-. reflexivity. }
    destruct (C32_relhum_iw_formula ice _ _ _ A) as (out & E & _ & K & _). destruct out as [d|d|d|d|d]; cbn in K; try discriminate.
    exists d. split; auto. destruct (c117_iw _ _ _ _ _ E) as (-> & _). reflexivity.
Qed.
