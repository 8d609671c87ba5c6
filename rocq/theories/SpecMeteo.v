(** Specifications for the meteorology properties: real formulas, no reference to the model. *)
From Coq Require Import Reals List ZArith.
Import ListNotations.
Local Open Scope R_scope.

(** latent heat of vaporisation over the gas constant of water vapour, in kelvin *)
Definition lhv_over_gc (tk : R) : R := (597.3 - 0.57 * (tk - 273)) / (461.5 / (1000 * 4.186)).

(** heat index, degrees Fahrenheit and percent.  The two published regressions *)
Definition regression (alt : bool) (t h : R) : R :=
  if alt then 0.363445176 + 0.988622465 * t + 4.777114035 * h - 0.114037667 * t * h - 0.000850208 * t ^ 2
              - 0.020716198 * h ^ 2 + 0.000687678 * t ^ 2 * h + 0.000274954 * t * h ^ 2
  else - 42.379 + 2.04901523 * t + 10.14333127 * h - 0.22475541 * t * h - 0.00683783 * t ^ 2
       - 0.05481717 * h ^ 2 + 0.00122874 * t ^ 2 * h + 0.00085282 * t * h ^ 2 - 0.00000199 * t ^ 2 * h ^ 2.
Definition critical (alt : bool) : R := if alt then 70 else 79.
(** average of Steadman's formula and the temperature; the temperature itself below 40 F *)
Definition simple_index (t h : R) : R :=
  if Rlt_dec t 40 then t else (61 + 1.2 * (t - 68) + 0.094 * h + t) / 2.
Definition base_index (alt : bool) (t h : R) : R :=
  if Rle_dec (critical alt) (simple_index t h) then regression alt t h else simple_index t h.
Definition dry_adjustment (t h : R) : R := (13 - h) / 4 * sqrt (Rabs (17 - Rabs (t - 95)) / 17).
Definition humid_adjustment (t h : R) : R := (h - 85) / 10 * ((87 - t) / 5).
Definition dry_window (t h : R) : Prop := h <= 13 /\ 80 <= t <= 112.
Definition humid_window (t h : R) : Prop := 85 < h /\ 80 <= t <= 87.
(** what the code returns *)
Definition index_value (alt : bool) (t h v : R) : Prop :=
  (dry_window t h /\ v = base_index alt t h - dry_adjustment t h) \/
  (humid_window t h /\ v = base_index alt t h + humid_adjustment t h) \/
  (~ dry_window t h /\ ~ humid_window t h /\ v = base_index alt t h).

(** saturation vapour pressure in 0.1 Pa at 173.16, 174.16, ... K: the numbers of
    geocat/comp/meteorology.py:539-559 *)
Definition vapour_table : list R := [
    0.01403; 0.01719; 0.02101; 0.02561; 0.03117; 0.03784; 0.04584; 0.05542; 0.06685; 0.08049;
    0.09672; 0.1160; 0.1388; 0.1658; 0.1977; 0.2353; 0.2796; 0.3316; 0.3925; 0.4638; 0.5472; 0.6444;
    0.7577; 0.8894; 1.042; 1.220; 1.425; 1.662; 1.936; 2.252; 2.615; 3.032; 3.511; 4.060; 4.688;
    5.406; 6.225; 7.159; 8.223; 9.432; 10.80; 12.36; 14.13; 16.12; 18.38; 20.92; 23.80; 27.03;
    30.67; 34.76; 39.35; 44.49; 50.26; 56.71; 63.93; 71.98; 80.97; 90.98; 102.1; 114.5; 128.3;
    143.6; 160.6; 179.4; 200.2; 223.3; 248.8; 276.9; 307.9; 342.1; 379.8; 421.3; 466.9; 517.0;
    572.0; 632.3; 698.5; 770.9; 850.2; 937.0; 1032.0; 1146.6; 1272.0; 1408.1; 1556.7; 1716.9;
    1890.3; 2077.6; 2279.6; 2496.7; 2729.8; 2980.0; 3247.8; 3534.1; 3839.8; 4164.8; 4510.5; 4876.9;
    5265.1; 5675.2; 6107.8; 6566.2; 7054.7; 7575.3; 8129.4; 8719.2; 9346.50; 10013.0; 10722.0;
    11474.0; 12272.0; 13119.0; 14017.0; 14969.0; 15977.0; 17044.0; 18173.0; 19367.0; 20630.0;
    21964.0; 23373.0; 24861.0; 26430.0; 28086.0; 29831.0; 31671.0; 33608.0; 35649.0; 37796.0;
    40055.0; 42430.0; 44927.0; 47551.0; 50307.0; 53200.0; 56236.0; 59422.0; 62762.0; 66264.0;
    69934.0; 73777.0; 77802.0; 82015.0; 86423.0; 91034.0; 95855.0; 100890.0; 106160.0; 111660.0;
    117400.0; 123400.0; 129650.0; 136170.0; 142980.0; 150070.0; 157460.0; 165160.0; 173180.0;
    181530.0; 190220.0; 199260.0; 208670.0; 218450.0; 228610.0; 239180.0; 250160.0; 261560.0;
    273400.0; 285700.0; 298450.0; 311690.0; 325420.0; 339650.0; 354410.0; 369710.0; 385560.0;
    401980.0; 418980.0; 436590.0; 454810.0; 473670.0; 493170.0; 513350.0; 534220.0; 555800.0;
    578090.0; 601130.0; 624940.0; 649530.0; 674920.0; 701130.0; 728190.0; 756110.0; 784920.0;
    814630.0; 845280.0; 876880.0; 909450.0; 943020.0; 977610.0; 1013250.0; 1049940.0; 1087740.0;
    1087740.0].

(** saturation vapour pressures (hPa) of relhum_ice and relhum_water *)
Definition magnus_ice (t : R) : R := 6.1128 * exp (22.571 * (t - 273.15) / (t - 273.15 + 273.71)).
Definition magnus_water (t : R) : R := 6.1128 * exp (17.269 * (t - 273.15) / (t - 35.86)).
(** saturation mixing ratio at p Pa *)
Definition q_sat (e p : R) : R := 0.622 * e / (0.01 * p - 0.378 * e).

(** solar declination of FAO-56 *)
Definition declination (j : R) : R := 0.409 * sin (2 * PI / 365 * j - 1.39).
(** Fahrenheit to Celsius *)
Definition celsius (f : R) : R := (f - 32) * 5 / 9.
(** Tetens formula, kPa, degrees Celsius *)
Definition tetens (c : R) : R := 0.6108 * exp (17.27 * c / (c + 237.3)).
