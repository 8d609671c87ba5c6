(** Model of the scalar meteorology functions (geocat/comp/meteorology.py:10-1179). *)
From Coq Require Import List Bool Arith ZArith String.
From Verif Require Import PyBase Num Arr Hybrid.
Import ListNotations.

(** An argument as type(...) sees it: DataArray, ndarray, (nested) list, float or int.  A list is
    given by the array np.asarray makes of it, an int by its value as a number. *)
Inductive inp (T : Type) := IDa (d : da T) | INd (a : arr T) | IList (a : arr T) | IFloat (x : T) | IInt (x : T).
Arguments IDa {T} d.
Arguments INd {T} a.
Arguments IList {T} a.
Arguments IFloat {T} x.
Arguments IInt {T} x.
(** type(x) as the type checks compare it, meteorology.py:379, 649, 747 *)
Inductive kind := KDa | KNd | KList | KFloat | KInt.
Scheme Equality for kind.
(** type(x), meteorology.py:379, 649, 747 *)
Definition kind_of {T} (v : inp T) : kind :=
  match v with IDa _ => KDa | INd _ => KNd | IList _ => KList | IFloat _ => KFloat | IInt _ => KInt end.
(** np.asarray *)
Definition as_arr {T} (v : inp T) : arr T :=
  match v with IDa d => dat d | INd a | IList a => a | IFloat x | IInt x => scalar x end.
(** x.attrs[k] = v for each pair *)
Definition with_attrs {T} (l : list (string * string)) (d : da T) : da T :=
  mkDa (dims d) (dat d) (coords d) (fold_left (fun m p => sset (fst p) (snd p) m) l (attrs d)) (daname d).
(** elementwise function that may raise *)
Definition arr_mapM {A B} (d : B) (f : A -> res B) (a : arr A) : res (arr B) :=
  do l <- mapM (fun i => f (get a i)) (all_idx (shp a)) ;; Ok (of_flat d (shp a) l).

Section Meteo.
  Context {T : Type} {N : Num T}.
  Local Open Scope num_scope.

  (** ** dew point *)
  (** _dewtemp at one point, meteorology.py:41-45 *)
  Definition dewtemp_cell (tk rh : T) : T :=
    let gcx := dec 4615 1 / (ofZ 1000 * dec 4186 3) in
    let lhv := (dec 5973 1 - dec 57 2 * (tk - ofZ 273)) / gcx in
    tk * lhv / (lhv - tk * nln (rh * dec 1 2)).
  (** dewtemp, meteorology.py:253-313.  The shape test of line 286 negates a generator object, which
      is never true. *)
  Definition dewtemp (t rh : inp T) : res (inp T) :=
    match t, rh with
    | IDa t, IDa rh =>
        do d <- xr_map2 dewtemp_cell t rh ;;
        Ok (IDa (with_attrs [("long_name", "dew point temperature"); ("units", "Kelvin")]%string d))
    | IDa _, _ | _, IDa _ => Err TypeError                                              (* 294 *)
    | _, _ => do a <- np_map2 dewtemp_cell (as_arr t) (as_arr rh) ;; Ok (INd a)
    end.

  (** ** heat index *)
  (** _nws_eqn, meteorology.py:50-93 *)
  Definition nws_eqn (c : list T) (t rh : T) : T :=
    let c k := nth k c nnan in
    c 0%nat + c 1%nat * t + c 2%nat * rh + c 3%nat * t * rh + c 4%nat * sqr t + c 5%nat * sqr rh
    + c 6%nat * sqr t * rh + c 7%nat * t * sqr rh + c 8%nat * sqr t * sqr rh.
  (** meteorology.py:411-438 *)
  Definition hi_coeffs (alt : bool) : list T :=
    if alt then [dec 363445176 9; dec 988622465 9; dec 4777114035 9; dec (-114037667) 9; dec (-850208) 9;
                 dec (-20716198) 9; dec 687678 9; dec 274954 9; dec 0 1]
    else [dec (-42379) 3; dec 204901523 8; dec 1014333127 8; dec (-22475541) 8; dec (-683783) 8;
          dec (-5481717) 8; dec 122874 8; dec 85282 8; dec (-199) 8].
  (** crit, meteorology.py:422, 438 *)
  Definition hi_crit (alt : bool) : T := if alt then ofZ 70 else ofZ 79.
  (** the formula at one point, meteorology.py:441-475 *)
  Definition hi_cell (alt : bool) (t rh : T) : T :=
    let steadman := ofZ 61 + (t - ofZ 68) * dec 12 1 + rh * dec 94 3 in
    let rothfusz := nws_eqn (hi_coeffs alt) t rh in
    let h := (steadman + t) / ofZ 2 in
    let h := nwhere (t <? ofZ 40) t h in
    let h := nwhere (nge h (hi_crit alt)) rothfusz h in
    let h := nwhere ((rh <=? ofZ 13) && (nge t (ofZ 80) && (t <=? ofZ 112)))
               (h - (ofZ 13 - rh) / ofZ 4 * nsqrt (nabs (ofZ 17 - nabs (t - ofZ 95)) / ofZ 17)) h in
    nwhere (ngt rh (ofZ 85) && (nge t (ofZ 80) && (t <=? ofZ 87)))
      (h + (rh - dec 850 1) / dec 100 1 * ((dec 870 1 - t) / dec 50 1)) h.
  (** .min() and .max(): numpy propagates NaN, xarray skips it; empty raises ValueError *)
  Definition min_max (skipna : bool) (l : list T) : res (T * T) :=
    match l with
    | [] => Err ValueError
    | _ => let v := if skipna then filter (fun x => negb (isnan x)) l else l in
           Ok (match v with [] => (nnan, nnan) | x :: r => (nminl x r, nmaxl x r) end)
    end.
  (** the attributes set on DataArray results, meteorology.py:481-489 *)
  Definition hi_attrs : list (string * string) :=
    [("long_name", "heat index: NWS"); ("units", "F");
     ("www", "https://www.wpc.ncep.noaa.gov/html/heatindex_equation.shtml");
     ("info", "appropriate for shady locations with no wind");
     ("tag", "heat_index: (Steadman+t)*0.5 and Rothfusz")]%string.
  (** heat_index, meteorology.py:316-491; the boolean is the "fractional" warning.  For DataArrays
      xr.where needs identical labels (join='exact'), and the last condition puts the humidity's
      dimensions first. *)
  Definition heat_index (t rh : inp T) (alt : bool) : res (bool * inp T) :=
    guard negb (kind_beq (kind_of t) (kind_of rh)) raise TypeError ;;                   (* 379 *)
    guard negb (shape_eqb (shp (as_arr t)) (shp (as_arr rh))) raise ValueError ;;       (* 395 *)
    do mm <- min_max (kind_beq (kind_of rh) KDa) (ravel (as_arr rh)) ;;
    guard (fst mm <? ofZ 0) || ngt (snd mm) (ofZ 100) raise ValueError ;;               (* 401 *)
    let warn := snd mm <=? ofZ 1 in                                                     (* 407 *)
    let cells := mkArr (shp (as_arr t)) (fun i => hi_cell alt (get (as_arr t) i) (get (as_arr rh) i)) in
    match t, rh with
    | IDa t, IDa rh =>
        guard negb (labels_agree rh t) raise ValueError ;;                              (* 447 *)
        do d <- xr_map2 (fun r v => hi_cell alt v r) rh t ;;
        Ok (warn, IDa (with_attrs hi_attrs d))
    | IList _, _ => Ok (warn, IList cells)                                              (* 478 *)
    | IFloat _, _ | IInt _, _ => Ok (warn, IFloat (get cells []))
    | _, _ => Ok (warn, INd cells)
    end.

  (** ** relhum *)
  (** the table, meteorology.py:539-559, in units of 10^-5 *)
  Definition es_table_z : list Z := [
    1403; 1719; 2101; 2561; 3117; 3784; 4584; 5542; 6685; 8049; 9672; 11600; 13880; 16580; 19770;
    23530; 27960; 33160; 39250; 46380; 54720; 64440; 75770; 88940; 104200; 122000; 142500; 166200;
    193600; 225200; 261500; 303200; 351100; 406000; 468800; 540600; 622500; 715900; 822300; 943200;
    1080000; 1236000; 1413000; 1612000; 1838000; 2092000; 2380000; 2703000; 3067000; 3476000;
    3935000; 4449000; 5026000; 5671000; 6393000; 7198000; 8097000; 9098000; 10210000; 11450000;
    12830000; 14360000; 16060000; 17940000; 20020000; 22330000; 24880000; 27690000; 30790000;
    34210000; 37980000; 42130000; 46690000; 51700000; 57200000; 63230000; 69850000; 77090000;
    85020000; 93700000; 103200000; 114660000; 127200000; 140810000; 155670000; 171690000; 189030000;
    207760000; 227960000; 249670000; 272980000; 298000000; 324780000; 353410000; 383980000;
    416480000; 451050000; 487690000; 526510000; 567520000; 610780000; 656620000; 705470000;
    757530000; 812940000; 871920000; 934650000; 1001300000; 1072200000; 1147400000; 1227200000;
    1311900000; 1401700000; 1496900000; 1597700000; 1704400000; 1817300000; 1936700000; 2063000000;
    2196400000; 2337300000; 2486100000; 2643000000; 2808600000; 2983100000; 3167100000; 3360800000;
    3564900000; 3779600000; 4005500000; 4243000000; 4492700000; 4755100000; 5030700000; 5320000000;
    5623600000; 5942200000; 6276200000; 6626400000; 6993400000; 7377700000; 7780200000; 8201500000;
    8642300000; 9103400000; 9585500000; 10089000000; 10616000000; 11166000000; 11740000000;
    12340000000; 12965000000; 13617000000; 14298000000; 15007000000; 15746000000; 16516000000;
    17318000000; 18153000000; 19022000000; 19926000000; 20867000000; 21845000000; 22861000000;
    23918000000; 25016000000; 26156000000; 27340000000; 28570000000; 29845000000; 31169000000;
    32542000000; 33965000000; 35441000000; 36971000000; 38556000000; 40198000000; 41898000000;
    43659000000; 45481000000; 47367000000; 49317000000; 51335000000; 53422000000; 55580000000;
    57809000000; 60113000000; 62494000000; 64953000000; 67492000000; 70113000000; 72819000000;
    75611000000; 78492000000; 81463000000; 84528000000; 87688000000; 90945000000; 94302000000;
    97761000000; 101325000000; 104994000000; 108774000000; 108774000000]%Z.
  (** the table in hPa*10, meteorology.py:539-559 *)
  Definition es_table : list T := map (fun z => dec z 5) es_table_z.
  (** meteorology.py:571 *)
  Definition maxtemp : T := dec 37516 2.
  (** meteorology.py:572 *)
  Definition mintemp : T := dec 17316 2.
  (** saturation vapour pressure at one point, meteorology.py:575-581.  NaN.astype(int) is the
      smallest integer, out of range for the table. *)
  Definition es_cell (t : T) : res T :=
    let t := nclip mintemp maxtemp t in
    do it <- oget IndexError (ntrunc (t - mintemp)) ;;
    let t2 := mintemp + ofZ it in
    do lo <- pyget es_table it ;;
    do hi <- pyget es_table (it + 1)%Z ;;
    Ok (((t2 + ofZ 1 - t) * lo + (t - t2) * hi) * dec 1 1).
  (** percent, clipped from below, meteorology.py:583-586 *)
  Definition rh_clip (x : T) : T := nclip_lo (dec 1 4) (x * ofZ 100).
  (** relhum on numpy arrays, lists or numbers (np.asarray'd), meteorology.py:562-597; the shape test
      of line 565 never fires *)
  Definition relhum_np (t w p : arr T) : res (arr T) :=
    do es <- arr_mapM nnan es_cell t ;;
    do a <- np_map2 nsub p (amap (fun e => dec 378 3 * e) es) ;;
    do b <- np_map2 nmul w a ;;
    do c <- np_map2 ndiv b (amap (fun e => dec 622 3 * e) es) ;;
    Ok (amap rh_clip c).
  (** relhum on DataArrays, meteorology.py:562-597.  Mixtures of kinds are in RelhumMix.v. *)
  Definition relhum_xr (t w p : da T) : res (da T) :=
    do es <- arr_mapM nnan es_cell (dat t) ;;
    let es := mkDa (dims t) es (coords t) [] None in
    do a <- xr_map2 nsub p (xr_map (fun e => dec 378 3 * e) es) ;;
    do b <- xr_map2 nmul w a ;;
    do c <- xr_map2 ndiv b (xr_map (fun e => dec 622 3 * e) es) ;;
    Ok (with_attrs [("long_name", "relative humidity"); ("units", "percentage");
         ("info", "https://journals.ametsoc.org/view/journals/apme/35/4/1520-0450_1996_035_0601_imfaos_2_0_co_2.xml")]%string
         (xr_map rh_clip c)).

  (** ** relhum_ice and relhum_water *)
  (** saturation vapour pressure over ice, meteorology.py:145-158 *)
  Definition est_ice (t : T) : T :=
    dec 61128 4 * nexp (dec 22571 3 * (t - dec 27315 2) / ((t - dec 27315 2) + dec 27371 2)).
  (** over water, meteorology.py:227-242 *)
  Definition est_water (t : T) : T :=
    dec 61128 4 * nexp (dec 17269 3 * (t - dec 27315 2) / (t - dec 3586 2)).
  (** 161 and 245 *)
  Definition qst (est p : T) : T := dec 622 3 * est / (p * dec 1 2 - dec 378 3 * est).
  (** _relhum_ice / _relhum_water at one point, 158-164 and 242-248 *)
  Definition rh_cell (est : T -> T) (t w p : T) : T := ofZ 100 * (w / qst (est t) p).
  (** the DataArray arithmetic of the same lines *)
  Definition rh_xr (est : T -> T) (t w p : da T) : res (da T) :=
    do q <- xr_map2 (fun e pv => qst e pv) (xr_map est t) p ;;
    do r <- xr_map2 ndiv w q ;;
    Ok (xr_map (fun x => ofZ 100 * x) r).
  (** xr.DataArray(data, coords=c, dims=ds): data is read by position *)
  Definition relabel (t : da T) (r : arr T) : res (da T) :=
    guard negb (Nat.eqb (List.length (dims t)) (ndim r)) raise ValueError ;;
    guard negb (forallb (fun c => shape_eqb (shp (cdat (snd c)))
                  (map (fun d => match sindex d (dims t) with Some j => nth j (shp r) 0%nat | None => 0%nat end) (cdims (snd c))))
                  (coords t)) raise ValueError ;;
    Ok (mkDa (dims t) r (coords t) (attrs t) None).
  (** relhum_ice ([ice] = true), meteorology.py:600-689, and relhum_water, 692-783, which differ in
      the vapour pressure and in the conversion back to a list.  Simplification: of the arithmetic
      between DataArrays the dimension order w, t, p is what xr_map2 gives. *)
  Definition relhum_iw (ice : bool) (t w p : inp T) : res (inp T) :=
    let est := if ice then est_ice else est_water in
    guard negb (kind_beq (kind_of t) (kind_of w) && kind_beq (kind_of t) (kind_of p)) raise TypeError ;;     (* 649, 747 *)
    guard negb (shape_eqb (shp (as_arr t)) (shp (as_arr w)) && shape_eqb (shp (as_arr t)) (shp (as_arr p))) raise ValueError ;;
    let cells := mkArr (shp (as_arr t)) (fun i => rh_cell est (get (as_arr t) i) (get (as_arr w) i) (get (as_arr p) i)) in
    match t, w, p with
    | IDa t, IDa w, IDa p => do r <- rh_xr est t w p ;; do d <- relabel t (dat r) ;; Ok (IDa d)
    | IList _, _, _ => Ok (if ice then IList cells else INd cells)                      (* 686 *)
    | IFloat _, _, _ | IInt _, _, _ => Ok (IFloat (get cells []))
    | _, _, _ => Ok (INd cells)
    end.
  (** relhum_ice, meteorology.py:600-689 *)
  Definition relhum_ice := relhum_iw true.
  (** relhum_water, meteorology.py:692-783 *)
  Definition relhum_water := relhum_iw false.

  (** ** max_daylight *)
  Inductive daylight_warning := WLimited | WImpossible.
  (** meteorology.py:855-868 at one (day, latitude) *)
  Definition daylight_cell (jday lat : T) : T :=
    let rad := npi / ofZ 180 in
    let pi2yr := ofZ 2 * npi / ofZ 365 in
    let con := ofZ 24 / npi in
    let sdec := dec 409 3 * nsin (pi2yr * jday - dec 139 2) in
    con * nacos (- ntan (lat * rad) * ntan sdec).
  (** max_daylight, meteorology.py:786-878.  DataArrays are not duck arrays for
      xr.core.utils.is_duck_array, so all inputs but ndarrays are converted to float32 arrays (that
      rounding is modelled in DaylightPrec.v).  np.outer ravels its arguments. *)
  Definition max_daylight (jday lat : inp T) : res (option daylight_warning * inp T) :=
    let ja := as_arr jday in
    let la := as_arr lat in
    guard Nat.ltb 1 (ndim la) || Nat.ltb 1 (ndim ja) raise ValueError ;;                (* 840 *)
    let ls := ravel la in
    let js := ravel ja in
    let warn :=
      if forallb (fun v => ngt (nabs v) (ofZ 55)) ls && forallb (fun v => nabs v <=? ofZ 66) ls then Some WLimited
      else if forallb (fun v => ngt (nabs v) (ofZ 66)) ls then Some WImpossible else None in   (* 846-852 *)
    let out := mkArr [List.length js; List.length ls]
                 (fun i => daylight_cell (nth (nth 0 i 0%nat) js nnan) (nth (nth 1 i 0%nat) ls nnan)) in
    match jday with
    | IDa _ =>
        guard Nat.eqb (ndim ja) 0 || Nat.eqb (ndim la) 0 raise ValueError ;;            (* 872 *)
        Ok (warn, IDa (mkDa ["doy"; "lat"]%string out
              [("doy"%string, mkCoord ["doy"%string] (vec nnan js)); ("lat"%string, mkCoord ["lat"%string] (vec nnan ls))]
              [("long_name", "maximum daylight: FAO_56"); ("units", "hours/day");
               ("url", "http://www.fao.org/docrep/X0490E/x0490e07.htm"); ("info", "FAO 56; EQN 34; max_daylight")]%string None))
    | _ => Ok (warn, INd out)
    end.

  (** ** psychrometric_constant, meteorology.py:881-949 *)
  Definition psychrometric_constant (p : inp T) : inp T :=
    let f x := dec 66474 8 * x in
    match p with
    | IDa d => IDa (with_attrs [("long_name", "psychrometric constant"); ("units", "kPa/C");
                 ("url", "https://www.fao.org/docrep/X0490E/x0490e07.htm"); ("info", "FAO 56; EQN 8; psychrometric_constant")]%string
                 (xr_map f d))
    | _ => INd (amap f (as_arr p))
    end.

  (** ** saturation vapour pressure *)
  (** meteorology.py:1007-1012, 1023-1026 *)
  Definition svp_cell (tfill temperature : T) : T :=
    let temp_c := (temperature - ofZ 32) * ofZ 5 / ofZ 9 in
    nwhere (ngt temp_c (ofZ 0)) (dec 6108 4 * nexp (dec 1727 2 * temp_c / (temp_c + dec 2373 1))) tfill.
  (** saturation_vapor_pressure, meteorology.py:952-1028 *)
  Definition saturation_vapor_pressure (t : inp T) (tfill : T) : inp T :=
    match t with
    | IDa d => IDa (with_attrs [("long_name", "saturation vapor pressure"); ("units", "kPa");
                 ("url", "https://www.fao.org/docrep/X0490E/x0490e07.htm"); ("info", "FAO 56; EQN 11; saturation_vapor_pressure")]%string
                 (xr_map (svp_cell tfill) d))
    | _ => INd (amap (svp_cell tfill) (as_arr t))
    end.
  (** actual_saturation_vapor_pressure, meteorology.py:1031-1091 *)
  Definition actual_saturation_vapor_pressure (tdew : inp T) (tfill : T) : inp T :=
    match saturation_vapor_pressure tdew tfill with
    | IDa d => IDa (with_attrs [("long_name", "actual saturation vapor pressure via Tdew"); ("units", "kPa");
                 ("url", "https://www.fao.org/docrep/X0490E/x0490e07.htm"); ("info", "FAO 56; EQN 14; actual_saturation_vapor_pressure")]%string d)
    | v => v
    end.
  (** meteorology.py:1141-1153, 1165-1177 *)
  Definition slope_cell (tfill temperature : T) : T :=
    let temp_c := (temperature - ofZ 32) * ofZ 5 / ofZ 9 in
    nwhere (ngt temp_c (ofZ 0))
      (ofZ 4096 * (dec 6108 4 * nexp (dec 1727 2 * temp_c / (temp_c + dec 2373 1)) / sqr (temp_c + dec 2373 1))) tfill.
  (** saturation_vapor_pressure_slope, meteorology.py:1094-1179 *)
  Definition saturation_vapor_pressure_slope (t : inp T) (tfill : T) : inp T :=
    match t with
    | IDa d => IDa (with_attrs [("long_name", "slope saturation vapor pressure curve"); ("units", "kPa/C");
                 ("url", "https://www.fao.org/docrep/X0490E/x0490e07.htm"); ("info", "FAO 56; EQN 13; saturation_vapor_pressure_slope")]%string
                 (xr_map (slope_cell tfill) d))
    | _ => INd (amap (slope_cell tfill) (as_arr t))
    end.
End Meteo.
