(** Model of geocat/comp/gradient.py. *)
From Coq Require Import List Bool Arith ZArith String.
From Verif Require Import PyBase Num Arr Hybrid.
Import ListNotations.
Local Open Scope string_scope.

(** terms (m, k, p) standing for the source term m * 10^-k * lat**p, in source order;
    gradient.py:48-72 (_rad_lat_wgs84).  A subtracted term is written with negative m. *)
Definition rad_terms : list (Z * nat * nat) :=
  [
     (805993093251779959604912%Z, 130, 48);
     ((-126581811418535723456176)%Z, 125, 46);
     ((-910951565776720242021392)%Z, 121, 44);
     (749821836126201522491765%Z, 116, 42);
     ((-227271626922827622448519)%Z, 111, 40);
     ((-271379394439952534826763)%Z, 107, 38);
     (614832871773468827219624%Z, 102, 36);
     ((-284993185787053811467259)%Z, 97, 34);
     (304677525449067422497153%Z, 93, 32);
     (432285294849656618043972%Z, 88, 30);
     ((-309781963775152747156702)%Z, 83, 28);
     (820657704323096444142572%Z, 79, 26);
     (218501284875664232841136%Z, 74, 24);
     ((-314445926697498412770696)%Z, 69, 22);
     (133970531285992980064454%Z, 64, 20);
     ((-364729257084431972115219)%Z, 61, 18);
     ((-319397401776292877914625)%Z, 55, 16);
     (209755935705627800528960%Z, 50, 14);
     ((-393234660296994989005722)%Z, 46, 12);
     ((-467346944715944948938249)%Z, 41, 10);
     (523053397296821359502194%Z, 36, 8);
     ((-261499198791487361911660)%Z, 31, 6);
     (657016735969856188450312%Z, 27, 4);
     ((-650322744547926518806010)%Z, 23, 2);
     (63781370%Z, 1, 0) ].
(** gradient.py:112-136 (_arc_lat_wgs84) *)
Definition arc_terms : list (Z * nat * nat) :=
  [
     (287086392358719396475614%Z, 133, 49);
     ((-470057315402553703681995)%Z, 129, 47);
     ((-353313425533365879608994)%Z, 124, 45);
     (304345577761664668327703%Z, 119, 43);
     ((-967472728333544072524681)%Z, 115, 41);
     ((-121447793719117046293341)%Z, 110, 39);
     (290023188160517270041180%Z, 105, 37);
     ((-142116269649485608032749)%Z, 100, 35);
     (161140181088334593373753%Z, 96, 33);
     (243380700099386902295507%Z, 91, 31);
     ((-186438456247248912270599)%Z, 86, 29);
     (530488110085042076590693%Z, 82, 27);
     (152542673636737189511924%Z, 77, 25);
     ((-238613771319829866779682)%Z, 72, 23);
     (111344136742221455419521%Z, 67, 21);
     ((-335038232340852202916191)%Z, 64, 19);
     ((-327913899018323295027126)%Z, 58, 17);
     (244062113577649370926265%Z, 53, 15);
     ((-527941504241845042397655)%Z, 49, 13);
     ((-741522084948104995730556)%Z, 44, 11);
     (101433377184128234589268%Z, 38, 9);
     ((-652003144319804471773524)%Z, 34, 7);
     (229342105667605006614878%Z, 29, 5);
     ((-378342436432244021373642)%Z, 25, 3);
     (111319490793273572647713%Z, 18, 1) ].

Section Gradient.
  Context {T : Type} {N : Num T}.
  Local Open Scope num_scope.

  (** d2r, gradient.py:8 *)
  Definition d2r : T := dec 174532925199432957692369%Z 25.
  (** one source term; the constant term of gradient.py:72 is m * 10^-k * lat**0 *)
  Definition term (x : T) (t : Z * nat * nat) : T := let '(m, k, p) := t in dec m k * npow x p.
  (** sum of the terms, left to right *)
  Definition poly (ts : list (Z * nat * nat)) (x : T) : T :=
    match ts with
    | [] => ofZ 0
    | t :: ts' => fold_left (fun acc t => acc + term x t) ts' (term x t)
    end.
  (** _rad_lat_wgs84, gradient.py:11-73 *)
  Definition rad_lat_wgs84 (lat : T) : T := poly rad_terms lat.
  (** _arc_lat_wgs84, gradient.py:76-137 *)
  Definition arc_lat_wgs84 (lat : T) : T := poly arc_terms lat.
  (** _arc_lon_wgs84, gradient.py:140-181 *)
  Definition arc_lon_wgs84 (lon lat : T) : T := rad_lat_wgs84 lat * ncos (lat * d2r) * lon * d2r.

  (** np.gradient(a, axis=ax) with unit spacing and edge_order 1 (numpy, not in /repo): central differences
      inside, one-sided differences at both ends; fewer than two points: ValueError *)
  Definition np_gradient_axis (ax : nat) (a : arr T) : res (arr T) :=
    let n := nth ax (shp a) 0%nat in
    guard (Nat.ltb n 2) raise ValueError ;;
    Ok (mkArr (shp a) (fun i =>
          let k := nth ax i 0%nat in
          let at_ j := get a (upd i ax j) in
          if Nat.eqb k 0 then at_ 1%nat - at_ 0%nat
          else if Nat.eqb k (n - 1) then at_ k - at_ (k - 1)%nat
          else (at_ (k + 1)%nat - at_ (k - 1)%nat) / ofZ 2)).
  (** np.gradient(a): one array per axis.  With a single axis numpy returns that array itself, so that
      indexing it with 0 and 1 (gradient.py:253-254) picks its first two elements; this function returns
      what [grad[0]] and [grad[1]] denote. *)
  Definition np_gradient2 (a : arr T) : res (arr T * arr T) :=
    do gs <- mapM (fun ax => np_gradient_axis ax a) (seq 0 (ndim a)) ;;
    match gs with
    | [] => Err IndexError
    | [g] => Ok (scalar (get g [0%nat]), scalar (get g [1%nat]))
    | g0 :: g1 :: _ => Ok (g0, g1)
    end.
  (** np.meshgrid(lon, lat) of 1-D arrays: (lon2d, lat2d) of shape (len(lat), len(lon)) *)
  Definition meshgrid (lon lat : arr T) : arr T * arr T :=
    let s := [hd 0%nat (shp lat); hd 0%nat (shp lon)] in
    (mkArr s (fun i => get lon [nth 1 i 0%nat]), mkArr s (fun i => get lat [nth 0 i 0%nat])).

  (** coordinates of the result, gradient.py:257-272: xarray checks that they have the size of the data *)
  Definition wrap_xy (g lon2d lat2d : arr T) : res (da T) :=
    guard (negb (Nat.eqb (ndim g) 2)) raise ValueError ;;
    guard (negb (shape_eqb (shp g) (shp lon2d) && shape_eqb (shp g) (shp lat2d))) raise ValueError ;;
    Ok (mkDa ["x"; "y"] g [("lon", mkCoord ["x"; "y"] lon2d); ("lat", mkCoord ["x"; "y"] lat2d)] [] None).

  (** gradient, gradient.py:184-271.  [lon] and [lat] are the values of the arguments ([None] when omitted).
      An xarray.Dataset is [gradient_ds] below.  Simplifications: data that is
      neither ndarray nor DataArray counts as unsupported also when lat and lon are given (numpy would convert
      nested lists); 2-D coordinates passed as DataArrays are taken by position (dimension names ignored). *)
  Definition gradient (data : val T) (lon lat : option (arr T)) : res (list (val T)) :=
    do ll <- match lon, lat with
             | Some a, Some b => Ok (Some a, Some b)
             | _, _ =>
                 match data with
                 | VDa d | VSubDa d =>
                     Ok (match slookup "lat" (coords d), slookup "lon" (coords d) with
                         | Some la, Some lo => (Some (cdat lo), Some (cdat la))
                         | _, _ => (lon, lat)
                         end)
                 | VNd _ => Err BareException
                 | VOther => Err BareException
                 end
             end ;;
    do lon <- oget AttributeError (fst ll) ;;
    guard (negb (Nat.eqb (ndim lon) 1 || Nat.eqb (ndim lon) 2)) raise ValueError ;;
    do lat <- oget AttributeError (snd ll) ;;
    do m <- (if Nat.eqb (ndim lon) 1 && Nat.eqb (ndim lat) 1 then Ok (meshgrid lon lat)
             else if Nat.eqb (ndim lon) 2 && Nat.eqb (ndim lat) 2 then Ok (lon, lat)
             else Err ValueError) ;;
    let '(lon2d, lat2d) := m in
    let axis0loc := amap arc_lat_wgs84 lat2d in
    do axis1loc <- np_map2 arc_lon_wgs84 lon2d lat2d ;;
    do axis0dist <- np_gradient_axis 0 axis0loc ;;
    do axis1dist <- np_gradient_axis 1 axis1loc ;;
    do values <- match data with
                 | VNd a => Ok a
                 | VDa d | VSubDa d => Ok (dat d)
                 | VOther => Err TypeError
                 end ;;
    do g <- np_gradient2 values ;;
    do axis0grad <- np_map2 ndiv (fst g) axis0dist ;;
    do axis1grad <- np_map2 ndiv (snd g) axis1dist ;;
    match data with
    | VDa _ =>
        do a <- wrap_xy axis0grad lon2d lat2d ;;
        do b <- wrap_xy axis1grad lon2d lat2d ;;
        Ok [VDa a; VDa b]
    | _ => Ok [VNd axis0grad; VNd axis1grad]
    end.
  (** gradient of an xarray.Dataset with coordinates [cs], gradient.py:215-248: the coordinates are found and checked as for a
      DataArray, then np.gradient (248) asks for an array and Dataset.__array__ raises TypeError *)
  Definition gradient_ds (cs : list (string * coordv T)) (lon lat : option (arr T)) : res (list (val T)) :=
    do ll <- match lon, lat with
             | Some a, Some b => Ok (Some a, Some b)
             | _, _ => Ok (match slookup "lat" cs, slookup "lon" cs with
                           | Some la, Some lo => (Some (cdat lo), Some (cdat la))
                           | _, _ => (lon, lat)
                           end)
             end ;;
    do lon <- oget AttributeError (fst ll) ;;
    guard (negb (Nat.eqb (ndim lon) 1 || Nat.eqb (ndim lon) 2)) raise ValueError ;;
    do lat <- oget AttributeError (snd ll) ;;
    do m <- (if Nat.eqb (ndim lon) 1 && Nat.eqb (ndim lat) 1 then Ok (meshgrid lon lat)
             else if Nat.eqb (ndim lon) 2 && Nat.eqb (ndim lat) 2 then Ok (lon, lat)
             else Err ValueError) ;;
    let '(lon2d, lat2d) := m in
    do axis1loc <- np_map2 arc_lon_wgs84 lon2d lat2d ;;
    do axis0dist <- np_gradient_axis 0 (amap arc_lat_wgs84 lat2d) ;;
    do axis1dist <- np_gradient_axis 1 axis1loc ;;
    Err TypeError.
End Gradient.
