(** What DataArray results of the meteorology functions say about themselves (C117). *)
From Coq Require Import List Bool Arith ZArith Lia String.
From Verif Require Import PyBase PyFacts Num Arr ArrFacts XrFacts Meteo CellFacts MeteoApi.
Import ListNotations.

Section Attrs.
  Context {T : Type} {N : Num T}.

  Lemma xr_map2_attrs (f : T -> T -> T) a b r : xr_map2 f a b = Ok r -> attrs r = [] /\ daname r = None.
  Proof. unfold xr_map2. destruct (xr_align a b) as [a' b']. destruct (sizes_agree a' b'); [|discriminate]. intros E. injection E as <-. split; reflexivity. Qed.
  Lemma c117_dewtemp (t rh : inp T) d : dewtemp t rh = Ok (IDa d) -> attrs d = [("long_name", "dew point temperature"); ("units", "Kelvin")]%string.
  Proof.
    unfold dewtemp. destruct t as [t|t|t|t|t], rh as [h|h|h|h|h]; try discriminate; try (destruct (np_map2 _ _ _); discriminate).
    destruct (xr_map2 _ t h) as [r|] eqn:E; [|discriminate]. cbn [bind]. intros Q. injection Q as <-. destruct (xr_map2_attrs _ _ _ _ E) as [A _].
    unfold with_attrs. cbn [attrs]. rewrite A. reflexivity.
  Qed.
  Lemma c117_heat_index (t rh : inp T) alt w d : heat_index t rh alt = Ok (w, IDa d) ->
    attrs d = [("long_name", "heat index: NWS"); ("units", "F"); ("www", "https://www.wpc.ncep.noaa.gov/html/heatindex_equation.shtml");
               ("info", "appropriate for shady locations with no wind"); ("tag", "heat_index: (Steadman+t)*0.5 and Rothfusz")]%string.
  Proof.
    unfold heat_index. destruct (negb _); [discriminate|]. destruct (negb _); [discriminate|]. destruct (min_max _ _) as [mm|]; [|discriminate]. cbn [bind].
    destruct (_ || _); [discriminate|]. destruct t as [t|t|t|t|t], rh as [h|h|h|h|h]; try discriminate.
    destruct (negb _); [discriminate|]. destruct (xr_map2 _ h t) as [r|] eqn:E; [|discriminate]. cbn [bind]. intros Q. injection Q as _ <-.
    destruct (xr_map2_attrs _ _ _ _ E) as [A _]. unfold with_attrs. cbn [attrs]. rewrite A. reflexivity.
  Qed.
  Lemma c117_daylight (j l : inp T) w d : max_daylight j l = Ok (w, IDa d) ->
    attrs d = [("long_name", "maximum daylight: FAO_56"); ("units", "hours/day"); ("url", "http://www.fao.org/docrep/X0490E/x0490e07.htm"); ("info", "FAO 56; EQN 34; max_daylight")]%string.
  Proof.
    unfold max_daylight. destruct (_ || _); [discriminate|]. destruct j as [j|j|j|j|j]; try discriminate. destruct (_ || _); [discriminate|].
    intros Q. injection Q as _ <-. reflexivity.
  Qed.
  Lemma c117_one (x : da T) tfill :
    exists p s a l,
    psychrometric_constant (IDa x) = IDa p /\ saturation_vapor_pressure (IDa x) tfill = IDa s /\
    actual_saturation_vapor_pressure (IDa x) tfill = IDa a /\ saturation_vapor_pressure_slope (IDa x) tfill = IDa l /\
    (forall r, In r [p; s; a; l] -> dims r = dims x /\ coords r = coords x /\ shp (dat r) = shp (dat x)) /\
    attrs p = [("long_name", "psychrometric constant"); ("units", "kPa/C"); ("url", "https://www.fao.org/docrep/X0490E/x0490e07.htm"); ("info", "FAO 56; EQN 8; psychrometric_constant")]%string /\
    attrs s = [("long_name", "saturation vapor pressure"); ("units", "kPa"); ("url", "https://www.fao.org/docrep/X0490E/x0490e07.htm"); ("info", "FAO 56; EQN 11; saturation_vapor_pressure")]%string /\
    attrs a = [("long_name", "actual saturation vapor pressure via Tdew"); ("units", "kPa"); ("url", "https://www.fao.org/docrep/X0490E/x0490e07.htm"); ("info", "FAO 56; EQN 14; actual_saturation_vapor_pressure")]%string /\
    attrs l = [("long_name", "slope saturation vapor pressure curve"); ("units", "kPa/C"); ("url", "https://www.fao.org/docrep/X0490E/x0490e07.htm"); ("info", "FAO 56; EQN 13; saturation_vapor_pressure_slope")]%string.
  Proof.
    do 4 eexists. split; [reflexivity|]. split; [reflexivity|]. split; [reflexivity|]. split; [reflexivity|].
    split; [intros r [<-|[<-|[<-|[<-|[]]]]]; repeat split|]. repeat split.
  Qed.
  Lemma c117_iw ice (t w p : da T) d : relhum_iw ice (IDa t) (IDa w) (IDa p) = Ok (IDa d) -> attrs d = attrs t /\ dims d = dims t /\ coords d = coords t.
  Proof.
    unfold relhum_iw. cbn [kind_of as_arr]. destruct (negb _); [discriminate|]. destruct (negb _); [discriminate|]. destruct (rh_xr _ _ _ _) as [r|]; [|discriminate].
    cbn [bind]. unfold relabel. destruct (negb _); [discriminate|]. destruct (negb _); [discriminate|]. cbn [bind]. intros Q. injection Q as <-. repeat split.
  Qed.
  (** labelled arguments on one grid: the result is on that grid *)
  Lemma c117_grid (t rh : da T) : same_frame rh t -> same_frame t rh ->
    (exists d, dewtemp (IDa t) (IDa rh) = Ok (IDa d) /\ dims d = dims t /\ shp (dat d) = shp (dat t) /\
       forall k c, slookup k (coords t) = Some c -> slookup k (coords d) = Some c) /\
    forall alt w d, heat_index (IDa t) (IDa rh) alt = Ok (w, IDa d) -> dims d = dims t /\ shp (dat d) = shp (dat t) /\
       forall k c, slookup k (coords rh) = Some c -> slookup k (coords d) = Some c.
  Proof.
    intros F F'. split.
    - unfold dewtemp. destruct (xr_map2_same dewtemp_cell t rh F') as (r & E & D & C & Sh & _). rewrite E. cbn [bind]. eexists. split; [reflexivity|].
      cbn [dims dat coords with_attrs]. split; auto. split; auto. intros k c Hk. rewrite C, join_lookup, Hk. reflexivity.
    - intros alt w d. unfold heat_index. destruct (negb _); [discriminate|]. destruct (negb _); [discriminate|]. destruct (min_max _ _) as [mm|]; [|discriminate]. cbn [bind].
      destruct (_ || _); [discriminate|]. destruct (negb _); [discriminate|].
      destruct (xr_map2_same (fun r v => hi_cell alt v r) rh t F) as (r & E & D & C & Sh & _). rewrite E. cbn [bind]. intros Q. injection Q as _ <-.
      cbn [dims dat coords with_attrs]. destruct F as (_ & _ & Fd & Fs & _). split; [congruence|]. split; [congruence|]. intros k c Hk. rewrite C, join_lookup, Hk. reflexivity.
  Qed.
End Attrs.
