(** C38-C42, C70: zonal mean meridional stream function (zonal_meridional_psi, zonal_mpsi) and variable lookup.
    [order] is the iteration order of Python sets, [zmean] uxarray's zonal_mean, [cf] the answer of cf_xarray:
    the theorems hold for every such function. *)
From Coq Require Import Reals List Bool Arith ZArith Lra Lia String.
From Verif Require Import PyBase Num NumFacts Arr ArrFacts Spec SpecPsi Hybrid Interp1d InterpHyb StrFn GcUtil SpecVar GcUtilFacts Psi PsiGuards InterpProps InterpFinal GradLabels PropertiesInterp.
Import ListNotations.
Local Open Scope R_scope.
Local Open Scope string_scope.


(** C38.  At every position the result is the scale factor times the flux of all layers at or above it;
    NaN winds and underground layers contribute nothing; level labels keep their stored order. *)
Theorem C38_psi_is_scaled_mass_flux :
  forall order zmean cf u w p ha hb bw bp wind ps l down lat nt psz,
  w <> "" -> p <> "" -> slookup w u = Some (bw, wind) -> slookup p u = Some (bp, ps) -> In "plev" (dims wind) ->
  psi_input wind (zmean wind) ps (zmean ps) l down lat nt psz ->
  exists r, zonal_meridional_psi true order zmean cf u (mkNames (Some w) (Some p) (Some "plev") ha hb) = Ok r /\
    dims r = dims (zmean wind) /\ shp (dat r) = shp (dat (zmean wind)) /\
    index_labels r "plev" = Some (map Fin (if down then l else rev l)) /\
    index_labels r "latitudes" = Some (map Fin lat) /\
    forall e, inside (zmean wind) e ->
      getn r e = Fin (2 * PI * earth_radius * cos (nth (e "latitudes") lat 0) / gravity * flux_above (zmean wind) l down psz e).
Proof. exact c38_lemma. Qed.
Print Assumptions C38_psi_is_scaled_mass_flux.


(** C38.  The same atmosphere stored top-down and bottom-up gives the same values at the same levels. *)
Theorem C38_psi_level_order_irrelevant :
  forall order zmean cf u w p ha hb bw bp wind ps l lat nt psz order' zmean' cf' u' w' p' ha' hb' bw' bp' wind' ps',
  w <> "" -> p <> "" -> slookup w u = Some (bw, wind) -> slookup p u = Some (bp, ps) -> In "plev" (dims wind) ->
  w' <> "" -> p' <> "" -> slookup w' u' = Some (bw', wind') -> slookup p' u' = Some (bp', ps') -> In "plev" (dims wind') ->
  psi_input wind (zmean wind) ps (zmean ps) l true lat nt psz ->
  psi_input wind' (zmean' wind') ps' (zmean' ps') l false lat nt psz ->
  dims (zmean' wind') = dims (zmean wind) -> shp (dat (zmean' wind')) = shp (dat (zmean wind)) ->
  (forall e, inside (zmean wind) e ->
     getn (zmean' wind') (at_pos e "plev" (List.length l - 1 - e "plev")) = getn (zmean wind) e) ->
  exists r r', zonal_meridional_psi true order zmean cf u (mkNames (Some w) (Some p) (Some "plev") ha hb) = Ok r /\
    zonal_meridional_psi true order' zmean' cf' u' (mkNames (Some w') (Some p') (Some "plev") ha' hb') = Ok r' /\
    forall e, inside (zmean wind) e -> getn r' (at_pos e "plev" (List.length l - 1 - e "plev")) = getn r e.
Proof. exact c38_orientation. Qed.
Print Assumptions C38_psi_level_order_irrelevant.

(** C38.  Every result carries exactly these attributes. *)
Theorem C38_psi_attributes :
  forall (T : Type) (N : Num T) installed order zmean cf (u : uxds T) nm r,
  zonal_meridional_psi installed order zmean cf u nm = Ok r ->
  attrs r = [("long_name", "zonal mean meridional streamfunction"); ("units", "kg/s");
             ("info", "zonal_meridional_psi: integrated meridional streamfunction")].
Proof. exact @psi_attributes. Qed.
Print Assumptions C38_psi_attributes.

Definition ex_wind (down : bool) : da fl :=
  mkDa ["time"; "plev"; "n_face"] (afull [1; 3; 4]%nat (Fin 2))
    [("plev", mkCoord ["plev"] (vec NaN (map Fin (if down then [100; 500; 1000] else rev [100; 500; 1000]))))] [] (Some "V").
Definition ex_ps : da fl := mkDa ["time"; "n_face"] (afull [1; 4]%nat (Fin 700)) [] [] (Some "PS").
Definition ex_lat : coordv fl := mkCoord ["latitudes"] (vec NaN (map Fin [0; 90])).
(** a missing value at the middle level; level 1000 is underground *)
Definition ex_zmean (down : bool) (d : da fl) : da fl :=
  if smem "plev" (dims d)
  then mkDa ["time"; "plev"; "latitudes"] (mkArr [1; 3; 2]%nat (fun i => if Nat.eqb (nth 1 i 0%nat) 1 then NaN else Fin 2))
         [("latitudes", ex_lat)] [] None
  else mkDa ["time"; "latitudes"] (afull [1; 2]%nat (Fin 700)) [("latitudes", ex_lat)] [] None.
Lemma ex_psi_input down : psi_input (ex_wind down) (ex_zmean down (ex_wind down)) ex_ps (ex_zmean down ex_ps)
    [100; 500; 1000] down [0; 90] 1 (fun _ _ => 700).
Proof.
  constructor; try reflexivity.
  - unfold increasing, at_; intros [|[|[|i]]] [|[|[|j]]]; simpl; intros; try lia; try lra.
  - simpl. lia.
  - unfold at_. simpl. lra.
  - left. reflexivity.
  - split; [reflexivity|]. simpl. repeat constructor; simpl; intuition discriminate.
  - right. reflexivity.
  - intros i _. cbn. destruct (Nat.eqb _ 1); eauto.
  - intros t j _ _. cbn. split; [reflexivity|]. unfold at_. simpl. lra.
  - intros i _. exists 700. split; [reflexivity|lra].
Qed.
(** a wind whose level dimension has no coordinate counts as being on levels 0, 1, 2 *)
Example C38_no_coordinate_example :
  let wind := mkDa ["time"; "plev"; "n_face"] (afull [1; 3; 4]%nat (Fin 2)) [] [] (Some "V") in
  psi_input wind (ex_zmean true wind) ex_ps (ex_zmean true ex_ps) [0; 1; 2] true [0; 90] 1 (fun _ _ => 700).
Proof.
  constructor; try reflexivity.
  - unfold increasing, at_; intros [|[|[|i]]] [|[|[|j]]]; simpl; intros; try lia; try lra.
  - simpl. lia.
  - unfold at_. simpl. lra.
  - right. split; [reflexivity|]. split; [reflexivity|]. split; [reflexivity|]. intros [|[|[|k]]]; simpl; intros; try lra. lia.
  - split; [reflexivity|]. simpl. repeat constructor; simpl; intuition discriminate.
  - right. reflexivity.
  - intros i _. cbn. destruct (Nat.eqb _ 1); eauto.
  - intros t j _ _. cbn. split; [reflexivity|]. unfold at_. simpl. lra.
  - intros i _. exists 700. split; [reflexivity|lra].
Qed.
(** flux above the middle level: 2 * (300 - 100), the missing wind adds nothing *)
Example C38_example :
  let e d := if String.eqb d "plev" then 1%nat else 0%nat in
  flux_above (ex_zmean true (ex_wind true)) [100; 500; 1000] true (fun _ _ => 700) e = 400.
Proof.
  cbv zeta. unfold flux_above, depth_of, air, lower_interface, interface, at_. simpl.
  rewrite Rmin_left by lra. rewrite (Rmax_right 0 ((100 + 500) / 2 - 100)) by lra. unfold getn. simpl. lra.
Qed.


(** C39.  A stream function vanishes at the pole.  The code takes the cosine of the latitude in degrees as if it
    were radians: at 90 degrees it is negative wherever the flux is positive. *)
Theorem C39_psi_pole_scaling_refuted :
  forall order zmean cf u w p ha hb bw bp wind ps l down lat nt psz,
  w <> "" -> p <> "" -> slookup w u = Some (bw, wind) -> slookup p u = Some (bp, ps) -> In "plev" (dims wind) ->
  psi_input wind (zmean wind) ps (zmean ps) l down lat nt psz ->
  exists r, zonal_meridional_psi true order zmean cf u (mkNames (Some w) (Some p) (Some "plev") ha hb) = Ok r /\
    forall e, inside (zmean wind) e -> nth (e "latitudes") lat 0 = 90 -> 0 < flux_above (zmean wind) l down psz e ->
      exists x, getn r e = Fin x /\ x < 0.
Proof. exact c39_lemma. Qed.
Print Assumptions C39_psi_pole_scaling_refuted.

Example C39_example : exists e, inside (ex_zmean true (ex_wind true)) e /\ nth (e "latitudes") [0; 90] 0 = 90 /\
  0 < flux_above (ex_zmean true (ex_wind true)) [100; 500; 1000] true (fun _ _ => 700) e.
Proof.
  exists (fun d => if String.eqb d "latitudes" then 1%nat else 0%nat). split; [|split].
  - intros d k. unfold dsize.
    change (dims (ex_zmean true (ex_wind true))) with ["time"; "plev"; "latitudes"].
    change (shp (dat (ex_zmean true (ex_wind true)))) with [1; 3; 2]%nat. cbn [sindex].
    destruct (String.eqb_spec d "time") as [->|N1]; [cbn; intros H; injection H as <-; lia|].
    destruct (String.eqb_spec d "plev") as [->|N2]; [cbn; intros H; injection H as <-; lia|].
    destruct (String.eqb_spec d "latitudes") as [->|N3]; [cbn; intros H; injection H as <-; lia|]. discriminate.
  - reflexivity.
  - unfold flux_above, depth_of, air, lower_interface, interface, at_. simpl.
    rewrite Rmin_left by lra. rewrite (Rmax_right 0 ((100 + 500) / 2 - 100)) by lra. unfold getn. simpl. lra.
Qed.


(** C40.  Without uxarray: ImportError, whatever the arguments. *)
Theorem C40_psi_needs_uxarray :
  forall (T : Type) (N : Num T) order zmean cf (u : uxds T) nm,
  zonal_meridional_psi false order zmean cf u nm = Err ImportError.
Proof. exact @c40_import. Qed.
Print Assumptions C40_psi_needs_uxarray.


(** C40.  KeyError when the wind or the surface pressure is neither named nor found. *)
Theorem C40_psi_variable_not_found :
  forall (T : Type) (N : Num T) order zmean cf (u : uxds T) w p l ha hb,
  (w = None \/ w = Some "" ->
     find_var order (ds_names u) "northward_wind" "Meridional wind" ["V"; "vs"; "meridional_wind"] = Err KeyError ->
     zonal_meridional_psi true order zmean cf u (mkNames w p l ha hb) = Err KeyError) /\
    (forall w0, w = Some w0 -> w0 <> "" -> p = None \/ p = Some "" ->
     find_var order (ds_names u) "surface_air_pressure" "Surface pressure" ["ps"; "p_surface"; "surface_pressure"; "pressure_surface"] = Err KeyError ->
     zonal_meridional_psi true order zmean cf u (mkNames w p l ha hb) = Err KeyError).
Proof. exact @c40_not_found. Qed.
Print Assumptions C40_psi_variable_not_found.


(** C40.  Leaving a name out is the same as passing the name the lookup finds. *)
Theorem C40_psi_detection_is_naming :
  forall (T : Type) (N : Num T) order zmean cf (u : uxds T) w p l ha hb s,
  s <> "" ->
    (w = None \/ w = Some "" ->
     find_var order (ds_names u) "northward_wind" "Meridional wind" ["V"; "vs"; "meridional_wind"] = Ok s ->
     zonal_meridional_psi true order zmean cf u (mkNames w p l ha hb) =
     zonal_meridional_psi true order zmean cf u (mkNames (Some s) p l ha hb)) /\
    (p = None \/ p = Some "" ->
     find_var order (ds_names u) "surface_air_pressure" "Surface pressure" ["ps"; "p_surface"; "surface_pressure"; "pressure_surface"] = Ok s ->
     zonal_meridional_psi true order zmean cf u (mkNames w p l ha hb) =
     zonal_meridional_psi true order zmean cf u (mkNames w (Some s) l ha hb)) /\
    (l = None \/ l = Some "" ->
     find_optional_var order (ds_names u) "air_pressure" "" ["plev"; "pressure_lev"; "pressure_levels"] = Ok (Some s) ->
     zonal_meridional_psi true order zmean cf u (mkNames w p l ha hb) =
     zonal_meridional_psi true order zmean cf u (mkNames w p (Some s) ha hb)) /\
    (ha = None \/ ha = Some "" ->
     find_optional_var order (ds_names u) "" "hybrid A coefficient at layer midpoints" ["hyam"; "hya"; "hybrid_A_midpoints"] = Ok (Some s) ->
     zonal_meridional_psi true order zmean cf u (mkNames w p l ha hb) =
     zonal_meridional_psi true order zmean cf u (mkNames w p l (Some s) hb)) /\
    (hb = None \/ hb = Some "" ->
     find_optional_var order (ds_names u) "" "hybrid B coefficient at layer midpoints" ["hybm"; "hyb"; "hybrid_B_midpoints"] = Ok (Some s) ->
     zonal_meridional_psi true order zmean cf u (mkNames w p l ha hb) =
     zonal_meridional_psi true order zmean cf u (mkNames w p l ha (Some s))).
Proof. exact @c40_detect. Qed.
Print Assumptions C40_psi_detection_is_naming.


(** C40.  With wind, surface pressure and pressure coordinate named, nothing else matters: not the other
    variables, not the order of sets, not the hybrid coefficients. *)
Theorem C40_psi_explicit_names_override :
  forall (T : Type) (N : Num T) order zmean cf (u : uxds T) w p l ha hb bw bp wind ps order' cf' u' ha' hb' bw' bp',
  w <> "" -> p <> "" -> l <> "" -> In l (dims wind) ->
    slookup w u = Some (bw, wind) -> slookup p u = Some (bp, ps) ->
    slookup w u' = Some (bw', wind) -> slookup p u' = Some (bp', ps) ->
    zonal_meridional_psi true order zmean cf u (mkNames (Some w) (Some p) (Some l) ha hb) =
    zonal_meridional_psi true order' zmean cf' u' (mkNames (Some w) (Some p) (Some l) ha' hb').
Proof. exact @c40_explicit. Qed.
Print Assumptions C40_psi_explicit_names_override.


(** C40.  When the pressure coordinate is not a dimension of the wind, the result is that of the same call
    on the dataset whose wind was first interpolated to the 21 mandatory pressure levels 1000 ... 1 hPa, in Pa. *)
Theorem C40_psi_hybrid_path :
  forall (T : Type) (N : Num T) order zmean cf (u : uxds T) w p l ya yb wind ps a b bw bp ba bb ip ha' hb' order' cf',
  w <> "" -> p <> "" -> ya <> "" -> yb <> "" -> p <> w ->
    slookup w u = Some (bw, wind) -> slookup p u = Some (bp, ps) -> slookup ya u = Some (ba, a) -> slookup yb u = Some (bb, b) ->
    (forall s, l = Some s -> s <> "" -> ~ In s (dims wind)) ->
    (l = None \/ l = Some "" -> forall s,
       find_optional_var order (ds_names u) "air_pressure" "" ["plev"; "pressure_lev"; "pressure_levels"] = Ok (Some s) ->
       ~ In s (dims wind)) ->
    interp_hybrid_to_pressure (VSubDa wind) (VSubDa ps) (VSubDa a) (VSubDa b)
      (map (fun hPa => nmul (ofZ hPa) (dec 1000 1))
         [1000; 925; 850; 700; 500; 400; 300; 250; 200; 150; 100; 70; 50; 30; 20; 10; 7; 5; 3; 2; 1]%Z) (ofZ 100000)
      (mkIhp "linear"%string None false None None None (cf wind) None false false) = Ok ip ->
    zonal_meridional_psi true order zmean cf u (mkNames (Some w) (Some p) l (Some ya) (Some yb)) =
    zonal_meridional_psi true order' zmean cf' (sset w (bw, ip) u) (mkNames (Some w) (Some p) (Some "plev") ha' hb').
Proof. exact @psi_hybrid_is_pressure. Qed.
Print Assumptions C40_psi_hybrid_path.


(** C40.  Neither a pressure dimension nor both hybrid coefficients: AttributeError. *)
Theorem C40_psi_no_vertical_coordinate :
  forall (T : Type) (N : Num T) order zmean cf (u : uxds T) w p l ha hb wind bw,
  w <> "" -> p <> "" -> slookup w u = Some (bw, wind) ->
    (forall s, l = Some s -> s <> "" -> ~ In s (dims wind)) ->
    (l = None \/ l = Some "" -> forall s,
       find_optional_var order (ds_names u) "air_pressure" "" ["plev"; "pressure_lev"; "pressure_levels"] = Ok (Some s) ->
       ~ In s (dims wind)) ->
    ((ha = None \/ ha = Some "") /\
     find_optional_var order (ds_names u) "" "hybrid A coefficient at layer midpoints" ["hyam"; "hya"; "hybrid_A_midpoints"] = Ok None) \/
    ((hb = None \/ hb = Some "") /\
     find_optional_var order (ds_names u) "" "hybrid B coefficient at layer midpoints" ["hybm"; "hyb"; "hybrid_B_midpoints"] = Ok None) ->
    zonal_meridional_psi true order zmean cf u (mkNames (Some w) (Some p) l ha hb) = Err AttributeError.
Proof. exact @psi_neither. Qed.
Print Assumptions C40_psi_no_vertical_coordinate.


(** C40.  A NaN in the zonal mean surface pressure or a value <= 0 in the surface pressure: ValueError. *)
Theorem C40_psi_bad_surface_pressure :
  forall (T : Type) (N : Num T) order zmean cf (u : uxds T) w p l ha hb bw bp wind ps,
  w <> "" -> p <> "" -> l <> "" -> In l (dims wind) ->
    slookup w u = Some (bw, wind) -> slookup p u = Some (bp, ps) ->
    (exists i, inb (shp (dat (zmean ps))) i /\ isnan (get (dat (zmean ps)) i) = true) \/
    (exists i, inb (shp (dat ps)) i /\ nle (get (dat ps) i) (ofZ 0) = true) ->
    zonal_meridional_psi true order zmean cf u (mkNames (Some w) (Some p) (Some l) ha hb) = Err ValueError.
Proof. exact @c40_surface. Qed.
Print Assumptions C40_psi_bad_surface_pressure.

(** hypotheses of the C40 theorems: a wind on level dimension "lev", no pressure coordinate, no coefficients *)
Example C40_example :
  let u : uxds fl := [("V", (true, mkDa ["time"; "lev"; "n_face"] (afull [1; 3; 4]%nat (Fin 2)) [] [] (Some "V")));
                      ("PS", (true, ex_ps))] in
  find_var (fun l => l) (ds_names u) "northward_wind" "Meridional wind" ["V"; "vs"; "meridional_wind"] = Ok "V" /\
  find_var (fun l => l) (ds_names u) "surface_air_pressure" "Surface pressure" ["ps"; "p_surface"; "surface_pressure"; "pressure_surface"] = Ok "PS" /\
  find_optional_var (fun l => l) (ds_names u) "air_pressure" "" ["plev"; "pressure_lev"; "pressure_levels"] = Ok None /\
  find_optional_var (fun l => l) (ds_names u) "" "hybrid A coefficient at layer midpoints" ["hyam"; "hya"; "hybrid_A_midpoints"] = Ok None.
Proof. repeat split; vm_compute; reflexivity. Qed.
(** an interpolation that succeeds, as C40_psi_hybrid_path requires *)
Example C40_hybrid_example :
  exists ip, interp_hybrid_to_pressure (VSubDa ex_data) (VSubDa ex_psfc) (VSubDa (ex_coef exA)) (VSubDa (ex_coef exB))
      mandatory_levels (ofZ 100000) (mkIhp "linear" None false None None None (Some "lev") None false false) = Ok ip.
Proof.
  set (lv := map (fun z => IZR z * (1000 / 10)) [1000; 925; 850; 700; 500; 400; 300; 250; 200; 150; 100; 70; 50; 30; 20; 10; 7; 5; 3; 2; 1]%Z).
  destruct (C12_to_C18_example_call MLinear false) as [[H1 H2 H3 H4 _ _ _] _].
  destruct (C12_interp_reproduces_model_levels ex_data ex_psfc (ex_coef exA) (ex_coef exB) "lev" "lev" 1%nat 3%nat exA exB lv 100000
              (mkIhp "linear" None false None None None (Some "lev") None false false) MLinear) as (out & E & _).
  - constructor; auto; try discriminate; try reflexivity. constructor; cbn; auto; intros; discriminate.
  - reflexivity.
  - right. intros i j H. cbn in H. do 21 (destruct i; [do 21 (destruct j; [cbn; try lia; lra|]); lia|]). lia.
  - exists out. exact E.
Qed.


(** C41.  Standard name first (first data variable in dataset order), then long name, then possible names;
    KeyError exactly when nothing matches, and no other exception. *)
Theorem C41_find_var_priority :
  forall order ds std long possible n,
  enumerates order ->
  (find_var order ds std long possible = Ok n ->
     first_with (by_standard std) vname ds n \/
     ((forall v, In v ds -> ~ by_standard std v) /\
      (first_with (by_long long) vname ds n \/
       ((forall v, In v ds -> ~ by_long long v) /\ candidate ds possible n)))) /\
  (first_with (by_standard std) vname ds n -> find_var order ds std long possible = Ok n) /\
  ((forall v, In v ds -> ~ by_standard std v) -> first_with (by_long long) vname ds n ->
     find_var order ds std long possible = Ok n) /\
  (find_var order ds std long possible = Err KeyError <->
     (forall v, In v ds -> ~ by_standard std v) /\ (forall v, In v ds -> ~ by_long long v) /\
     forall n, ~ candidate ds possible n) /\
  (forall e, find_var order ds std long possible = Err e -> e = KeyError).
Proof. exact c41_lemma. Qed.
Print Assumptions C41_find_var_priority.


(** C41.  The optional lookup never raises and returns None exactly when nothing matches. *)
Theorem C41_find_optional_var :
  forall order ds std long possible,
  enumerates order ->
  (find_optional_var order ds std long possible = Ok None <->
     (forall v, In v ds -> ~ by_standard std v) /\ (forall v, In v ds -> ~ by_long long v) /\
     forall n, ~ candidate ds possible n) /\
  (forall n, find_optional_var order ds std long possible = Ok (Some n) <->
             find_var order ds std long possible = Ok n) /\
  (forall e, find_optional_var order ds std long possible <> Err e).
Proof. exact c41_optional_lemma. Qed.
Print Assumptions C41_find_optional_var.

(** the second variable carries the standard name; the first one would match the long name *)
Example C41_example :
  let ds := [mkVar "a" true [("long_name", "MERIDIONAL WIND")]; mkVar "b" true [("standard_name", "Northward_Wind")]] in
  find_var (fun l => l) ds "northward_wind" "Meridional wind" [] = Ok "b" /\
  find_var (fun l => l) ds "" "Meridional wind" [] = Ok "a" /\
  find_var (fun l => l) ds "" "" ["A"] = Ok "a".
Proof. repeat split; vm_compute; reflexivity. Qed.


(** C42.  Two iteration orders of the same set, two different answers for the same dataset. *)
Theorem C42_possible_name_choice_refuted :
  exists order1 order2 ds,
  enumerates order1 /\ enumerates order2 /\
  find_var order1 ds "northward_wind" "Meridional wind" ["V"; "vs"; "meridional_wind"] = Ok "V" /\
  find_var order2 ds "northward_wind" "Meridional wind" ["V"; "vs"; "meridional_wind"] = Ok "vs".
Proof. exact c42_refuted. Qed.
Print Assumptions C42_possible_name_choice_refuted.


(** C42.  Each candidate present in the dataset is the answer under some iteration order. *)
Theorem C42_any_candidate_can_be_chosen :
  forall ds std long possible n,
  (forall v, In v ds -> ~ by_standard std v) -> (forall v, In v ds -> ~ by_long long v) ->
  candidate ds possible n ->
  exists order, enumerates order /\ find_var order ds std long possible = Ok n.
Proof. exact c42_any_candidate. Qed.
Print Assumptions C42_any_candidate_can_be_chosen.


(** C42.  With only one candidate the answer does not depend on the order. *)
Theorem C42_unique_candidate_is_chosen :
  forall order ds std long possible n,
  enumerates order ->
  (forall v, In v ds -> ~ by_standard std v) -> (forall v, In v ds -> ~ by_long long v) ->
  candidate ds possible n -> (forall m, candidate ds possible m -> m = n) ->
  find_var order ds std long possible = Ok n.
Proof. exact c42_unique. Qed.
Print Assumptions C42_unique_candidate_is_chosen.

Example C42_example : candidate [mkVar "V" true []; mkVar "x" true []] ["V"; "vs"] "V".
Proof. split; [exists "V"; split; [left; auto|left; auto]|]. exists (mkVar "V" true []). split; [left; auto|auto]. Qed.


(** C70.  The documented call with a pressure coordinate of another name (e.g. pressure_lev) never succeeds. *)
Theorem C70_psi_other_pressure_name_fails :
  forall (T : Type) (N : Num T) order zmean cf (u : uxds T) w p l ha hb bw bp wind ps c,
  w <> "" -> p <> "" -> l <> "" -> In l (dims wind) ->
    slookup w u = Some (bw, wind) -> slookup p u = Some (bp, ps) ->
    slookup l (coords wind) = Some c -> cdims c = [l] -> l <> "plev" ->
    exists e, zonal_meridional_psi true order zmean cf u (mkNames (Some w) (Some p) (Some l) ha hb) = Err e.
Proof. exact @c70_lemma. Qed.
Print Assumptions C70_psi_other_pressure_name_fails.

Example C70_example :
  let w : da fl := mkDa ["time"; "pressure_lev"; "n_face"] (afull [1; 3; 4]%nat (Fin 2))
         [("pressure_lev", mkCoord ["pressure_lev"] (vec NaN [Fin 100; Fin 500; Fin 1000]))] [] (Some "V") in
  In "pressure_lev" (dims w) /\ exists c, slookup "pressure_lev" (coords w) = Some c /\ cdims c = ["pressure_lev"].
Proof. cbv zeta. split; [cbn; auto|]. eexists. split; reflexivity. Qed.

