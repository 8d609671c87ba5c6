(** C120: the unit of pressure. *)
From Coq Require Import Reals List Bool Arith ZArith Lra Lia String.
From Verif Require Import PyBase PyFacts Num NumFacts Arr Hybrid DeltaP Interp1d InterpHyb InterpSigma InterpSigmaFull SpecUnits UnitScale InterpFinal PropertiesLevels PropertiesDeltaP.
Import ListNotations.
Local Open Scope R_scope.

(** C120, delta_pressure.  All three pressures in another unit: the same outcome, the thicknesses (and the level coordinate of a
    labelled result) in that unit.  Any levels, any surface pressure, NaN and infinities included. *)
Theorem C120_delta_pressure :
  forall c lv sp top, 0 < c ->
  outcomes (dp_units c) (delta_pressure lv sp top) (delta_pressure (lev_units c lv) (surf_units c sp) (option_map (rescale c) top)).
Proof. intros c lv sp top H. exact (c120_dp c H lv sp top). Qed.
Print Assumptions C120_delta_pressure.

(** C120, hybrid pressures: surface and reference pressure in another unit, coefficients unchanged. *)
Theorem C120_pressure_at_hybrid_levels :
  forall c ps hya hyb p0, 0 < c ->
  pressure_at_hybrid_levels (val_units c ps) hya hyb (rescale c p0) =
  rmap (fun r => (fst r, val_units c (snd r))) (pressure_at_hybrid_levels ps hya hyb p0).
Proof. intros c ps hya hyb p0 H. exact (c120_press c H ps hya hyb p0). Qed.
Print Assumptions C120_pressure_at_hybrid_levels.

Theorem C120_delta_pressure_hybrid :
  forall c ps hya hyb ok p0, 0 < c ->
  delta_pressure_hybrid (val_units c ps) hya hyb ok (rescale c p0) = rmap (val_units c) (delta_pressure_hybrid ps hya hyb ok p0).
Proof. intros c ps hya hyb ok p0 H. exact (c120_dph c H ps hya hyb ok p0). Qed.
Print Assumptions C120_delta_pressure_hybrid.

(** C120, interp_sigma_to_hybrid: the result does not change at all, whatever number type ([store]) the data have. *)
Theorem C120_interp_sigma_to_hybrid :
  forall c store data sig ps hyam hybm p0 lev_dim cf method, 0 < c ->
  interp_sigma_stored store data sig (da_units c ps) hyam hybm (rescale c p0) lev_dim cf method =
  interp_sigma_stored store data sig ps hyam hybm p0 lev_dim cf method.
Proof. intros c store data sig ps hyam hybm p0 ld cf m H. exact (c120_stored c H store data sig ps hyam hybm p0 ld cf m). Qed.
Print Assumptions C120_interp_sigma_to_hybrid.

(** C120, interp_hybrid_to_pressure: surface, reference and target pressures in another unit.  The same outcome and the same
    values, linear or logarithmic, chunked or not, with or without extrapolation; the plev coordinate is in the new unit.  The data
    must not have a coordinate called plev other than its level coordinate, the surface fields no dimension called plev. *)
Theorem C120_interp_hybrid_to_pressure :
  forall c data ps hyam hybm levels p0 a, 0 < c ->
  (forall d, as_da data = Some d -> In "plev"%string (map fst (coords d)) -> level_name a = Some "plev"%string) ->
  (a_extrapolate a = true -> (forall t, as_da ps = Some t \/ a_t_bot a = Some t \/ a_phi_sfc a = Some t -> ~ In "plev"%string (dims t))) ->
  outcomes (plev_units c) (interp_hybrid_to_pressure data ps hyam hybm levels p0 a)
    (interp_hybrid_to_pressure data (val_units c ps) hyam hybm (map (rescale c) levels) (rescale c p0) a).
Proof. intros c data ps hyam hybm levels p0 a H. exact (c120_ihp c H data ps hyam hybm levels p0 a). Qed.
Print Assumptions C120_interp_hybrid_to_pressure.

(** ** from hPa to Pa *)
Definition ps_hpa : da fl := mkDa ["lat"; "lon"]%string (mkArr [2; 2]%nat (fun _ => Fin 1013)) [] [] None.
Example C120_example_delta : exists o o',
  delta_pressure (mkLevels false [Fin 100; Fin 500; Fin 1000] []) (SDa ps_hpa) (Some (Fin 50)) = Ok (ODa o) /\
  delta_pressure (mkLevels false [Fin 10000; Fin 50000; Fin 100000] []) (SDa (da_units 100 ps_hpa)) (Some (Fin 5000)) = Ok (ODa o') /\
  dat o' = amap (rescale 100) (dat o) /\ get (dat (da_units 100 ps_hpa)) [0; 0]%nat = Fin 101300.
Proof.
  destruct C04_example as (_ & _ & out & E). change (mkDa ["lat"; "lon"]%string (mkArr [2; 2]%nat (fun _ => Fin 1013)) [] [] None) with ps_hpa in E.
  cbn [map] in E. destruct (C04_delta_pressure_labels _ _ _ _ E) as (o & -> & _).
  pose proof (C120_delta_pressure 100 (mkLevels false [Fin 100; Fin 500; Fin 1000] []) (SDa ps_hpa) (Some (Fin 50)) ltac:(lra)) as H.
  rewrite E in H. unfold lev_units in H. cbn [surf_units lev_da lev_vals lev_attrs map option_map rescale] in H.
  replace (100 * 100) with 10000 in H by lra. replace (100 * 500) with 50000 in H by lra. replace (100 * 1000) with 100000 in H by lra.
  replace (100 * 50) with 5000 in H by lra.
  destruct (delta_pressure _ (SDa (da_units 100 ps_hpa)) _) as [[o'|o']|]; try contradiction. exists o, o'.
  split; [exact E|]. split; [reflexivity|]. split; [apply H|]. cbn. f_equal. lra.
Qed.
(** a column of two levels at 0 and 10 hPa, interpolated to 5 hPa, and the same call in Pa *)
Example C120_example_interp : exists out out',
  interp_hybrid_to_pressure (VDa (two up up)) (VDa ex_scalar) (VDa (two_bare up)) (VDa (two_bare zero)) [Fin 5] (Fin 1) (two_args false) = Ok out /\
  interp_hybrid_to_pressure (VDa (two up up)) (VDa (da_units 100 ex_scalar)) (VDa (two_bare up)) (VDa (two_bare zero)) [Fin 500] (Fin 100) (two_args false) = Ok out' /\
  dat out' = dat out.
Proof.
  destruct C109_example as (out & _ & E & _).
  pose proof (C120_interp_hybrid_to_pressure 100 (VDa (two up up)) (VDa ex_scalar) (VDa (two_bare up)) (VDa (two_bare zero)) [Fin 5] (Fin 1) (two_args false) ltac:(lra)) as H.
  rewrite E in H. cbn [val_units map rescale] in H. replace (100 * 5) with 500 in H by lra. replace (100 * 1) with 100 in H by lra.
  destruct (interp_hybrid_to_pressure _ (VDa (da_units 100 ex_scalar)) _ _ _ _ _) as [out'|e].
  - exists out, out'. split; [exact E|]. split; [reflexivity|]. apply H.
    + intros d Ed I. injection Ed as <-. cbn in I. destruct I as [I|[]]. discriminate.
    + discriminate.
  - exfalso. apply H.
    + intros d Ed I. injection Ed as <-. cbn in I. destruct I as [I|[]]. discriminate.
    + discriminate.
Qed.
