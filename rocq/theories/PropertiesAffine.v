(** C121: the unit of the interpolated field. *)
From Coq Require Import Reals List Bool Arith ZArith Lra Lia String.
From Verif Require Import PyBase PyFacts Num NumFacts Arr Hybrid Interp1d InterpHyb InterpSigma InterpSigmaFull InterpMulti SpecUnits SpecAffine AffineInterp
  InterpFinal PropertiesInterp2 PropertiesLevels PropertiesSigma PropertiesMultidim4 MultiOutcome.
Import ListNotations.
Local Open Scope R_scope.

(** C121, interp_hybrid_to_pressure.  Any data (NaN and infinities included), linear or logarithmic, chunked or not; with extrapolation
    as long as the variable is not one of the two that have formulas in kelvin and metres. *)
Theorem C121_interp_hybrid_to_pressure :
  forall a b data ps hyam hybm levels p0 r, a <> 0 ->
  (a_extrapolate r = true -> a_variable r <> Some "temperature"%string /\ a_variable r <> Some "geopotential"%string) ->
  interp_hybrid_to_pressure (val_convert a b data) ps hyam hybm levels p0 r = rmap (da_convert a b) (interp_hybrid_to_pressure data ps hyam hybm levels p0 r).
Proof. intros a b data ps hyam hybm levels p0 r H. exact (c121_ihp a b H data ps hyam hybm levels p0 r). Qed.
Print Assumptions C121_interp_hybrid_to_pressure.

(** C121, interp_sigma_to_hybrid, data stored as floating point numbers. *)
Theorem C121_interp_sigma_to_hybrid :
  forall a b data sig ps hyam hybm p0 lev_dim cf method, a <> 0 ->
  interp_sigma_stored (fun v => v) (da_convert a b data) sig ps hyam hybm p0 lev_dim cf method =
  rmap (da_convert a b) (interp_sigma_stored (fun v => v) data sig ps hyam hybm p0 lev_dim cf method).
Proof. intros a b data sig ps hyam hybm p0 ld cf m H. exact (c121_stored a b H data sig ps hyam hybm p0 ld cf m). Qed.
Print Assumptions C121_interp_sigma_to_hybrid.

(** C121, interp_multidim, with the missing value and the fill value in the new unit too. *)
Theorem C121_interp_multidim :
  forall a b md data lat_out lon_out lat_in lon_in cyclic missing fill, a <> 0 ->
  outcomes (field_convert a b fill) (interp_multidim md data lat_out lon_out lat_in lon_in cyclic missing fill)
    (interp_multidim md (val_convert a b data) lat_out lon_out lat_in lon_in cyclic (option_map (convert a b) missing) (option_map (convert a b) fill)).
Proof. intros a b md data yo xo la lo cyclic missing fill H. exact (c121_multi a b H md data yo xo la lo cyclic missing fill). Qed.
Print Assumptions C121_interp_multidim.

(** Data stored as whole numbers: interp_sigma_to_hybrid rounds in whatever unit the data are in.  A profile of 10 and 11 degrees gives
    10 between them, the same profile in tenths of a degree gives 105. *)
Theorem C121_integer_refuted : exists data sig ps hyam hybm out out',
  interp_sigma_stored (store_int NaN) data sig ps hyam hybm (Fin 100000) (Some "lev"%string) None "linear" = Ok out /\
  interp_sigma_stored (store_int NaN) (da_convert 10 0 data) sig ps hyam hybm (Fin 100000) (Some "lev"%string) None "linear" = Ok out' /\
  get (dat out') [0%nat] <> get (dat (da_convert 10 0 out)) [0%nat].
Proof.
  destruct C100_storage_refuted as (data & ps & ya & yb & sig & _ & (o & E & V) & out & E' & V').
  exists data, sig, ps, ya, yb, out. rewrite (c121_any_store (store_int NaN) (da_convert 10 0 data)), C121_interp_sigma_to_hybrid by lra. rewrite E. cbn [rmap]. eexists. split; [exact E'|]. split; [reflexivity|].
  unfold UnitScale.dmap. cbn [dat da_convert get amap]. rewrite V, V'. unfold convert. cbn [nmul nadd NumFl fl_mul fl_add]. replace (10 * 10.5 + 0) with 105 by lra.
  unfold store_int. cbn [ntrunc NumFl fl_toZ]. replace (Rtruncz 105) with 105%Z.
  - cbn. intros Q. injection Q. lra.
  - symmetry. unfold Rtruncz, Rfloor. destruct (Rlt_dec 105 0); [lra|]. destruct (base_Int_part 105) as [H1 H2].
    assert (104 < Int_part 105)%Z by (apply lt_IZR; lra). assert (Int_part 105 < 106)%Z by (apply lt_IZR; lra). lia.
Qed.
Print Assumptions C121_integer_refuted.

(** ** examples: Celsius to Fahrenheit *)
Lemma fahrenheit : 1.8 <> 0. Proof. lra. Qed.
Example C121_example_hybrid : exists out,
  interp_hybrid_to_pressure (VDa (two up up)) (VDa ex_scalar) (VDa (two_bare up)) (VDa (two_bare zero)) [Fin 5] (Fin 1) (two_args false) = Ok out /\
  interp_hybrid_to_pressure (VDa (da_convert 1.8 32 (two up up))) (VDa ex_scalar) (VDa (two_bare up)) (VDa (two_bare zero)) [Fin 5] (Fin 1) (two_args false) = Ok (da_convert 1.8 32 out) /\
  get (dat (da_convert 1.8 32 (two up up))) [1%nat] = Fin 50.
Proof.
  destruct C109_example as (out & _ & E & _). exists out. split; [exact E|]. split.
  - pose proof (C121_interp_hybrid_to_pressure 1.8 32 (VDa (two up up)) (VDa ex_scalar) (VDa (two_bare up)) (VDa (two_bare zero)) [Fin 5] (Fin 1) (two_args false) fahrenheit) as H.
    rewrite E in H. apply H. discriminate.
  - cbn. f_equal. lra.
Qed.
Example C121_example_sigma : exists out,
  interp_sigma_stored (fun v => v) exl_data (map Fin [0.1; 0.5; 0.9]) ex_sig_ps (ex_sig_hy 2) (ex_sig_hy 2) (Fin 1000) (Some "lev"%string) None "linear" = Ok out /\
  interp_sigma_stored (fun v => v) (da_convert 1.8 32 exl_data) (map Fin [0.1; 0.5; 0.9]) ex_sig_ps (ex_sig_hy 2) (ex_sig_hy 2) (Fin 1000) (Some "lev"%string) None "linear" = Ok (da_convert 1.8 32 out).
Proof.
  destruct (C101_example (fun v => v)) as (out & _ & E & _). exists out. split; [exact E|]. rewrite C121_interp_sigma_to_hybrid by exact fahrenheit. rewrite E. reflexivity.
Qed.
Example C121_example_multidim : exists out out',
  interp_multidim MdLinear (VDa txy) [Fin 1; Fin 2] [Fin 3] None None false (Some (Fin (-999))) (Some NaN) = Ok out /\
  interp_multidim MdLinear (VDa (da_convert 2 1 txy)) [Fin 1; Fin 2] [Fin 3] None None false (Some (Fin (-1997))) (Some NaN) = Ok out' /\
  dat out' = amap (convert 2 1) (dat out) /\ coords out' = coords out.
Proof.
  assert (R : MultiOutcome.ranked txy) by reflexivity.
  destruct (C119_labelled_outcomes fl NumFl MdLinear (VDa txy) txy [Fin 1; Fin 2] [Fin 3] None None false (Some (Fin (-999))) (Some NaN) (or_introl eq_refl) R) as (_ & _ & _ & K).
  destruct K as (out & E & _); [cbn; lia|intros [Z|Z]; cbn in Z; lia|discriminate|].
  pose proof (C121_interp_multidim 2 1 MdLinear (VDa txy) [Fin 1; Fin 2] [Fin 3] None None false (Some (Fin (-999))) (Some NaN) ltac:(lra)) as H. rewrite E in H.
  cbn [val_convert option_map] in H. replace (convert 2 1 (Fin (-999))) with (Fin (-1997)) in H by (cbn; f_equal; lra). change (convert 2 1 NaN) with NaN in H.
  destruct (interp_multidim _ (VDa (da_convert _ _ _)) _ _ _ _ _ _ _) as [out'|]; [|contradiction]. exists out, out'. destruct H as (_ & V & _ & _ & _ & C). auto.
Qed.
