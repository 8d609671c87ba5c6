From Coq Require Import Reals List Bool Arith ZArith Lra Lia String Ratan Machin.
From Verif Require Import PyBase Num NumFacts Arr ArrFacts PyFacts XrFacts CellFacts ChunkFacts ListFacts Spec SpecPsi Hybrid HybridFacts
  DeltaP DeltaPFacts DeltaPApi Interp1d Interp1dFacts InterpHyb InterpExtrap ExtrapFacts InterpHybFacts InterpSigmaFacts StrFn GcUtil SpecVar GcUtilFacts Psi PsiFacts PsiApi.
Import ListNotations.
Local Open Scope R_scope.
Local Open Scope string_scope.

Lemma given_some s : s <> "" -> given (Some s) = Some s.
Proof. intros H. unfold given. destruct (String.eqb_spec s ""); congruence. Qed.
Lemma resolve_some s x : s <> "" -> resolve (Some s) x = Ok s.
Proof. intros H. unfold resolve. rewrite given_some; auto. Qed.
Lemma resolve_opt_some s x : s <> "" -> resolve_opt (Some s) x = Ok (Some s).
Proof. intros H. unfold resolve_opt. rewrite given_some; auto. Qed.
Lemma optional_ok order ds a b c : exists r, find_optional_var order ds a b c = Ok r.
Proof.
  unfold find_optional_var, find_var.
  destruct (if String.eqb a "" then _ else _); [eauto|]. destruct (if String.eqb b "" then _ else _); [eauto|].
  destruct (find _ _); eauto.
Qed.
Lemma resolve_opt_ok n order ds a b c : exists r, resolve_opt n (find_optional_var order ds a b c) = Ok r.
Proof. unfold resolve_opt. destruct (given n); [eauto|apply optional_ok]. Qed.
Lemma ds_get_ok {T} (u : uxds T) w b x : slookup w u = Some (b, x) -> ds_get u w = Ok x.
Proof. intros H. unfold ds_get. rewrite H. reflexivity. Qed.

Section G.
  Context {T : Type} {N : Num T}.
  (** the pressure-level path with explicit names *)
  Lemma psi_pressure order zmean cf (u : uxds T) w p l ha hb bw bp wind ps :
    w <> "" -> p <> "" -> l <> "" -> slookup w u = Some (bw, wind) -> slookup p u = Some (bp, ps) -> In l (dims wind) ->
    zonal_meridional_psi true order zmean cf u (mkNames (Some w) (Some p) (Some l) ha hb) = psi_integrate zmean wind l ps.
  Proof.
    intros Hw Hp Hl Gw Gp Hi. unfold zonal_meridional_psi. cbn [negb n_wind n_ps n_plev n_hyam n_hybm].
    rewrite !resolve_some by auto. cbn [bind].
    destruct (resolve_opt_ok ha order (ds_names u) "" "hybrid A coefficient at layer midpoints" ["hyam"; "hya"; "hybrid_A_midpoints"]) as (ra & ->).
    destruct (resolve_opt_ok hb order (ds_names u) "" "hybrid B coefficient at layer midpoints" ["hybm"; "hyb"; "hybrid_B_midpoints"]) as (rb & ->).
    rewrite resolve_opt_some by auto. cbn [bind]. rewrite (ds_get_ok _ _ _ _ Gw). cbn [bind].
    rewrite (proj2 (smem_In l (dims wind)) Hi). rewrite (ds_get_ok _ _ _ _ Gp). reflexivity.
  Qed.
  Lemma not_on_plev order (u : uxds T) l (wind : da T) :
    (forall s, l = Some s -> s <> "" -> ~ In s (dims wind)) ->
    (l = None \/ l = Some "" -> forall s,
       find_optional_var order (ds_names u) "air_pressure" "" ["plev"; "pressure_lev"; "pressure_levels"] = Ok (Some s) ->
       ~ In s (dims wind)) ->
    exists r, resolve_opt l (find_optional_var order (ds_names u) "air_pressure" "" ["plev"; "pressure_lev"; "pressure_levels"]) = Ok r /\
              forall s, r = Some s -> ~ In s (dims wind).
  Proof.
    intros H1 H2. unfold resolve_opt. destruct l as [s|]; cbn [given].
    - destruct (String.eqb_spec s "") as [->|Hs].
      + destruct (optional_ok order (ds_names u) "air_pressure" "" ["plev"; "pressure_lev"; "pressure_levels"]) as (r & E).
        rewrite E. exists r. split; auto. intros s' ->. apply (H2 (or_intror eq_refl)). auto.
      + exists (Some s). split; auto. intros s' Es. injection Es as <-. apply H1; auto.
    - destruct (optional_ok order (ds_names u) "air_pressure" "" ["plev"; "pressure_lev"; "pressure_levels"]) as (r & E).
      rewrite E. exists r. split; auto. intros s' ->. apply (H2 (or_introl eq_refl)). auto.
  Qed.
  Lemma psi_hybrid order zmean cf (u : uxds T) w p l ya yb wind ps a b bw bp ba bb :
    w <> "" -> p <> "" -> ya <> "" -> yb <> "" ->
    slookup w u = Some (bw, wind) -> slookup p u = Some (bp, ps) -> slookup ya u = Some (ba, a) -> slookup yb u = Some (bb, b) ->
    (forall s, l = Some s -> s <> "" -> ~ In s (dims wind)) ->
    (l = None \/ l = Some "" -> forall s,
       find_optional_var order (ds_names u) "air_pressure" "" ["plev"; "pressure_lev"; "pressure_levels"] = Ok (Some s) ->
       ~ In s (dims wind)) ->
    zonal_meridional_psi true order zmean cf u (mkNames (Some w) (Some p) l (Some ya) (Some yb)) =
    (do ip <- interp_hybrid_to_pressure (VSubDa wind) (VSubDa ps) (VSubDa a) (VSubDa b) mandatory_levels (ofZ 100000)
                   (mkIhp "linear"%string None false None None None (cf wind) None false false) ;;
     psi_integrate zmean ip "plev" ps).
  Proof.
    intros Hw Hp Hya Hyb Gw Gp Ga Gb Hl1 Hl2. unfold zonal_meridional_psi. cbn [negb n_wind n_ps n_plev n_hyam n_hybm].
    rewrite !resolve_some by auto. cbn [bind]. rewrite !resolve_opt_some by auto. cbn [bind].
    destruct (not_on_plev order u l wind Hl1 Hl2) as (r & Er & Hr). rewrite Er. cbn [bind].
    rewrite (ds_get_ok _ _ _ _ Gw), (ds_get_ok _ _ _ _ Gp), (ds_get_ok _ _ _ _ Ga), (ds_get_ok _ _ _ _ Gb).
    destruct r as [s|]; cbn [bind]; [|reflexivity].
    destruct (smem s (dims wind)) eqn:E; [apply smem_In in E; destruct (Hr s eq_refl E)|]. reflexivity.
  Qed.
  Lemma psi_neither order zmean cf (u : uxds T) w p l ha hb wind bw :
    w <> "" -> p <> "" -> slookup w u = Some (bw, wind) ->
    (forall s, l = Some s -> s <> "" -> ~ In s (dims wind)) ->
    (l = None \/ l = Some "" -> forall s,
       find_optional_var order (ds_names u) "air_pressure" "" ["plev"; "pressure_lev"; "pressure_levels"] = Ok (Some s) ->
       ~ In s (dims wind)) ->
    ((ha = None \/ ha = Some "") /\
     find_optional_var order (ds_names u) "" "hybrid A coefficient at layer midpoints" ["hyam"; "hya"; "hybrid_A_midpoints"] = Ok None) \/
    ((hb = None \/ hb = Some "") /\
     find_optional_var order (ds_names u) "" "hybrid B coefficient at layer midpoints" ["hybm"; "hyb"; "hybrid_B_midpoints"] = Ok None) ->
    zonal_meridional_psi true order zmean cf u (mkNames (Some w) (Some p) l ha hb) = Err AttributeError.
  Proof.
    intros Hw Hp Gw Hl1 Hl2 Hh. unfold zonal_meridional_psi. cbn [negb n_wind n_ps n_plev n_hyam n_hybm].
    rewrite !resolve_some by auto. cbn [bind].
    assert (Ha : exists ra, resolve_opt ha (find_optional_var order (ds_names u) "" "hybrid A coefficient at layer midpoints" ["hyam"; "hya"; "hybrid_A_midpoints"]) = Ok ra)
      by apply resolve_opt_ok.
    assert (Hb : exists rb, resolve_opt hb (find_optional_var order (ds_names u) "" "hybrid B coefficient at layer midpoints" ["hybm"; "hyb"; "hybrid_B_midpoints"]) = Ok rb)
      by apply resolve_opt_ok.
    destruct Ha as (ra & Ea), Hb as (rb & Eb). rewrite Ea, Eb. cbn [bind].
    destruct (not_on_plev order u l wind Hl1 Hl2) as (r & Er & Hr). rewrite Er. cbn [bind].
    assert (Hab : ra = None \/ rb = None).
    { destruct Hh as [[Hn Hf]|[Hn Hf]]; [left|right].
      - rewrite Hf in Ea. unfold resolve_opt in Ea. destruct Hn as [-> | ->]; cbn in Ea; congruence.
      - rewrite Hf in Eb. unfold resolve_opt in Eb. destruct Hn as [-> | ->]; cbn in Eb; congruence. }
    assert (Hon : (match r with Some l0 => do w0 <- ds_get u w ;; Ok (if smem l0 (dims w0) then Some l0 else None) | None => Ok None end) = Ok None).
    { destruct r as [s|]; auto. rewrite (ds_get_ok _ _ _ _ Gw). cbn [bind].
      destruct (smem s (dims wind)) eqn:E; auto. apply smem_In in E. destruct (Hr s eq_refl E). }
    rewrite Hon. cbn [bind]. destruct Hab as [-> | ->]; auto. destruct ra; auto.
  Qed.

  (** detection is the same as passing the detected name *)
  Lemma psi_detect_wind order zmean cf (u : uxds T) n0 w p l ha hb : n0 = None \/ n0 = Some "" -> w <> "" ->
    find_var order (ds_names u) "northward_wind" "Meridional wind" ["V"; "vs"; "meridional_wind"] = Ok w ->
    zonal_meridional_psi true order zmean cf u (mkNames n0 p l ha hb) =
    zonal_meridional_psi true order zmean cf u (mkNames (Some w) p l ha hb).
  Proof.
    intros H Hw Hf. unfold zonal_meridional_psi. cbn [negb n_wind n_ps n_plev n_hyam n_hybm].
    rewrite resolve_some by auto. unfold resolve at 1. destruct H as [-> | ->]; cbn [given String.eqb]; rewrite Hf; reflexivity.
  Qed.
  Lemma psi_detect_ps order zmean cf (u : uxds T) n0 w p l ha hb : n0 = None \/ n0 = Some "" -> p <> "" ->
    find_var order (ds_names u) "surface_air_pressure" "Surface pressure" ["ps"; "p_surface"; "surface_pressure"; "pressure_surface"] = Ok p ->
    zonal_meridional_psi true order zmean cf u (mkNames w n0 l ha hb) =
    zonal_meridional_psi true order zmean cf u (mkNames w (Some p) l ha hb).
  Proof.
    intros H Hp Hf. unfold zonal_meridional_psi. cbn [negb n_wind n_ps n_plev n_hyam n_hybm].
    destruct (resolve w _); auto. cbn [bind].
    rewrite (resolve_some p) by auto. unfold resolve at 1. destruct H as [-> | ->]; cbn [given String.eqb]; rewrite Hf; reflexivity.
  Qed.
  Lemma psi_detect_plev order zmean cf (u : uxds T) n0 w p l ha hb : n0 = None \/ n0 = Some "" -> l <> "" ->
    find_optional_var order (ds_names u) "air_pressure" "" ["plev"; "pressure_lev"; "pressure_levels"] = Ok (Some l) ->
    zonal_meridional_psi true order zmean cf u (mkNames w p n0 ha hb) =
    zonal_meridional_psi true order zmean cf u (mkNames w p (Some l) ha hb).
  Proof.
    intros H Hp Hf. unfold zonal_meridional_psi. cbn [negb n_wind n_ps n_plev n_hyam n_hybm].
    rewrite (resolve_opt_some l) by auto.
    assert (E : resolve_opt n0 (find_optional_var order (ds_names u) "air_pressure" "" ["plev"; "pressure_lev"; "pressure_levels"]) = Ok (Some l))
      by (unfold resolve_opt; destruct H as [-> | ->]; cbn [given String.eqb]; exact Hf).
    rewrite E. reflexivity.
  Qed.
  Lemma psi_detect_hyam order zmean cf (u : uxds T) n0 w p l ha hb : n0 = None \/ n0 = Some "" -> ha <> "" ->
    find_optional_var order (ds_names u) "" "hybrid A coefficient at layer midpoints" ["hyam"; "hya"; "hybrid_A_midpoints"] = Ok (Some ha) ->
    zonal_meridional_psi true order zmean cf u (mkNames w p l n0 hb) =
    zonal_meridional_psi true order zmean cf u (mkNames w p l (Some ha) hb).
  Proof.
    intros H Hp Hf. unfold zonal_meridional_psi. cbn [negb n_wind n_ps n_plev n_hyam n_hybm].
    rewrite (resolve_opt_some ha) by auto.
    assert (E : resolve_opt n0 (find_optional_var order (ds_names u) "" "hybrid A coefficient at layer midpoints" ["hyam"; "hya"; "hybrid_A_midpoints"]) = Ok (Some ha))
      by (unfold resolve_opt; destruct H as [-> | ->]; cbn [given String.eqb]; exact Hf).
    rewrite E. reflexivity.
  Qed.
  Lemma psi_detect_hybm order zmean cf (u : uxds T) n0 w p l ha hb : n0 = None \/ n0 = Some "" -> hb <> "" ->
    find_optional_var order (ds_names u) "" "hybrid B coefficient at layer midpoints" ["hybm"; "hyb"; "hybrid_B_midpoints"] = Ok (Some hb) ->
    zonal_meridional_psi true order zmean cf u (mkNames w p l ha n0) =
    zonal_meridional_psi true order zmean cf u (mkNames w p l ha (Some hb)).
  Proof.
    intros H Hp Hf. unfold zonal_meridional_psi. cbn [negb n_wind n_ps n_plev n_hyam n_hybm].
    rewrite (resolve_opt_some hb) by auto.
    assert (E : resolve_opt n0 (find_optional_var order (ds_names u) "" "hybrid B coefficient at layer midpoints" ["hybm"; "hyb"; "hybrid_B_midpoints"]) = Ok (Some hb))
      by (unfold resolve_opt; destruct H as [-> | ->]; cbn [given String.eqb]; exact Hf).
    rewrite E. reflexivity.
  Qed.

  Lemma interp_has_plev d p a b levels p0 cf (ip : da T) :
    interp_hybrid_to_pressure (VSubDa d) (VSubDa p) (VSubDa a) (VSubDa b) levels p0
      (mkIhp "linear"%string None false None None None cf None false false) = Ok ip -> In "plev" (dims ip).
  Proof.
    unfold interp_hybrid_to_pressure. destruct (ihp_checks _ _ _ _ _) as [[lev mm]|]; [|discriminate]. cbn [bind fst snd].
    unfold ihp_compute. destruct (sindex lev (dims d)) as [ax|] eqn:E; [|discriminate]. cbn [oget bind].
    destruct (pressure_at_hybrid_levels _ _ _ _) as [[wn [| pr0 | | ]]|]; try discriminate. cbn [bind snd].
    destruct (xr_transpose _ _) as [pr|]; [|discriminate]. cbn [bind chunks is_none other_dask negb orb andb a_extrapolate].
    destruct (interp_nd _ _ _ _ _) as [o|]; [|discriminate]. cbn [bind].
    destruct (negb (if in_dec _ _ _ then _ else _)); [discriminate|].
    destruct (negb (forallb _ _)); [discriminate|]. intros H. injection H as <-. cbn [dims].
    apply sindex_Some in E. apply nth_error_split in E. destruct E as (l1 & l2 & -> & <-).
    rewrite InterpSigmaFacts.upd_app. apply in_or_app. right. left. auto.
  Qed.

  (** the hybrid path is the pressure path applied to the interpolated wind *)
  Lemma psi_hybrid_is_pressure order zmean cf (u : uxds T) w p l ya yb wind ps a b bw bp ba bb ip ha' hb' order' cf' :
    w <> "" -> p <> "" -> ya <> "" -> yb <> "" -> p <> w ->
    slookup w u = Some (bw, wind) -> slookup p u = Some (bp, ps) -> slookup ya u = Some (ba, a) -> slookup yb u = Some (bb, b) ->
    (forall s, l = Some s -> s <> "" -> ~ In s (dims wind)) ->
    (l = None \/ l = Some "" -> forall s,
       find_optional_var order (ds_names u) "air_pressure" "" ["plev"; "pressure_lev"; "pressure_levels"] = Ok (Some s) ->
       ~ In s (dims wind)) ->
    interp_hybrid_to_pressure (VSubDa wind) (VSubDa ps) (VSubDa a) (VSubDa b)
      (map (fun hPa => nmul (ofZ hPa) (dec 1000 1))
         [1000; 925; 850; 700; 500; 400; 300; 250; 200; 150; 100; 70; 50; 30; 20; 10; 7; 5; 3; 2; 1]%Z) (ofZ 100000)
      (mkIhp "linear"%string None false None None None (cf wind) None false false) = Ok ip ->
    zonal_meridional_psi true order zmean cf u (mkNames (Some w) (Some p) l (Some ya) (Some yb)) =
    zonal_meridional_psi true order' zmean cf' (sset w (bw, ip) u) (mkNames (Some w) (Some p) (Some "plev") ha' hb').
  Proof.
    intros Hw Hp Hya Hyb Hne Gw Gp Ga Gb H1 H2 Hip.
    match type of Hip with interp_hybrid_to_pressure _ _ _ _ ?l _ _ = _ => change l with (mandatory_levels (T := T)) in Hip end.
    rewrite (psi_hybrid order zmean cf u w p l ya yb wind ps a b bw bp ba bb) by auto. rewrite Hip. cbn [bind].
    symmetry. apply (psi_pressure order' zmean cf' _ w p "plev" ha' hb' bw bp); auto; try discriminate.
    - rewrite slookup_sset, String.eqb_refl. auto.
    - rewrite slookup_sset. destruct (String.eqb_spec p w); congruence.
    - eapply interp_has_plev; eauto.
  Qed.
  Lemma psi_integrate_nan zmean wind l ps : existsb isnan (ravel (dat (zmean ps))) = true ->
    psi_integrate (T := T) zmean wind l ps = Err ValueError.
  Proof. intros H. unfold psi_integrate. destruct (negb _); auto. rewrite H. reflexivity. Qed.
  Lemma psi_integrate_neg zmean wind l ps : existsb (fun x => nle x (ofZ 0)) (ravel (dat ps)) = true ->
    psi_integrate (T := T) zmean wind l ps = Err ValueError.
  Proof. intros H. unfold psi_integrate. destruct (negb _); auto. destruct (existsb isnan _); auto. rewrite H. reflexivity. Qed.
  Lemma psi_integrate_other_dim zmean wind l ps c : slookup l (coords wind) = Some c -> cdims c = [l] -> l <> "plev" ->
    exists e, psi_integrate (T := T) zmean wind l ps = Err e.
  Proof.
    intros Hc Hd Hl. unfold psi_integrate. destruct (negb _); [eauto|]. destruct (existsb isnan _); [eauto|].
    destruct (existsb _ _); [eauto|]. destruct (delta_pressure _ _ _) as [dp|]; [|cbn; eauto]. cbn [bind].
    destruct (negb (smem _ _)); [eauto|]. cbv zeta. destruct (negb (Nat.eqb _ _)); [eauto|].
    unfold dim_coord. rewrite Hc, Hd. unfold dims_eqb at 1. destruct (list_eq_dec string_dec [l] ["plev"]) as [E|E]; [|cbn; eauto].
    exfalso. congruence.
  Qed.
End G.

(** ** C38 *)
Lemma counting_levels (wind : da fl) l : slookup "plev" (coords wind) = None -> dsize wind "plev" = Some (List.length l) ->
  (forall k, (k < List.length l)%nat -> nth k l 0 = INR k) -> dim_coord wind "plev" = plev_labels l true.
Proof.
  intros Hc Hs Hl. unfold dim_coord, plev_labels. rewrite Hc, Hs. do 2 f_equal. apply nth_ext with (d := NaN) (d' := NaN).
  - rewrite !map_length, seq_length. reflexivity.
  - intros k Hk. rewrite map_length, seq_length in Hk. rewrite (nth_map_in Fin l k 0) by auto.
    rewrite (nth_map_in (fun k => ofZ (Z.of_nat k)) (seq 0 (List.length l)) k 0%nat) by (rewrite seq_length; auto).
    rewrite seq_nth by auto. rewrite (Hl k Hk), INR_IZR_INZ. reflexivity.
Qed.
Lemma c38_lemma order zmean cf u w p ha hb bw bp wind ps l down lat nt psz :
  w <> "" -> p <> "" -> slookup w u = Some (bw, wind) -> slookup p u = Some (bp, ps) -> In "plev" (dims wind) ->
  psi_input wind (zmean wind) ps (zmean ps) l down lat nt psz ->
  exists r, zonal_meridional_psi true order zmean cf u (mkNames (Some w) (Some p) (Some "plev") ha hb) = Ok r /\
    dims r = dims (zmean wind) /\ shp (dat r) = shp (dat (zmean wind)) /\
    index_labels r "plev" = Some (map Fin (if down then l else rev l)) /\
    index_labels r "latitudes" = Some (map Fin lat) /\
    forall e, inside (zmean wind) e ->
      getn r e = Fin (2 * PI * earth_radius * cos (nth (e "latitudes") lat 0) / gravity * flux_above (zmean wind) l down psz e).
Proof.
  intros Hw Hp Gw Gp Hi []. rewrite (psi_pressure order zmean cf u w p "plev" ha hb bw bp wind ps) by (auto; discriminate).
  apply (psi_integrate_ok zmean wind ps l down lat nt psz); auto.
  destruct pi_levels as [E|(E & Hs & -> & Hl)]; [unfold dim_coord; rewrite E; reflexivity|]. apply counting_levels; auto.
Qed.
(** orientation: reversing the stored level order reverses the result *)

Lemma PI_bounds : 3.138 < PI < 3.146.
Proof.
  pose proof (PI_2_3_7_ineq 1) as [H1 H2]. cbn [Nat.mul Nat.add] in *.
  unfold sum_f_R0, tg_alt, PI_2_3_7_tg, Ratan_seq in *. simpl in H1, H2. lra.
Qed.
Lemma cos_90_neg : cos 90 < 0.
Proof.
  pose proof PI_bounds as [H1 H2].
  replace 90 with ((90 - 28 * PI) + 2 * INR 14 * PI) by (simpl; lra). rewrite cos_period.
  apply cos_lt_0; lra.
Qed.
Lemma c39_lemma order zmean cf u w p ha hb bw bp wind ps l down lat nt psz :
  w <> "" -> p <> "" -> slookup w u = Some (bw, wind) -> slookup p u = Some (bp, ps) -> In "plev" (dims wind) ->
  psi_input wind (zmean wind) ps (zmean ps) l down lat nt psz ->
  exists r, zonal_meridional_psi true order zmean cf u (mkNames (Some w) (Some p) (Some "plev") ha hb) = Ok r /\
    forall e, inside (zmean wind) e -> nth (e "latitudes") lat 0 = 90 -> 0 < flux_above (zmean wind) l down psz e ->
      exists x, getn r e = Fin x /\ x < 0.
Proof.
  intros Hw Hp Gw Gp Hi Hin.
  destruct (c38_lemma order zmean cf u w p ha hb bw bp wind ps l down lat nt psz Hw Hp Gw Gp Hi Hin) as (r & E & _ & _ & _ & _ & G).
  exists r. split; auto. intros e He Hl Hf. rewrite G by auto. eexists. split; [reflexivity|]. rewrite Hl.
  unfold earth_radius, gravity. pose proof cos_90_neg. pose proof PI_RGT_0.
  apply Rmult_lt_gt_compat_neg_l with (r := 2 * PI * 6378137 * cos 90 / 9.80665) in Hf; [lra|].
  assert (2 * PI * 6378137 * cos 90 < 0) by (assert (0 < 2 * PI * 6378137) by lra; nra). lra.
Qed.

Lemma c38_orientation order zmean cf u w p ha hb bw bp wind ps l lat nt psz order' zmean' cf' u' w' p' ha' hb' bw' bp' wind' ps' :
  w <> "" -> p <> "" -> slookup w u = Some (bw, wind) -> slookup p u = Some (bp, ps) -> In "plev" (dims wind) ->
  w' <> "" -> p' <> "" -> slookup w' u' = Some (bw', wind') -> slookup p' u' = Some (bp', ps') -> In "plev" (dims wind') ->
  psi_input wind (zmean wind) ps (zmean ps) l true lat nt psz ->
  psi_input wind' (zmean' wind') ps' (zmean' ps') l false lat nt psz ->
  dims (zmean' wind') = dims (zmean wind) -> shp (dat (zmean' wind')) = shp (dat (zmean wind)) ->
  (forall e, inside (zmean wind) e ->
     getn (zmean' wind') (at_pos e "plev" (List.length l - 1 - e "plev")) = getn (zmean wind) e) ->
  exists r r', zonal_meridional_psi true order zmean cf u (mkNames (Some w) (Some p) (Some "plev") ha hb) = Ok r /\
    zonal_meridional_psi true order' zmean' cf' u' (mkNames (Some w') (Some p') (Some "plev") ha' hb') = Ok r' /\
    forall e, inside (zmean wind) e -> getn r' (at_pos e "plev" (List.length l - 1 - e "plev")) = getn r e.
Proof.
  intros Hw Hp Gw Gp Hi Hw' Hp' Gw' Gp' Hi' H H' Hd Hs Hv.
  destruct (c38_lemma order zmean cf u w p ha hb bw bp wind ps l true lat nt psz Hw Hp Gw Gp Hi H) as (r & E & _ & _ & _ & _ & G).
  destruct (c38_lemma order' zmean' cf' u' w' p' ha' hb' bw' bp' wind' ps' l false lat nt psz Hw' Hp' Gw' Gp' Hi' H') as (r' & E' & _ & _ & _ & _ & G').
  exists r, r'. split; [exact E|]. split; [exact E'|]. intros e He.
  pose proof (pi_plev _ _ _ _ _ _ _ _ _ H) as Hpl. pose proof (He _ _ Hpl) as Hk.
  assert (Hds : forall d, dsize (zmean' wind') d = dsize (zmean wind) d) by (intros d; unfold dsize; rewrite Hd, Hs; auto).
  assert (He' : inside (zmean' wind') (at_pos e "plev" (List.length l - 1 - e "plev"))).
  { intros d k Hd'. rewrite Hds in Hd'. unfold at_pos. destruct (String.eqb_spec d "plev") as [->|]; [|auto].
    rewrite Hpl in Hd'. injection Hd' as <-. lia. }
  rewrite G, G' by auto. rewrite at_pos_other by discriminate. apply f_equal. f_equal.
  unfold flux_above. rewrite at_pos_same, !at_pos_other by discriminate. cbn [depth_of].
  replace (List.length l - 1 - (List.length l - 1 - e "plev"))%nat with (e "plev") by lia.
  apply sum_to_ext. intros k Hle. f_equal. f_equal.
  rewrite <- (Hv (at_pos e "plev" k)).
  - apply getn_ext. intros d _. rewrite !at_pos_at_pos, at_pos_same. auto.
  - intros d k' Hd'. unfold at_pos. destruct (String.eqb_spec d "plev") as [->|]; [|auto].
    rewrite Hpl in Hd'. injection Hd' as <-. lia.
Qed.

(** ** C40 *)
Section C40.
  Context {T : Type} {N : Num T}.
  Lemma c40_import order zmean cf (u : uxds T) nm : zonal_meridional_psi false order zmean cf u nm = Err ImportError.
  Proof. reflexivity. Qed.
  Lemma c40_not_found order zmean cf (u : uxds T) w p l ha hb :
    (w = None \/ w = Some "" ->
     find_var order (ds_names u) "northward_wind" "Meridional wind" ["V"; "vs"; "meridional_wind"] = Err KeyError ->
     zonal_meridional_psi true order zmean cf u (mkNames w p l ha hb) = Err KeyError) /\
    (forall w0, w = Some w0 -> w0 <> "" -> p = None \/ p = Some "" ->
     find_var order (ds_names u) "surface_air_pressure" "Surface pressure" ["ps"; "p_surface"; "surface_pressure"; "pressure_surface"] = Err KeyError ->
     zonal_meridional_psi true order zmean cf u (mkNames w p l ha hb) = Err KeyError).
  Proof.
    split.
    - intros H Hf. unfold zonal_meridional_psi. cbn [negb n_wind]. unfold resolve at 1.
      destruct H as [-> | ->]; cbn [given String.eqb]; rewrite Hf; reflexivity.
    - intros w0 -> Hw H Hf. unfold zonal_meridional_psi. cbn [negb n_wind n_ps]. rewrite resolve_some by auto. cbn [bind]. unfold resolve at 1.
      destruct H as [-> | ->]; cbn [given String.eqb]; rewrite Hf; reflexivity.
  Qed.
  Lemma c40_explicit order zmean cf (u : uxds T) w p l ha hb bw bp wind ps order' cf' u' ha' hb' bw' bp' :
    w <> "" -> p <> "" -> l <> "" -> In l (dims wind) ->
    slookup w u = Some (bw, wind) -> slookup p u = Some (bp, ps) ->
    slookup w u' = Some (bw', wind) -> slookup p u' = Some (bp', ps) ->
    zonal_meridional_psi true order zmean cf u (mkNames (Some w) (Some p) (Some l) ha hb) =
    zonal_meridional_psi true order' zmean cf' u' (mkNames (Some w) (Some p) (Some l) ha' hb').
  Proof.
    intros. rewrite (psi_pressure order zmean cf u w p l ha hb bw bp wind ps) by auto.
    rewrite (psi_pressure order' zmean cf' u' w p l ha' hb' bw' bp' wind ps) by auto. reflexivity.
  Qed.
  Lemma c40_surface order zmean cf (u : uxds T) w p l ha hb bw bp wind ps :
    w <> "" -> p <> "" -> l <> "" -> In l (dims wind) ->
    slookup w u = Some (bw, wind) -> slookup p u = Some (bp, ps) ->
    (exists i, inb (shp (dat (zmean ps))) i /\ isnan (get (dat (zmean ps)) i) = true) \/
    (exists i, inb (shp (dat ps)) i /\ nle (get (dat ps) i) (ofZ 0) = true) ->
    zonal_meridional_psi true order zmean cf u (mkNames (Some w) (Some p) (Some l) ha hb) = Err ValueError.
  Proof.
    intros Hw Hp Hl Hi Gw Gp H. rewrite (psi_pressure order zmean cf u w p l ha hb bw bp wind ps) by auto.
    destruct H as [(i & Hb & Hn)|(i & Hb & Hn)].
    - apply psi_integrate_nan. apply existsb_exists. eexists. split; [|exact Hn]. apply in_map. apply all_idx_inb. auto.
    - apply psi_integrate_neg. apply existsb_exists. eexists. split; [|exact Hn]. apply in_map. apply all_idx_inb. auto.
  Qed.
  Lemma c40_detect order zmean cf (u : uxds T) w p l ha hb s : s <> "" ->
    (w = None \/ w = Some "" ->
     find_var order (ds_names u) "northward_wind" "Meridional wind" ["V"; "vs"; "meridional_wind"] = Ok s ->
     zonal_meridional_psi true order zmean cf u (mkNames w p l ha hb) =
     zonal_meridional_psi true order zmean cf u (mkNames (Some s) p l ha hb)) /\
    (p = None \/ p = Some "" ->
     find_var order (ds_names u) "surface_air_pressure" "Surface pressure" ["ps"; "p_surface"; "surface_pressure"; "pressure_surface"] = Ok s ->
     zonal_meridional_psi true order zmean cf u (mkNames w p l ha hb) =
     zonal_meridional_psi true order zmean cf u (mkNames w (Some s) l ha hb)) /\
    (l = None \/ l = Some "" ->
     find_optional_var order (ds_names u) "air_pressure" "" ["plev"; "pressure_lev"; "pressure_levels"] = Ok (Some s) ->
     zonal_meridional_psi true order zmean cf u (mkNames w p l ha hb) =
     zonal_meridional_psi true order zmean cf u (mkNames w p (Some s) ha hb)) /\
    (ha = None \/ ha = Some "" ->
     find_optional_var order (ds_names u) "" "hybrid A coefficient at layer midpoints" ["hyam"; "hya"; "hybrid_A_midpoints"] = Ok (Some s) ->
     zonal_meridional_psi true order zmean cf u (mkNames w p l ha hb) =
     zonal_meridional_psi true order zmean cf u (mkNames w p l (Some s) hb)) /\
    (hb = None \/ hb = Some "" ->
     find_optional_var order (ds_names u) "" "hybrid B coefficient at layer midpoints" ["hybm"; "hyb"; "hybrid_B_midpoints"] = Ok (Some s) ->
     zonal_meridional_psi true order zmean cf u (mkNames w p l ha hb) =
     zonal_meridional_psi true order zmean cf u (mkNames w p l ha (Some s))).
  Proof.
    intros Hs. split; [|split; [|split; [|split]]]; intros.
    - apply psi_detect_wind; auto. - apply psi_detect_ps; auto. - apply psi_detect_plev; auto.
    - apply psi_detect_hyam; auto. - apply psi_detect_hybm; auto.
  Qed.
  Lemma c70_lemma order zmean cf (u : uxds T) w p l ha hb bw bp wind ps c :
    w <> "" -> p <> "" -> l <> "" -> In l (dims wind) ->
    slookup w u = Some (bw, wind) -> slookup p u = Some (bp, ps) ->
    slookup l (coords wind) = Some c -> cdims c = [l] -> l <> "plev" ->
    exists e, zonal_meridional_psi true order zmean cf u (mkNames (Some w) (Some p) (Some l) ha hb) = Err e.
  Proof.
    intros Hw Hp Hl Hi Gw Gp Hc Hd Hn. rewrite (psi_pressure order zmean cf u w p l ha hb bw bp wind ps) by auto.
    eapply psi_integrate_other_dim; eauto.
  Qed.
End C40.
