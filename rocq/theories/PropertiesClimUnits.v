(** C122: climatologies and the unit of the data. *)
From Coq Require Import Reals List Bool Arith ZArith Lra Lia String.
From Verif Require Import PyBase Num NumFacts ArrFacts Calendar CalendarFacts SpecClim Climat ClimFacts ClimApi ClimLong ClimKeys ClimKeysApi ClimSeason ClimM2S ClimAnom ClimMore ClimZero ClimDemo
  SpecUnits SpecAffine SpecClimUnits ClimAffine PropertiesClimat.
Import ListNotations.
Local Open Scope R_scope.

(** C122, calendar_average, every frequency: the same outcome, labels and dates, and the converted averages.  No condition on the data. *)
Theorem C122_calendar_average :
  forall c infer_freq a b x freq td, a <> 0 ->
  outcomes (converted a b (width (inp x))) (calendar_average c infer_freq x freq td) (calendar_average c infer_freq (input_convert a b x) freq td).
Proof. intros c i a b x freq td H. exact (c122_cal c i a b H x freq td). Qed.
Print Assumptions C122_calendar_average.

(** C122, climatology_average by hour, day or month. *)
Theorem C122_climatology_average :
  forall c infer_freq empty_exc a b x freq custom td, a <> 0 -> freq <> "season"%string ->
  outcomes (clim_converted a b (width (inp x))) (climatology_average c infer_freq empty_exc x freq custom td) (climatology_average c infer_freq empty_exc (input_convert a b x) freq custom td).
Proof. intros c i e a b x freq custom td H. exact (c122_clim c i e a b H x freq custom td). Qed.
Print Assumptions C122_climatology_average.

(** C122, month_to_season. *)
Theorem C122_month_to_season :
  forall c empty_exc a b x season td, a <> 0 ->
  outcomes (converted a b (width (inp x))) (month_to_season c empty_exc x season td) (month_to_season c empty_exc (input_convert a b x) season td).
Proof. intros c e a b x season td H. exact (c122_m2s c e a b H x season td). Qed.
Print Assumptions C122_month_to_season.

(** C122, climatology_average by season: if every season asked for has a complete month. *)
Theorem C122_seasons :
  forall c infer_freq empty_exc a b x custom td, a <> 0 ->
  all_valid c (samples (inp x)) -> all_tidy (width (inp x)) (samples (inp x)) -> (0 < width (inp x))%nat ->
  (forall s m, In s (requested custom) -> spells s m -> exists t, valid c t /\ in_season m t = true /\ complete Month (width (inp x)) (samples (inp x)) t) ->
  outcomes (clim_converted a b (width (inp x))) (climatology_average c infer_freq empty_exc x "season" custom td) (climatology_average c infer_freq empty_exc (input_convert a b x) "season" custom td).
Proof. intros c i e a b x custom td H. exact (c122_seasons c i e a b H x custom td). Qed.
Print Assumptions C122_seasons.

(** C122, without an offset (metres to feet, a change of sign) on any data. *)
Theorem C122_seasons_scaled :
  forall c infer_freq empty_exc a x custom td, a <> 0 ->
  outcomes (clim_converted a 0 (width (inp x))) (climatology_average c infer_freq empty_exc x "season" custom td) (climatology_average c infer_freq empty_exc (input_convert a 0 x) "season" custom td).
Proof. intros c i e a x custom td H. exact (seasons_rel c i e a 0 H x custom td (or_introl eq_refl)). Qed.
Print Assumptions C122_seasons_scaled.

(** C122, climate_anomaly, every frequency, without an offset on any data: the anomalies are multiplied by a. *)
Theorem C122_anomalies_scaled :
  forall c infer_freq empty_exc a x freq td, a <> 0 ->
  outcomes (converted a 0 (width (inp x))) (climate_anomaly c infer_freq empty_exc x freq td) (climate_anomaly c infer_freq empty_exc (input_convert a 0 x) freq td).
Proof. intros c i e a x freq td H. exact (c122_scale c i e a 0 H x freq td eq_refl). Qed.
Print Assumptions C122_anomalies_scaled.

(** C122, climate_anomaly by day or month, under the hypotheses of C62: the offset drops out, the anomalies are multiplied by a. *)
Theorem C122_anomalies :
  forall c infer_freq empty_exc a b x freq f td y, a <> 0 ->
  anom_short freq f -> all_valid c (samples (inp x)) -> all_tidy (width (inp x)) (samples (inp x)) ->
  label_year (map fst (samples (inp x))) y -> all_exist c f y (map fst (samples (inp x))) ->
  outcomes (converted a 0 (width (inp x))) (climate_anomaly c infer_freq empty_exc x freq td) (climate_anomaly c infer_freq empty_exc (input_convert a b x) freq td).
Proof. intros c i e a b x freq f td y H. exact (c122_anom_short c i e a b H x freq f td y). Qed.
Print Assumptions C122_anomalies.

(** C122, climate_anomaly by season, if every season has a complete month. *)
Theorem C122_season_anomalies :
  forall c infer_freq empty_exc a b x td, a <> 0 ->
  all_valid c (samples (inp x)) -> all_tidy (width (inp x)) (samples (inp x)) -> (0 < width (inp x))%nat ->
  (forall s m, In s (requested []) -> spells s m -> exists t, valid c t /\ in_season m t = true /\ complete Month (width (inp x)) (samples (inp x)) t) ->
  outcomes (converted a 0 (width (inp x))) (climate_anomaly c infer_freq empty_exc x "season" td) (climate_anomaly c infer_freq empty_exc (input_convert a b x) "season" td).
Proof. intros c i e a b x td H. exact (c122_anom_season c i e a b H x td). Qed.
Print Assumptions C122_season_anomalies.

(** C122, climate_anomaly by year, within less than a century and with a complete month in every year. *)
Theorem C122_year_anomalies :
  forall c infer_freq empty_exc a b x td, a <> 0 ->
  all_valid c (samples (inp x)) -> all_tidy (width (inp x)) (samples (inp x)) -> (0 < width (inp x))%nat ->
  (exists n, n <> EmptyString /\ time_info x td = Ok n) -> check_uniform c infer_freq (map fst (samples (inp x))) = Ok tt ->
  let xs := samples (inp x) in let w := width (inp x) in
  (forall s u, In s xs -> In u xs -> (yr (fst s) < yr (fst u) + 100)%Z) ->
  (forall s, In s xs -> exists u, In u xs /\ complete Month w xs (fst u) /\ yr (fst u) = yr (fst s)) ->
  outcomes (converted a 0 w) (climate_anomaly c infer_freq empty_exc x "year" td) (climate_anomaly c infer_freq empty_exc (input_convert a b x) "year" td).
Proof. intros c i e a b x td H. exact (c122_anom_year c i e a b x td). Qed.
Print Assumptions C122_year_anomalies.

(** Intended: the conditions on months are not needed.  Refuted: with one element missing everywhere the season climatology is 0 in
    kelvin and 0 in Celsius. *)
Theorem C122_seasons_refuted : exists x out out',
  climatology_average Greg regular KeyError x "season" [] None = Ok (Seasons out) /\
  climatology_average Greg regular KeyError (input_convert 1 273.15 x) "season" [] None = Ok (Seasons out') /\
  ~ converted 1 273.15 (width (inp x)) out out'.
Proof.
  assert (Season4 : forall x : input fl, map fst (samples (inp x)) = map fst (samples (inp ex_dead)) ->
    forall s, In s (requested []) -> exists m, spells s m /\ exists u, In u (samples (inp x)) /\ in_season m (fst u) = true).
  { intros x Ex. assert (In4 : forall m, (1 <= m <= 12)%Z -> exists u, In u (samples (inp x)) /\ in_season m (fst u) = true).
    { intros m Hm. assert (I : In (first_of (24240 + (m - 1))) (map fst (samples (inp ex_dead)))).
      { apply (in_map fst _ (first_of (24240 + (m - 1)), ex_dead_v (24240 + (m - 1)))). apply monthly_In. lia. }
      rewrite <- Ex in I. apply in_map_iff in I. destruct I as (u & Eu & Iu). exists u. split; [exact Iu|]. rewrite Eu. unfold first_of, in_season. cbn [mo]. apply Z.ltb_lt.
      replace ((24240 + (m - 1)) mod 12 + 1)%Z with m by lia. rewrite Z.sub_diag. reflexivity. }
    destruct ex_spells as (S12 & S3 & S6 & S9 & _). intros s [<-|[<-|[<-|[<-|[]]]]]; eexists; (split; [eassumption|]); apply In4; lia. }
  assert (Acc : accepted Greg regular ex_dead None) by (apply as_input_accepted; auto; rewrite monthly_length; lia).
  destruct (C87_dead_seasons Greg regular KeyError ex_dead [] None (monthly_valid _ _ _ _) ex_dead_tidy Acc ex_is_dead (Season4 _ eq_refl)) as (out & E & L & F).
  set (y := input_convert 1 273.15 ex_dead).
  assert (Ey : map fst (samples (inp y)) = map fst (samples (inp ex_dead))) by (apply fst_cv).
  destruct (C87_dead_seasons Greg regular KeyError y [] None) as (out' & E' & L' & F').
  - apply (valid_cv Greg 1 273.15). apply monthly_valid.
  - apply (tidy_cv 1 273.15). exact ex_dead_tidy.
  - split; [exact (proj1 Acc)|]. rewrite Ey. exact (proj2 Acc).
  - destruct ex_is_dead as (k & Hk & D). exists k. split; [exact Hk|]. intros s Hs. apply in_map_iff in Hs. destruct Hs as (u & <- & Hu). cbn [snd]. rewrite (D u Hu). reflexivity.
  - exact (Season4 y Ey).
  - exists ex_dead, out, out'. split; [exact E|]. split; [exact E'|]. intros C. destruct C as [|e e' r r' [_ C] _]; [discriminate L|].
    inversion F as [|? ? F1 _]; subst. inversion F' as [|? ? F1' _]; subst. specialize (C 0%nat ltac:(cbn; lia)). rewrite (F1 0%nat) in C by (cbn; lia). rewrite (F1' 0%nat) in C by (cbn; lia).
    cbn in C. injection C as C. lra.
Qed.
Print Assumptions C122_seasons_refuted.

(** Nor the condition on the length of the record: over a century, year anomalies depend on the unit's zero. *)
Theorem C122_century_refuted : exists x out out',
  climate_anomaly Greg regular KeyError x "year" None = Ok out /\ climate_anomaly Greg regular KeyError (input_convert 1 273.15 x) "year" None = Ok out' /\
  ~ converted 1 0 (width (inp x)) out out'.
Proof.
  assert (Acc : accepted Greg regular ex_century None) by (refine (as_input_accepted Greg 1 (monthly 1900 101 (fun _ _ => Fin 5)) None _ (or_introl eq_refl)); rewrite monthly_length; lia).
  assert (W : whole_years 1900 101 (samples (inp ex_century))) by (apply monthly_whole; lia).
  assert (K : Forall (fun s : time * (nat -> fl) => forall k, (k < 1)%nat -> snd s k = Fin 5) (samples (inp ex_century))).
  { unfold ex_century, as_input, monthly. cbn [inp samples]. rewrite Forall_map. apply Forall_forall. reflexivity. }
  destruct (C63_century_refuted Greg regular KeyError ex_century None 1900 101 5 (monthly_valid _ _ _ _) ltac:(cbn; lia) ltac:(exists "time"%string; split; [discriminate|reflexivity]) (proj2 Acc) W ltac:(lia) K) as (out & E & F).
  set (y := input_convert 1 273.15 ex_century).
  assert (Ey : map fst (samples (inp y)) = map fst (samples (inp ex_century))) by (apply fst_cv).
  destruct (C63_century_refuted Greg regular KeyError y None 1900 101 278.15) as (out' & E' & F').
  - apply (valid_cv Greg 1 273.15). apply monthly_valid.
  - cbn. lia.
  - exists "time"%string. split; [discriminate|reflexivity].
  - rewrite Ey. exact (proj2 Acc).
  - destruct W as [W1 W2]. split; [exact W1|]. rewrite <- W2. unfold y, input_convert, samples_convert. cbn [inp samples]. rewrite map_map. reflexivity.
  - lia.
  - rewrite Forall_forall in K |- *. intros s Hs k Hk. apply in_map_iff in Hs. destruct Hs as (u & <- & Hu). cbn [snd]. rewrite (K u Hu k Hk). cbn. f_equal. lra.
  - exists ex_century, out, out'. split; [exact E|]. split; [exact E'|]. intros C.
    assert (X : exists s l, samples (inp ex_century) = s :: l /\ fst s = first_of 22800).
    { unfold ex_century, as_input, monthly. cbn [inp samples]. change (12 * (1900 + Z.of_nat 101) - 1)%Z with 24011%Z. change (12 * 1900)%Z with 22800%Z. rewrite between_cons by lia. cbn [map]. eexists _, _. split; reflexivity. }
    destruct X as (s & l & Es & Ef). cbv zeta in F, F'. change (samples (inp y)) with (samples_convert 1 273.15 (samples (inp ex_century))) in F'. rewrite Es in F, F'. cbn [samples_convert map] in F'.
    inversion F as [|? e ? r [_ V] _]; subst. inversion F' as [|? e' ? r' [_ V'] _]; subst. inversion C as [|? ? ? ? [_ Q] _]; subst.
    specialize (V 0%nat ltac:(cbn; lia)). specialize (V' 0%nat ltac:(cbn; lia)). specialize (Q 0%nat ltac:(cbn; lia)). destruct s as [t fr]. cbn [fst] in Ef, V, V'. subst t. cbn in V, V'.
    rewrite V, V' in Q. cbn in Q. injection Q as Q. lra.
Qed.
Print Assumptions C122_century_refuted.

(** ** examples: two years of months, two elements, Celsius to Fahrenheit *)
Lemma ex_complete m : (1 <= m <= 12)%Z -> exists t, valid Greg t /\ in_season m t = true /\ complete Month 2 (samples (inp ex_m)) t.
Proof.
  intros Hm. exists (first_of (24240 + (m - 1))). split; [apply first_valid|]. split.
  - unfold first_of, in_season. cbn [mo]. apply Z.ltb_lt. replace ((24240 + (m - 1)) mod 12 + 1)%Z with m by lia. rewrite Z.sub_diag. reflexivity.
  - apply (monthly_complete Greg); [apply ex_fin|apply first_valid|]. rewrite first_month. lia.
Qed.
Lemma outcomes_ok {A B} (P : A -> B -> Prop) x r : outcomes P (Ok x) r -> exists y, r = Ok y /\ P x y.
Proof. destruct r as [y|e]; [intros H; exists y; split; [reflexivity|exact H]|intros []]. Qed.
Example C122_example : exists out out' an an' sn sn' yn yn',
  calendar_average Greg regular ex_m "season" None = Ok out /\ calendar_average Greg regular (input_convert 1.8 32 ex_m) "season" None = Ok out' /\ converted 1.8 32 2 out out' /\
  climate_anomaly Greg regular KeyError ex_m "month" None = Ok an /\ climate_anomaly Greg regular KeyError (input_convert 1.8 32 ex_m) "month" None = Ok an' /\ converted 1.8 0 2 an an' /\
  climate_anomaly Greg regular KeyError ex_m "season" None = Ok sn /\ climate_anomaly Greg regular KeyError (input_convert 1.8 32 ex_m) "season" None = Ok sn' /\ converted 1.8 0 2 sn sn' /\
  climate_anomaly Greg regular KeyError ex_m "year" None = Ok yn /\ climate_anomaly Greg regular KeyError (input_convert 1.8 32 ex_m) "year" None = Ok yn' /\ converted 1.8 0 2 yn yn'.
Proof.
  assert (N : 1.8 <> 0) by lra.
  destruct C59_example as [out E1]. destruct C62_example as (an & E2 & _). destruct C62_season_example as [sn E3]. destruct C63_example as [yn E4].
  pose proof (C122_calendar_average Greg regular 1.8 32 ex_m "season" None N) as H1. rewrite E1 in H1.
  pose proof (C122_anomalies Greg regular KeyError 1.8 32 ex_m "month" Month None 2020 N (or_intror (conj eq_refl eq_refl)) ex_valid ex_all_tidy ex_label ex_exist) as H2. rewrite E2 in H2.
  pose proof (C122_season_anomalies Greg regular KeyError 1.8 32 ex_m None N ex_valid ex_all_tidy ltac:(cbn; lia) (fun s m _ Sp => ex_complete m (proj1 Sp))) as H3. rewrite E3 in H3.
  assert (H4 : outcomes (converted 1.8 0 2) (climate_anomaly Greg regular KeyError ex_m "year" None) (climate_anomaly Greg regular KeyError (input_convert 1.8 32 ex_m) "year" None)).
  { apply (C122_year_anomalies Greg regular KeyError 1.8 32 ex_m None N ex_valid ex_all_tidy ltac:(cbn; lia)).
    - exists "time"%string. split; [discriminate|reflexivity].
    - exact (proj2 (ex_accepted None (or_introl eq_refl))).
    - intros s u Hs Hu. apply monthly_inv in Hs, Hu. destruct Hs as (q & Hq & ->). destruct Hu as (q' & Hq' & ->). unfold first_of. cbn [fst yr]. lia.
    - intros s Hs. exists s. split; [exact Hs|]. split; [|reflexivity]. apply monthly_inv in Hs. destruct Hs as (q & Hq & ->). apply (monthly_complete Greg); [apply ex_fin|apply first_valid|]. cbn [fst]. rewrite first_month. lia. }
  rewrite E4 in H4.
  apply outcomes_ok in H1, H2, H3, H4. destruct H1 as (out' & F1 & G1). destruct H2 as (an' & F2 & G2). destruct H3 as (sn' & F3 & G3). destruct H4 as (yn' & F4 & G4).
  exists out, out', an, an', sn, sn', yn, yn'. repeat split; assumption.
Qed.
Example C122_example_seasons : exists o o',
  climatology_average Greg regular KeyError ex_m "season" ["NDJ"; "JJA"]%string None = Ok o /\ climatology_average Greg regular KeyError (input_convert 1.8 32 ex_m) "season" ["NDJ"; "JJA"]%string None = Ok o' /\
  clim_converted 1.8 32 2 o o'.
Proof.
  destruct C60_season_example as (out & E & _).
  pose proof (C122_seasons Greg regular KeyError 1.8 32 ex_m ["NDJ"; "JJA"]%string None ltac:(lra) ex_valid ex_all_tidy ltac:(cbn; lia) (fun s m _ Sp => ex_complete m (proj1 Sp))) as H. rewrite E in H.
  apply outcomes_ok in H. destruct H as (o' & F & G). eexists _, o'. split; [exact E|]. split; [exact F|exact G].
Qed.
