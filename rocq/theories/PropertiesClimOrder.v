(** C141: the order of the dates.  The functions with suffix _ord (ClimOrder.v) are those of the other theorems with the check of the order that
    resampling makes.  [increasing], [reordered] and [same_rows] are in SpecClimOrder.v, [rows] and [crows] (same labels, equal values) in
    SpecClimB64.v. *)
From Coq Require Import Reals List Bool Arith ZArith Lra Lia String Permutation Sorted.
From Verif Require Import PyBase Num NumFacts Calendar CalendarFacts SpecClim Climat ClimFacts ClimApi ClimKeys ClimSeason ClimMore ClimDemo ClimOrder ClimOrderFacts SpecUnits SpecClimIdem SpecClimB64 SpecClimOrder PropertiesClimat.
Import ListNotations.
Local Open Scope Z_scope.

(** C141.  With dates in order the check changes nothing: all other theorems about these functions apply. *)
Theorem C141_in_order :
  forall c infer_freq empty_exc (x : input fl), increasing c (map fst (samples (inp x))) ->
    (forall freq td, calendar_average_ord c infer_freq x freq td = calendar_average c infer_freq x freq td) /\
    (forall freq custom td, climatology_average_ord c infer_freq empty_exc x freq custom td = climatology_average c infer_freq empty_exc x freq custom td) /\
    (forall freq td, climate_anomaly_ord c infer_freq empty_exc x freq td = climate_anomaly c infer_freq empty_exc x freq td) /\
    (forall season td, month_to_season_ord c empty_exc x season td = month_to_season c empty_exc x season td).
Proof. exact (fun c i e x H => conj (fun f t => cal_same c i x f t H) (conj (fun f u t => clim_same c i e x f u t H) (conj (fun f t => anom_same c i e x f t H) (fun s t => m2s_same c e x s t H)))). Qed.
Print Assumptions C141_in_order.

(** C141.  Results are those without the check, whatever the order: all theorems about results apply. *)
Theorem C141_results :
  forall c infer_freq empty_exc (x : input fl),
    (forall freq td out, calendar_average_ord c infer_freq x freq td = Ok out -> calendar_average c infer_freq x freq td = Ok out) /\
    (forall freq custom td out, climatology_average_ord c infer_freq empty_exc x freq custom td = Ok out -> climatology_average c infer_freq empty_exc x freq custom td = Ok out) /\
    (forall freq td out, climate_anomaly_ord c infer_freq empty_exc x freq td = Ok out -> climate_anomaly c infer_freq empty_exc x freq td = Ok out) /\
    (forall season td out, month_to_season_ord c empty_exc x season td = Ok out -> month_to_season c empty_exc x season td = Ok out).
Proof. exact (fun c i e x => conj (cal_ok c i x) (conj (clim_ok c i e x) (conj (anom_ok c i e x) (m2s_ok c e x)))). Qed.
Print Assumptions C141_results.

(** C141.  calendar_average, and anomalies from yearly averages, refuse dates out of order with ValueError. *)
Theorem C141_calendar_average :
  forall c infer_freq empty_exc (x : input fl) td n, time_info x td = Ok n -> ~ increasing c (map fst (samples (inp x))) ->
    (forall freq, any_freq freq -> calendar_average_ord c infer_freq x freq td = Err ValueError) /\
    (n <> EmptyString -> climate_anomaly_ord c infer_freq empty_exc x "year" td = Err ValueError).
Proof. exact calendar_refused. Qed.
Print Assumptions C141_calendar_average.

(** C141.  month_to_season refuses them only if the dates it keeps for the season are out of order. *)
Theorem C141_month_to_season :
  forall c empty_exc (x : input fl) s m td n, time_info x td = Ok n -> all_valid c (samples (inp x)) -> spells s m -> (List.length (samples (inp x)) mod 12 = 0)%nat ->
    (increasing c (map fst (kept s m (samples (inp x)))) -> month_to_season_ord c empty_exc x s td = month_to_season c empty_exc x s td) /\
    (~ increasing c (map fst (kept s m (samples (inp x)))) -> month_to_season_ord c empty_exc x s td = Err ValueError).
Proof. exact m2s_order. Qed.
Print Assumptions C141_month_to_season.

(** C141.  Season climatologies refuse them if the dates of a requested season are out of order and every requested season has dates. *)
Theorem C141_seasons :
  forall c infer_freq empty_exc (x : input fl) custom td n s m, time_info x td = Ok n -> all_valid c (samples (inp x)) ->
    (forall r, In r (requested custom) -> exists m, spells r m /\ exists e, In e (samples (inp x)) /\ in_season m (fst e) = true) ->
    In s (requested custom) -> spells s m -> ~ increasing c (map fst (filter (fun e => in_season m (fst e)) (samples (inp x)))) ->
    climatology_average_ord c infer_freq empty_exc x "season" custom td = Err ValueError.
Proof. exact clim_refused. Qed.
Print Assumptions C141_seasons.

(** C141.  Climatologies of hours, days and months do not depend on the order, if both orders pass the spacing check. *)
Theorem C141_climatology :
  forall c infer_freq empty_exc (x y : input fl) freq custom td, freq <> "season"%string -> reordered x y -> all_tidy (width (inp x)) (samples (inp x)) ->
    check_uniform_ord c infer_freq (map fst (samples (inp x))) = Ok tt -> check_uniform_ord c infer_freq (map fst (samples (inp y))) = Ok tt ->
    outcomes (crows (width (inp x)) eq) (climatology_average_ord c infer_freq empty_exc x freq custom td) (climatology_average_ord c infer_freq empty_exc y freq custom td).
Proof. exact clim_reordered. Qed.
Print Assumptions C141_climatology.

(** C141.  The anomalies from them then follow their dates. *)
Theorem C141_anomaly :
  forall c infer_freq empty_exc (x y : input fl) freq td out, freq = "day"%string \/ freq = "month"%string -> reordered x y -> all_tidy (width (inp x)) (samples (inp x)) ->
    check_uniform_ord c infer_freq (map fst (samples (inp y))) = Ok tt -> climate_anomaly_ord c infer_freq empty_exc x freq td = Ok out ->
    exists out', climate_anomaly_ord c infer_freq empty_exc y freq td = Ok out' /\ same_rows (width (inp x)) out out'.
Proof. exact anom_reordered. Qed.
Print Assumptions C141_anomaly.

(** C141.  The spacing check: with fewer than three dates, or neither a frequency nor order, ValueError. *)
Theorem C141_uniform :
  forall c infer_freq ts, Forall (valid c) ts -> check_uniform_ord c infer_freq ts = Ok tt <->
    (3 <= List.length ts)%nat /\ (infer_freq ts = true \/ increasing c ts /\ forall t u v, In t ts -> In u ts -> valid c v -> instant c t <= instant c v <= instant c u -> List.length (filter (same_period Month v) ts) = 1%nat).
Proof. exact check_ord_iff. Qed.
Print Assumptions C141_uniform.

(** ** two years of months, backwards *)
Definition backwards : input fl := with_data ex_m (rev (samples (inp ex_m))).
Lemma months_increasing l : StronglySorted Z.lt l -> increasing Greg (map first_of l).
Proof.
  unfold increasing. induction 1 as [|q l S IH F]; [constructor|]. cbn [map]. constructor; [exact IH|]. rewrite Forall_forall in *. intros t Ht. apply in_map_iff in Ht. destruct Ht as (p & <- & Hp). apply Z.lt_le_incl, (instant_lt Greg); try apply first_valid. rewrite !first_month. apply F, Hp.
Qed.
Lemma not_increasing ts i j d : (i < j)%nat -> (j < List.length ts)%nat -> instant Greg (nth j ts d) < instant Greg (nth i ts d) -> ~ increasing Greg ts.
Proof.
  unfold increasing. intros Hij Hj L S. revert i j Hij Hj L. induction S as [|t ts S IH F]; intros i j Hij Hj L; [cbn in Hj; lia|]. destruct j as [|j]; [lia|]. cbn [List.length] in Hj. destruct i as [|i]; [|apply (IH i j); auto; lia].
  cbn [nth] in L. rewrite Forall_forall in F. specialize (F (nth j ts d) (nth_In ts d (proj2 (Nat.succ_lt_mono j (List.length ts)) Hj))). lia.
Qed.
Lemma ex_increasing : increasing Greg (map fst (samples (inp ex_m))).
Proof.
  change (increasing Greg (map fst (map (fun q => (first_of q, ex_v q)) (between 24240 24263)))). rewrite map_map. cbn [fst]. apply months_increasing.
  repeat (constructor; [|repeat (constructor; [reflexivity|]); constructor]). constructor.
Qed.
Lemma back_reordered : reordered ex_m backwards.
Proof. repeat split. apply Permutation_rev. Qed.
Lemma back_valid : all_valid Greg (samples (inp backwards)).
Proof. unfold all_valid. cbn [backwards with_data inp samples]. apply Forall_rev. exact ex_valid. Qed.
Lemma back_order : ~ increasing Greg (map fst (samples (inp backwards))).
Proof. apply (not_increasing _ 0 23 (first_of 0)); [lia|apply Nat.ltb_lt; reflexivity|reflexivity]. Qed.
Lemma back_seasons m : In m [12; 3; 6; 9] -> ~ increasing Greg (map fst (filter (fun e => in_season m (fst e)) (samples (inp backwards)))).
Proof. intros [<-|[<-|[<-|[<-|[]]]]]; (apply (not_increasing _ 0 5 (first_of 0)); [lia|apply Nat.ltb_lt; reflexivity|reflexivity]). Qed.
Example C141_example :
  (exists out, calendar_average_ord Greg regular ex_m "month" None = Ok out) /\
  calendar_average_ord Greg regular backwards "month" None = Err ValueError /\ climate_anomaly_ord Greg regular KeyError backwards "year" None = Err ValueError /\
  climatology_average_ord Greg regular KeyError backwards "season" [] None = Err ValueError /\ month_to_season_ord Greg KeyError backwards "JJA" None = Err ValueError.
Proof.
  destruct (C141_in_order Greg regular KeyError ex_m ex_increasing) as (Ec & _). destruct (C141_calendar_average Greg regular KeyError backwards None "time" eq_refl back_order) as (R1 & R2).
  split; [rewrite Ec; destruct C58_example as (out & E & _); exists out; exact E|]. split; [apply R1; unfold any_freq; tauto|]. split; [apply R2; discriminate|]. split.
  - destruct ex_spells as (S1 & S2 & S3 & S4 & _). apply (C141_seasons Greg regular KeyError backwards [] None "time" "JJA" 6 eq_refl back_valid); [|cbn; tauto|exact S3|apply back_seasons; cbn; tauto].
    assert (I : forall m, 1 <= m <= 12 -> exists e, In e (samples (inp backwards)) /\ in_season m (fst e) = true) by (intros m Hm; destruct (ex_in_season m Hm) as (u & Hu & Iu); exists u; split; [apply (proj1 (in_rev _ _)); exact Hu|exact Iu]).
    intros r Hr. cbn in Hr. destruct Hr as [<-|[<-|[<-|[<-|[]]]]]; eexists; (split; [eassumption|apply I; lia]).
  - destruct ex_spells as (_ & _ & S3 & _). apply (C141_month_to_season Greg KeyError backwards "JJA" 6 None "time" eq_refl back_valid S3 eq_refl). exact (back_seasons 6 ltac:(cbn; tauto)).
Qed.
Example C141_reordered_example :
  exists l l' out out', climatology_average_ord Greg regular KeyError ex_m "month" [] None = Ok (Times l) /\ climatology_average_ord Greg regular KeyError backwards "month" [] None = Ok (Times l') /\ rows 2 eq l l' /\
    climate_anomaly_ord Greg regular KeyError ex_m "month" None = Ok out /\ climate_anomaly_ord Greg regular KeyError backwards "month" None = Ok out' /\ same_rows 2 out out'.
Proof.
  destruct (C141_in_order Greg regular KeyError ex_m ex_increasing) as (_ & Ek & Ea & _). destruct ex_clim as (l & El). destruct C62_example as (out & Eo & _).
  assert (U : check_uniform_ord Greg regular (map fst (samples (inp ex_m))) = Ok tt) by reflexivity. assert (U' : check_uniform_ord Greg regular (map fst (samples (inp backwards))) = Ok tt) by reflexivity.
  pose proof (C141_climatology Greg regular KeyError ex_m backwards "month" [] None ltac:(discriminate) back_reordered ex_all_tidy U U') as O. rewrite Ek, El in O.
  rewrite <- Ea in Eo. destruct (C141_anomaly Greg regular KeyError ex_m backwards "month" None out (or_intror eq_refl) back_reordered ex_all_tidy U' Eo) as (out' & Eo' & S).
  destruct (climatology_average_ord Greg regular KeyError backwards "month" [] None) as [[l'|l']|] eqn:E'; cbn [outcomes crows] in O; try contradiction. exists l, l', out, out'. rewrite Ek. repeat split; auto.
Qed.
