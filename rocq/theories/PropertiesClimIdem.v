(** C138: taking anomalies twice.  [with_data x out] is the argument x holding the anomalies [out] (SpecClimIdem.v). *)
From Coq Require Import Reals List Bool Arith ZArith Lra Lia String.
From Verif Require Import PyBase Num Calendar CalendarFacts SpecClim Climat ClimFacts ClimApi ClimLong ClimKeys ClimKeysApi ClimSeason ClimM2S ClimAnom ClimMore ClimZero ClimDemo
  SpecClimSuper SpecClimIdem ClimIdem PropertiesClimat.
Import ListNotations.
Local Open Scope Z_scope.
Local Notation smp := (list (time * (nat -> fl))).

(** C138.  By day or by month: whenever the anomalies exist, their own anomalies exist and are the same numbers. *)
Theorem C138_day_month :
  forall c infer_freq empty_exc x freq f td y out, anom_short freq f -> all_valid c (samples (inp x)) -> all_tidy (width (inp x)) (samples (inp x)) ->
    label_year (map fst (samples (inp x))) y -> all_exist c f y (map fst (samples (inp x))) -> climate_anomaly c infer_freq empty_exc x freq td = Ok out ->
    exists out', climate_anomaly c infer_freq empty_exc (with_data x out) freq td = Ok out' /\ each2 (width (inp x)) (fun _ a b => a = b) out out'.
Proof. exact idem_short. Qed.
Print Assumptions C138_day_month.

(** C138.  By season. *)
Theorem C138_season :
  forall c infer_freq empty_exc x td, all_valid c (samples (inp x)) -> all_tidy (width (inp x)) (samples (inp x)) -> (0 < width (inp x))%nat -> (exists n, n <> EmptyString /\ time_info x td = Ok n) -> check_uniform c infer_freq (map fst (samples (inp x))) = Ok tt ->
    (forall m, m = 12 \/ m = 3 \/ m = 6 \/ m = 9 -> exists u, In u (samples (inp x)) /\ in_season m (fst u) = true) ->
    exists out out', climate_anomaly c infer_freq empty_exc x "season" td = Ok out /\ climate_anomaly c infer_freq empty_exc (with_data x out) "season" td = Ok out' /\ each2 (width (inp x)) (fun _ a b => a = b) out out'.
Proof. exact idem_season. Qed.
Print Assumptions C138_season.

(** C138.  By year, in records of less than a century whose first and last years have a complete month. *)
Theorem C138_year :
  forall c infer_freq empty_exc x td, all_valid c (samples (inp x)) -> all_tidy (width (inp x)) (samples (inp x)) -> (0 < width (inp x))%nat -> (exists n, n <> EmptyString /\ time_info x td = Ok n) -> check_uniform c infer_freq (map fst (samples (inp x))) = Ok tt ->
    let xs : smp := samples (inp x) in let w := width (inp x) in
    (forall s u, In s xs -> In u xs -> yr (fst s) < yr (fst u) + 100) ->
    (forall s, In s xs -> exists u v, In u xs /\ In v xs /\ complete Month w xs (fst u) /\ complete Month w xs (fst v) /\ yr (fst u) <= yr (fst s) <= yr (fst v)) ->
    exists out out', climate_anomaly c infer_freq empty_exc x "year" td = Ok out /\ climate_anomaly c infer_freq empty_exc (with_data x out) "year" td = Ok out' /\ each2 w (fun _ a b => a = b) out out'.
Proof. exact idem_year. Qed.
Print Assumptions C138_year.

(** the hypotheses are met by two years of monthly data *)
Example C138_example : exists out out', climate_anomaly Greg regular KeyError ex_m "month" None = Ok out /\ climate_anomaly Greg regular KeyError (with_data ex_m out) "month" None = Ok out' /\ each2 2 (fun _ a b => a = b) out out'.
Proof.
  destruct C62_example as (out & E & _). exists out. destruct (C138_day_month Greg regular KeyError ex_m "month" Month None 2020 out (or_intror (conj eq_refl eq_refl)) ex_valid ex_all_tidy ex_label ex_exist E) as (out' & E' & H). exists out'. auto.
Qed.
Example C138_season_example : exists out out', climate_anomaly Greg regular KeyError ex_m "season" None = Ok out /\ climate_anomaly Greg regular KeyError (with_data ex_m out) "season" None = Ok out' /\ each2 2 (fun _ a b => a = b) out out'.
Proof.
  apply (C138_season Greg regular KeyError ex_m None ex_valid ex_all_tidy ltac:(cbn; lia)).
  - exists "time"%string. split; [discriminate|reflexivity].
  - exact (proj2 (ex_accepted None (or_introl eq_refl))).
  - intros m Hm. apply ex_in_season. lia.
Qed.
Example C138_year_example : exists out out', climate_anomaly Greg regular KeyError ex_m "year" None = Ok out /\ climate_anomaly Greg regular KeyError (with_data ex_m out) "year" None = Ok out' /\ each2 2 (fun _ a b => a = b) out out'.
Proof.
  apply (C138_year Greg regular KeyError ex_m None ex_valid ex_all_tidy ltac:(cbn; lia)).
  - exists "time"%string. split; [discriminate|reflexivity].
  - exact (proj2 (ex_accepted None (or_introl eq_refl))).
  - intros s u Hs Hu. apply monthly_inv in Hs, Hu. destruct Hs as (q & Hq & ->). destruct Hu as (q' & Hq' & ->). unfold first_of. cbn [fst yr]. lia.
  - intros s Hs. exists s, s. assert (Cs : complete Month 2 (samples (inp ex_m)) (fst s)). { apply monthly_inv in Hs. destruct Hs as (q & Hq & ->). apply (monthly_complete Greg); [apply ex_fin|apply first_valid|]. cbn [fst]. rewrite first_month. lia. }
    do 4 (split; auto). lia.
Qed.
