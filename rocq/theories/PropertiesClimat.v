(** C58-C66, C86-C89: calendar_average, climatology_average, climate_anomaly, month_to_season, deprecated stubs.
    Dates, periods and averages are specified in SpecClim.v.  [c] is the calendar; [infer_freq] stands for xr.infer_freq and
    [empty_exc] for the exception raised when an empty time axis is resampled. *)
From Coq Require Import Reals List Bool Arith ZArith Lra Lia String Ascii Permutation Sorted.
From Verif Require Import PyBase Num NumFacts SumFacts ArrFacts Calendar CalendarFacts SpecClim Climat ClimFacts ClimApi ClimLong ClimKeys ClimKeysApi ClimSeason ClimM2S ClimAnom ClimMore ClimZero ClimDemo.
From Verif Require Deprecated.
Import ListNotations.
Local Open Scope Z_scope.
Local Notation smp := (list (time * (nat -> fl))).

(** C58.  calendar_average by hour, day or month.  Each output is labelled with the middle of a period and holds the means of the
    values present at exactly the dates in that period; outputs run over adjacent periods in order; a sample's period has an
    output if and only if it is complete (every element has a value in it), and then only one. *)
Theorem C58_hours_days_months :
  forall (c : cal) (infer_freq : list time -> bool),
  forall x freq f td out,
  short freq f -> all_valid c (samples (inp x)) -> all_tidy (width (inp x)) (samples (inp x)) ->
    calendar_average c infer_freq x freq td = Ok out ->
    let xs := samples (inp x) in let w := width (inp x) in
    Forall (fun e => entry_ok c f w xs (fst e) (snd e)) out /\
    (forall j d, (S j < List.length out)%nat -> adjacent c f (fst (nth j out d)) (fst (nth (S j) out d))) /\
    (forall s, In s xs -> (complete f w xs (fst s) <-> exists j, (j < List.length out)%nat /\ forall d, same_period f (fst (nth j out d)) (fst s) = true)) /\
    (forall s i j d, In s xs -> (i < List.length out)%nat -> (j < List.length out)%nat -> same_period f (fst (nth i out d)) (fst s) = true -> same_period f (fst (nth j out d)) (fst s) = true -> i = j).
Proof. exact calavg_short. Qed.
Print Assumptions C58_hours_days_months.


(** C58.  When it succeeds: some period is complete and no incomplete period lies between complete ones.  No complete period:
    IndexError.  A gap: ValueError. *)
Theorem C58_outcome :
  forall (c : cal) (infer_freq : list time -> bool),
  forall x freq f td,
  short freq f -> all_valid c (samples (inp x)) -> all_tidy (width (inp x)) (samples (inp x)) -> (0 < width (inp x))%nat -> accepted c infer_freq x td ->
    let xs := samples (inp x) in let w := width (inp x) in
    ((forall s, In s xs -> ~ complete f w xs (fst s)) -> calendar_average c infer_freq x freq td = Err IndexError) /\
    (forall s u t, In s xs -> In u xs -> complete f w xs (fst s) -> complete f w xs (fst u) -> valid c t -> instant c (fst s) <= instant c t <= instant c (fst u) -> ~ complete f w xs t -> calendar_average c infer_freq x freq td = Err ValueError) /\
    (forall s, In s xs -> complete f w xs (fst s) ->
       (forall s u t, In s xs -> In u xs -> complete f w xs (fst s) -> complete f w xs (fst u) -> valid c t -> instant c (fst s) <= instant c t <= instant c (fst u) -> complete f w xs t) ->
       exists out, calendar_average c infer_freq x freq td = Ok out).
Proof. exact calavg_short_outcome. Qed.
Print Assumptions C58_outcome.


(** C58.  The spacing check: at least three dates, and a frequency is inferred or every month in the range has exactly one date. *)
Theorem C58_uniform :
  forall (c : cal) (infer_freq : list time -> bool),
  forall ts,
  Forall (valid c) ts -> check_uniform c infer_freq ts = Ok tt <->
    (3 <= List.length ts)%nat /\ (infer_freq ts = true \/ forall t u v, In t ts -> In u ts -> valid c v -> instant c t <= instant c v <= instant c u -> List.length (filter (same_period Month v) ts) = 1%nat).
Proof. exact check_uniform_iff. Qed.
Print Assumptions C58_uniform.


(** C58, C59.  Averages stay within the range of the data. *)
Theorem C58_range :
  forall (c : cal) (infer_freq : list time -> bool),
  forall x freq td out k a b,
  any_freq freq -> all_valid c (samples (inp x)) -> all_tidy (width (inp x)) (samples (inp x)) -> (k < width (inp x))%nat ->
    calendar_average c infer_freq x freq td = Ok out -> Forall (fun s => within a b (snd s k)) (samples (inp x)) -> Forall (fun e => within a b (snd e k)) out.
Proof. exact calavg_within. Qed.
Print Assumptions C58_range.


(** C59.  calendar_average by season or year: each output is the average of the means of the complete months of the period,
    weighted by their lengths; periods run from the first to the last with a complete month (NaN in those without one). *)
Theorem C59_seasons_years :
  forall (c : cal) (infer_freq : list time -> bool),
  forall x freq f td out,
  long freq f -> all_valid c (samples (inp x)) -> all_tidy (width (inp x)) (samples (inp x)) -> (0 < width (inp x))%nat ->
    calendar_average c infer_freq x freq td = Ok out ->
    let xs := samples (inp x) in let w := width (inp x) in
    Forall (fun e => centred c f (fst e) /\ exists ms, complete_months c (same_period f (fst e)) w xs ms /\ forall k, (k < w)%nat -> snd e k = by_days c k xs ms) out /\
    (forall j d, (S j < List.length out)%nat -> adjacent c f (fst (nth j out d)) (fst (nth (S j) out d))) /\
    (forall t, valid c t -> complete Month w xs t -> exists j, (j < List.length out)%nat /\ forall d, same_period f (fst (nth j out d)) t = true) /\
    (forall t i j d, valid c t -> (i < List.length out)%nat -> (j < List.length out)%nat -> same_period f (fst (nth i out d)) t = true -> same_period f (fst (nth j out d)) t = true -> i = j) /\
    (out <> [] /\ forall d, exists t u, valid c t /\ complete Month w xs t /\ same_period f (fst (nth 0 out d)) t = true /\
                                     valid c u /\ complete Month w xs u /\ same_period f (fst (last out d)) u = true).
Proof. exact calavg_long. Qed.
Print Assumptions C59_seasons_years.


(** C59.  It succeeds exactly when some month is complete. *)
Theorem C59_outcome :
  forall (c : cal) (infer_freq : list time -> bool),
  forall x freq f td,
  long freq f -> all_valid c (samples (inp x)) -> all_tidy (width (inp x)) (samples (inp x)) -> (0 < width (inp x))%nat -> accepted c infer_freq x td ->
    let xs := samples (inp x) in let w := width (inp x) in
    ((forall s, In s xs -> ~ complete Month w xs (fst s)) -> calendar_average c infer_freq x freq td = Err IndexError) /\
    (forall s, In s xs -> complete Month w xs (fst s) -> exists out, calendar_average c infer_freq x freq td = Ok out).
Proof. exact calavg_long_outcome. Qed.
Print Assumptions C59_outcome.


(** C59.  Weights are positive and normalised: equal months give that value *)
Theorem C59_constant :
  forall l v,
  l <> [] -> Forall (fun p => 0 < fst p)%R l -> Forall (fun p => snd p = v) l -> wavg l = v.
Proof. exact wavg_const. Qed.
Print Assumptions C59_constant.


(** C59.  and in general a value between the smallest and the largest month. *)
Theorem C59_between :
  forall l a b,
  l <> [] -> Forall (fun p => 0 < fst p)%R l -> Forall (fun p => a <= snd p <= b)%R l -> (a <= wavg l <= b)%R.
Proof. exact wavg_range. Qed.
Print Assumptions C59_between.


(** C59.  The average does not depend on which dates stand for the complete months. *)
Theorem C59_months_unique :
  forall c P w xs ms ms' k,
  complete_months c P w xs ms -> complete_months c P w xs ms' -> (forall t u, valid c t -> valid c u -> same_period Month t u = true -> P t = P u) -> by_days c k xs ms = by_days c k xs ms'.
Proof. exact by_days_unique. Qed.
Print Assumptions C59_months_unique.


(** C60.  climatology_average by hour, day or month, when every date exists in the year y used for labels (y is the rounded median
    of the years): one output for each hour/day/month of the year that occurs, holding the means over all years of the values
    present, labelled in year y, in order. *)
Theorem C60_keys :
  forall (c : cal) (infer_freq : list time -> bool) (empty_exc : exc),
  forall x freq f custom td y res,
  clim_short freq f -> all_valid c (samples (inp x)) -> all_tidy (width (inp x)) (samples (inp x)) ->
    label_year (map fst (samples (inp x))) y -> all_exist c f y (map fst (samples (inp x))) -> climatology_average c infer_freq empty_exc x freq custom td = Ok res ->
    let xs := samples (inp x) in let w := width (inp x) in
    exists out, res = Times out /\ Forall (clim_entry c f y w xs) out /\
      (forall j d, (S j < List.length out)%nat -> adjacent c f (fst (nth j out d)) (fst (nth (S j) out d))) /\
      (forall s, In s xs -> exists j, (j < List.length out)%nat /\ forall d, same_key f (fst (nth j out d)) (fst s) = true) /\
      (forall t i j d, valid c t -> (i < List.length out)%nat -> (j < List.length out)%nat -> same_key f (fst (nth i out d)) t = true -> same_key f (fst (nth j out d)) t = true -> i = j).
Proof. exact clim_out. Qed.
Print Assumptions C60_keys.


(** C60, C86.  When it succeeds: the label year has four digits, and no hour/day/month of the year without samples lies between
    ones with samples; otherwise ValueError. *)
Theorem C60_outcome :
  forall (c : cal) (infer_freq : list time -> bool) (empty_exc : exc),
  forall x freq f custom td y,
  clim_short freq f -> all_valid c (samples (inp x)) -> accepted c infer_freq x td -> label_year (map fst (samples (inp x))) y ->
    let xs := samples (inp x) in
    (y < 1000 -> climatology_average c infer_freq empty_exc x freq custom td = Err ValueError) /\
    (1000 <= y -> all_exist c f y (map fst xs) ->
      (forall s u t, In s xs -> In u xs -> valid c t -> yr t = y -> instant c (in_year f y (fst s)) <= instant c t <= instant c (in_year f y (fst u)) -> (forall v, In v xs -> same_key f t (fst v) = false) -> climatology_average c infer_freq empty_exc x freq custom td = Err ValueError) /\
      ((forall s u t, In s xs -> In u xs -> valid c t -> yr t = y -> instant c (in_year f y (fst s)) <= instant c t <= instant c (in_year f y (fst u)) -> exists v, In v xs /\ same_key f t (fst v) = true) -> exists out, climatology_average c infer_freq empty_exc x freq custom td = Ok (Times out))).
Proof. exact clim_outcome. Qed.
Print Assumptions C60_outcome.


(** C60, C87.  By season: names are checked (ValueError); a season without dates raises; otherwise seasons come in the order
    requested, each the average of its complete months over all years, weighted by their lengths, and 0 without any. *)
Theorem C60_seasons :
  forall (c : cal) (infer_freq : list time -> bool) (empty_exc : exc),
  forall x custom td,
  all_valid c (samples (inp x)) -> all_tidy (width (inp x)) (samples (inp x)) -> (0 < width (inp x))%nat -> accepted c infer_freq x td ->
    let xs := samples (inp x) in let w := width (inp x) in
    ((exists s, In s (requested custom) /\ forall m, ~ spells s m) -> climatology_average c infer_freq empty_exc x "season" custom td = Err ValueError) /\
    ((forall s, In s (requested custom) -> exists m, spells s m) ->
       ((exists s m, In s (requested custom) /\ spells s m /\ forall u, In u xs -> in_season m (fst u) = false) -> climatology_average c infer_freq empty_exc x "season" custom td = Err empty_exc) /\
       ((forall s m, In s (requested custom) -> spells s m -> exists u, In u xs /\ in_season m (fst u) = true) ->
          exists out, climatology_average c infer_freq empty_exc x "season" custom td = Ok (Seasons out) /\ map fst out = requested custom /\ Forall (season_entry c w xs) out)).
Proof. exact clim_season. Qed.
Print Assumptions C60_seasons.


(** C61.  If the data cover the label year and contain a date that the label year lacks (29 February), hourly and daily
    climatologies fail with ValueError. *)
Theorem C61_leap_refuted :
  forall (c : cal) (infer_freq : list time -> bool) (empty_exc : exc),
  forall x freq f custom td y,
  (freq = "hour"%string /\ f = Hour \/ freq = "day"%string /\ f = Day) -> all_valid c (samples (inp x)) -> accepted c infer_freq x td -> label_year (map fst (samples (inp x))) y ->
    let xs := samples (inp x) in
    (forall t, valid c t -> yr t = y -> exists s, In s xs /\ same_key f t (fst s) = true) ->
    (exists s, In s xs /\ ~ valid c (in_year f y (fst s))) ->
    climatology_average c infer_freq empty_exc x freq custom td = Err ValueError.
Proof. exact clim_leap. Qed.
Print Assumptions C61_leap_refuted.


(** C62.  Day and month anomalies: the data minus the mean of the values present in the group of the date; missing stays missing. *)
Theorem C62_anomaly :
  forall (c : cal) (infer_freq : list time -> bool) (empty_exc : exc),
  forall x freq f td y out,
  anom_short freq f -> all_valid c (samples (inp x)) -> all_tidy (width (inp x)) (samples (inp x)) ->
    label_year (map fst (samples (inp x))) y -> all_exist c f y (map fst (samples (inp x))) -> climate_anomaly c infer_freq empty_exc x freq td = Ok out ->
    let xs := samples (inp x) in let w := width (inp x) in
    Forall2 (fun s e => fst e = fst s /\ forall k, (k < w)%nat -> snd e k = minus (snd s k) (mean_present (in_key f (fst s) k xs))) xs out.
Proof. exact anom_out. Qed.
Print Assumptions C62_anomaly.


(** C62.  They exist whenever the climatology does. *)
Theorem C62_total :
  forall (c : cal) (infer_freq : list time -> bool) (empty_exc : exc),
  forall x freq f td n y res,
  anom_short freq f -> all_valid c (samples (inp x)) -> all_tidy (width (inp x)) (samples (inp x)) ->
    time_info x td = Ok n -> n <> EmptyString -> label_year (map fst (samples (inp x))) y -> all_exist c f y (map fst (samples (inp x))) ->
    climatology_average c infer_freq empty_exc x freq [] td = Ok res -> exists out, climate_anomaly c infer_freq empty_exc x freq td = Ok out.
Proof. exact anom_total. Qed.
Print Assumptions C62_total.


(** C62.  In every group with a value the anomalies average to zero. *)
Theorem C62_zero :
  forall (c : cal) (infer_freq : list time -> bool) (empty_exc : exc),
  forall x freq f td y out,
  anom_short freq f -> all_valid c (samples (inp x)) -> all_tidy (width (inp x)) (samples (inp x)) ->
    label_year (map fst (samples (inp x))) y -> all_exist c f y (map fst (samples (inp x))) -> climate_anomaly c infer_freq empty_exc x freq td = Ok out ->
    forall t k, (k < width (inp x))%nat -> (exists s r, In s (samples (inp x)) /\ same_key f t (fst s) = true /\ snd s k = Fin r) -> mean_present (in_key f t k out) = Fin 0.
Proof. exact anom_group_zero. Qed.
Print Assumptions C62_zero.


(** C62.  Season anomalies: the data minus the days-weighted average of the season. *)
Theorem C62_season :
  forall (c : cal) (infer_freq : list time -> bool) (empty_exc : exc),
  forall x td,
  all_valid c (samples (inp x)) -> all_tidy (width (inp x)) (samples (inp x)) -> (0 < width (inp x))%nat -> (exists n, n <> EmptyString /\ time_info x td = Ok n) -> check_uniform c infer_freq (map fst (samples (inp x))) = Ok tt ->
    let xs := samples (inp x) in let w := width (inp x) in
    (forall m, m = 12 \/ m = 3 \/ m = 6 \/ m = 9 -> exists u, In u xs /\ in_season m (fst u) = true) ->
    exists out, climate_anomaly c infer_freq empty_exc x "season" td = Ok out /\
      Forall2 (fun s e => fst e = fst s /\ exists m ms, (m = 12 \/ m = 3 \/ m = 6 \/ m = 9) /\ in_season m (fst s) = true /\ complete_months c (in_season m) w xs ms /\
                 forall k, (k < w)%nat -> snd e k = minus (snd s k) (match ms with [] => Fin 0 | _ => by_days c k xs ms end)) xs out.
Proof. exact anom_season. Qed.
Print Assumptions C62_season.


(** C62.  The days-weighted average of the anomalies of a season is zero. *)
Theorem C62_season_zero :
  forall (c : cal) (infer_freq : list time -> bool) (empty_exc : exc),
  forall x td,
  all_valid c (samples (inp x)) -> all_tidy (width (inp x)) (samples (inp x)) -> (0 < width (inp x))%nat -> (exists n, n <> EmptyString /\ time_info x td = Ok n) -> check_uniform c infer_freq (map fst (samples (inp x))) = Ok tt ->
    let xs : smp := samples (inp x) in let w := width (inp x) in
    (forall m, m = 12 \/ m = 3 \/ m = 6 \/ m = 9 -> exists u, In u xs /\ in_season m (fst u) = true) ->
    exists out, climate_anomaly c infer_freq empty_exc x "season" td = Ok out /\
      forall m ms k, (m = 12 \/ m = 3 \/ m = 6 \/ m = 9) -> complete_months c (in_season m) w xs ms -> ms <> [] -> (k < w)%nat -> complete_months c (in_season m) w out ms /\ by_days c k out ms = Fin 0.
Proof. exact anom_season_zero. Qed.
Print Assumptions C62_season_zero.


(** C63.  Year anomalies: the data minus the sum of the averages (missing ones as 0) of all years with the same last two digits. *)
Theorem C63_year :
  forall (c : cal) (infer_freq : list time -> bool) (empty_exc : exc),
  forall x td,
  all_valid c (samples (inp x)) -> all_tidy (width (inp x)) (samples (inp x)) -> (0 < width (inp x))%nat -> (exists n, n <> EmptyString /\ time_info x td = Ok n) ->
    let xs := samples (inp x) in let w := width (inp x) in
    forall clim, calendar_average c infer_freq x "year" td = Ok clim ->
    ((exists s, In s xs /\ forall e, In e clim -> yr (fst e) mod 100 <> yr (fst s) mod 100) -> climate_anomaly c infer_freq empty_exc x "year" td = Err KeyError) /\
    ((forall s, In s xs -> exists e, In e clim /\ yr (fst e) mod 100 = yr (fst s) mod 100) ->
      exists out, climate_anomaly c infer_freq empty_exc x "year" td = Ok out /\
      Forall2 (fun s o => fst o = fst s /\ forall k, (k < w)%nat -> snd o k = minus (snd s k) (Fin (rsum (map (fun e => value (snd e k)) (filter (fun e => yr (fst e) mod 100 =? yr (fst s) mod 100) clim))))) xs out).
Proof. exact anom_year. Qed.
Print Assumptions C63_year.


(** C63.  Within less than a century, that is the average of the date's own year (0 if it has no complete month). *)
Theorem C63_short :
  forall (c : cal) (infer_freq : list time -> bool) (empty_exc : exc),
  forall x td,
  all_valid c (samples (inp x)) -> all_tidy (width (inp x)) (samples (inp x)) -> (0 < width (inp x))%nat -> (exists n, n <> EmptyString /\ time_info x td = Ok n) -> check_uniform c infer_freq (map fst (samples (inp x))) = Ok tt ->
    let xs : smp := samples (inp x) in let w := width (inp x) in
    (forall s u, In s xs -> In u xs -> yr (fst s) < yr (fst u) + 100) ->
    (forall s, In s xs -> exists u v, In u xs /\ In v xs /\ complete Month w xs (fst u) /\ complete Month w xs (fst v) /\ yr (fst u) <= yr (fst s) <= yr (fst v)) ->
    exists out, climate_anomaly c infer_freq empty_exc x "year" td = Ok out /\
      Forall2 (fun s o => fst o = fst s /\ exists ms, complete_months c (same_period Year (fst s)) w xs ms /\ forall k, (k < w)%nat -> snd o k = minus (snd s k) (Fin (value (by_days c k xs ms)))) xs out.
Proof. exact anom_year_short. Qed.
Print Assumptions C63_short.


(** C63.  In longer records it is not: constant data r have anomaly -r in every year with another one a century away. *)
Theorem C63_century_refuted :
  forall (c : cal) (infer_freq : list time -> bool) (empty_exc : exc),
  forall x td y0 n r,
  all_valid c (samples (inp x)) -> (0 < width (inp x))%nat -> (exists n, n <> EmptyString /\ time_info x td = Ok n) -> check_uniform c infer_freq (map fst (samples (inp x))) = Ok tt ->
    let xs : smp := samples (inp x) in let w := width (inp x) in
    whole_years y0 n xs -> (100 < n <= 200)%nat -> Forall (fun s => forall k, (k < w)%nat -> snd s k = Fin r) xs ->
    exists out, climate_anomaly c infer_freq empty_exc x "year" td = Ok out /\
      Forall2 (fun s o => fst o = fst s /\ forall k, (k < w)%nat -> snd o k = if (yr (fst s) + 100 <? y0 + Z.of_nat n) || (y0 + 100 <=? yr (fst s)) then Fin (- r) else Fin 0) xs out.
Proof. exact anom_century. Qed.
Print Assumptions C63_century_refuted.


(** C64.  month_to_season on n whole years of months: n means over the months of the data within one month of the middle month,
    dated with the first of the middle month. *)
Theorem C64_whole_years :
  forall (c : cal) (empty_exc : exc),
  forall x s m td y0 n,
  (exists nm, time_info x td = Ok nm) -> all_valid c (samples (inp x)) -> all_tidy (width (inp x)) (samples (inp x)) -> spells s m ->
    let xs : smp := samples (inp x) in let w := width (inp x) in whole_years y0 n xs ->
    exists out, month_to_season c empty_exc x s td = Ok out /\ List.length out = n /\
      forall j, (j < n)%nat -> forall d, let l := mkTime (y0 + Z.of_nat j) (m mod 12 + 1) 1 0 in
        fst (nth j out d) = l /\ forall k, (k < w)%nat -> snd (nth j out d) k = mean_present (map (fun e => snd e k) (filter (fun e => around l (fst e)) xs)).
Proof. exact m2s_whole. Qed.
Print Assumptions C64_whole_years.


(** C64.  For any dates, the same of the samples kept, [kept]: all in-season samples but the last (DJF) or the first (NDJ). *)
Theorem C64_any_dates :
  forall (c : cal) (empty_exc : exc),
  forall x s m td out,
  all_valid c (samples (inp x)) -> all_tidy (width (inp x)) (samples (inp x)) -> spells s m -> month_to_season c empty_exc x s td = Ok out ->
    let xs : smp := samples (inp x) in let w := width (inp x) in let K := kept s m xs in
    Forall (m2s_entry m w K) out /\
    (forall j d, (S j < List.length out)%nat -> tmonth (fst (nth (S j) out d)) = tmonth (fst (nth j out d)) + 12) /\
    (forall e, In e K -> exists j, (j < List.length out)%nat /\ forall d, around (fst (nth j out d)) (fst e) = true) /\
    (out <> [] /\ forall d, exists e e', In e K /\ In e' K /\ around (fst (nth 0 out d)) (fst e) = true /\ around (fst (last out d)) (fst e') = true).
Proof. exact m2s_out. Qed.
Print Assumptions C64_any_dates.


(** C64.  For DJF the last winter sample takes part in no mean, even when its winter is complete (records not ending in December). *)
Theorem C64_dropped_refuted :
  forall (c : cal) (empty_exc : exc),
  forall x td out l z,
  all_valid c (samples (inp x)) -> all_tidy (width (inp x)) (samples (inp x)) -> month_to_season c empty_exc x "DJF" td = Ok out ->
    filter (fun e => in_season 12 (fst e)) (samples (inp x)) = l ++ [z] ->
    Forall (fun e => forall k, (k < width (inp x))%nat -> snd e k = mean_present (map (fun s => snd s k) (filter (fun s => around (fst e) (fst s)) l))) out.
Proof. exact m2s_dropped. Qed.
Print Assumptions C64_dropped_refuted.


(** C65.  Ragged years: ValueError; unknown seasons: KeyError. *)
Theorem C65_errors :
  forall (c : cal) (empty_exc : exc),
  forall x s td,
  (exists nm, time_info x td = Ok nm) ->
    ((List.length (samples (inp x)) mod 12 <> 0)%nat -> month_to_season c empty_exc x s td = Err ValueError) /\
    ((List.length (samples (inp x)) mod 12 = 0)%nat -> (forall m, ~ spells s m) -> month_to_season c empty_exc x s td = Err KeyError).
Proof. exact m2s_errors. Qed.
Print Assumptions C65_errors.


(** C87.  If one element is missing at every date, the season climatology of every element is 0. *)
Theorem C87_dead_seasons :
  forall (c : cal) (infer_freq : list time -> bool) (empty_exc : exc),
  forall x custom td,
  all_valid c (samples (inp x)) -> all_tidy (width (inp x)) (samples (inp x)) -> accepted c infer_freq x td -> dead (width (inp x)) (samples (inp x)) ->
    (forall s, In s (requested custom) -> exists m, spells s m /\ exists u, In u (samples (inp x)) /\ in_season m (fst u) = true) ->
    exists out, climatology_average c infer_freq empty_exc x "season" custom td = Ok (Seasons out) /\ map fst out = requested custom /\ Forall (fun e => forall k, (k < width (inp x))%nat -> snd e k = Fin 0) out.
Proof. exact season_dead. Qed.
Print Assumptions C87_dead_seasons.


(** C88.  If one element is missing at every date, calendar_average raises IndexError. *)
Theorem C88_dead :
  forall (c : cal) (infer_freq : list time -> bool),
  forall x freq td,
  any_freq freq -> all_valid c (samples (inp x)) -> all_tidy (width (inp x)) (samples (inp x)) -> accepted c infer_freq x td -> dead (width (inp x)) (samples (inp x)) -> calendar_average c infer_freq x freq td = Err IndexError.
Proof. exact calavg_dead. Qed.
Print Assumptions C88_dead.


(** C89.  Unknown frequencies: ValueError. *)
Theorem C89_frequency :
  forall (c : cal) (infer_freq : list time -> bool) (empty_exc : exc),
  forall x freq td,
  (~ any_freq freq -> calendar_average c infer_freq x freq td = Err ValueError) /\
    (~ (freq = "hour" \/ freq = "day" \/ freq = "month" \/ freq = "season")%string -> forall custom, climatology_average c infer_freq empty_exc x freq custom td = Err ValueError) /\
    (~ (freq = "day" \/ freq = "month" \/ freq = "season" \/ freq = "year")%string -> (exists n, time_info x td = Ok n) -> climate_anomaly c infer_freq empty_exc x freq td = Err ValueError).
Proof. exact bad_freq. Qed.
Print Assumptions C89_frequency.


(** C89.  No such time axis, or none found: KeyError; not dates: ValueError. *)
Theorem C89_axis :
  forall (c : cal) (infer_freq : list time -> bool) (empty_exc : exc),
  forall x td e,
  no_axis x td e ->
    (forall freq, any_freq freq -> calendar_average c infer_freq x freq td = Err e) /\
    (forall freq custom, (freq = "hour" \/ freq = "day" \/ freq = "month" \/ freq = "season")%string -> climatology_average c infer_freq empty_exc x freq custom td = Err e) /\
    (forall freq, climate_anomaly c infer_freq empty_exc x freq td = Err e) /\ (forall s, month_to_season c empty_exc x s td = Err e).
Proof. exact bad_axis. Qed.
Print Assumptions C89_axis.


(** C89.  Fewer than three dates, or no frequency and a month without exactly one date: ValueError. *)
Theorem C89_spacing :
  forall (c : cal) (infer_freq : list time -> bool) (empty_exc : exc),
  forall x td,
  all_valid c (samples (inp x)) -> (exists n, time_info x td = Ok n) ->
    let ts := map fst (samples (inp x)) in
    (List.length ts < 3)%nat \/ (infer_freq ts = false /\ exists t u v, In t ts /\ In u ts /\ valid c v /\ instant c t <= instant c v <= instant c u /\ List.length (filter (same_period Month v) ts) <> 1%nat) ->
    (forall freq, any_freq freq -> calendar_average c infer_freq x freq td = Err ValueError) /\
    (forall freq custom, (freq = "hour" \/ freq = "day" \/ freq = "month" \/ freq = "season")%string -> climatology_average c infer_freq empty_exc x freq custom td = Err ValueError).
Proof. exact bad_spacing. Qed.
Print Assumptions C89_spacing.


(** C86.  Label years before 1000 are never accepted. *)
Theorem C86_early_years_refuted :
  forall (c : cal) (infer_freq : list time -> bool) (empty_exc : exc) x freq f custom td y, clim_short freq f -> all_valid c (samples (inp x)) ->
  accepted c infer_freq x td -> label_year (map fst (samples (inp x))) y -> y < 1000 -> climatology_average c infer_freq empty_exc x freq custom td = Err ValueError.
Proof. intros c i e x freq f custom td y Sh V A L Hy. exact (proj1 (clim_outcome c i e x freq f custom td y Sh V A L) Hy). Qed.
Print Assumptions C86_early_years_refuted.

(** C66.  Each deprecated function returns None and issues one warning, which names it in geocat.f2py, whatever its arguments. *)
Theorem C66_inert :
  forall (V : Type) name (fn : Deprecated.args V -> Deprecated.call V), In (name, fn) Deprecated.deprecated ->
  forall a, Deprecated.value (fn a) = None /\ exists before after, Deprecated.warned (fn a) = [(before ++ "geocat.f2py." ++ name ++ "``" ++ after)%string].
Proof.
  intros V name fn H a. repeat (destruct H as [H|H]; [injection H as <- <-; (split; [reflexivity|]); exists "To use this function, install the geocat-f2py package and import as ``"%string, "."%string; reflexivity|]). destruct H.
Qed.
Print Assumptions C66_inert.
Theorem C66_names : forall (V : Type), map fst (@Deprecated.deprecated V) = ["grid_to_triple"; "linint1"; "linint2"; "linint2pts"; "moc_globe_atl"; "rcm2points"; "rcm2rgrid"; "rgrid2rcm"; "triple_to_grid"]%string.
Proof. reflexivity. Qed.
Print Assumptions C66_names.

(** ** examples: 24 months, two elements, in the Gregorian calendar *)
Definition ex_v (q : Z) (k : nat) : fl := Fin (IZR q + INR k).
Definition ex_m : input fl := as_input 2 (monthly 2020 2 ex_v).
Lemma ex_fin : forall q k, exists r, ex_v q k = Fin r. Proof. intros. eexists. reflexivity. Qed.
Lemma ex_tidy : forall q k, tidy (ex_v q k). Proof. intros. right. apply ex_fin. Qed.
Lemma ex_valid : all_valid Greg (samples (inp ex_m)). Proof. apply monthly_valid. Qed.
Lemma ex_all_tidy : all_tidy (width (inp ex_m)) (samples (inp ex_m)). Proof. apply monthly_tidy. apply ex_tidy. Qed.
Lemma ex_accepted td : td = None \/ td = Some "time"%string -> accepted Greg regular ex_m td.
Proof. apply as_input_accepted. rewrite monthly_length. lia. Qed.
Example C58_example : exists out, calendar_average Greg regular ex_m "month" None = Ok out /\ exists e, In e out /\ same_period Month (fst e) (first_of 24241) = true.
Proof.
  destruct (C58_outcome Greg regular ex_m "month" Month None (or_intror (or_intror (conj eq_refl eq_refl))) ex_valid ex_all_tidy ltac:(cbn; lia) (ex_accepted None (or_introl eq_refl))) as (_ & _ & Q).
  assert (H0 : In (first_of 24240, ex_v 24240) (samples (inp ex_m))) by (apply monthly_In; lia).
  assert (MC : forall t, valid Greg t -> 24240 <= tmonth t <= 24263 -> complete Month 2 (samples (inp ex_m)) t) by (intros t V B; apply (monthly_complete Greg); auto; apply ex_fin).
  destruct (Q _ H0) as [out E].
  - apply MC; [apply first_valid|]. cbn [fst]. rewrite first_month. lia.
  - intros s u t Hs Hu _ _ Vt Ht. apply MC; auto. apply monthly_inv in Hs, Hu. destruct Hs as (q & Hq & ->). destruct Hu as (q' & Hq' & ->). cbn [fst] in Ht.
    pose proof (pnum_mono Greg Month (first_of q) t (first_valid _ _) Vt ltac:(lia)) as P1. pose proof (pnum_mono Greg Month t (first_of q') Vt (first_valid _ _) ltac:(lia)) as P2. cbn [pnum] in P1, P2. rewrite first_month in P1, P2. lia.
  - exists out. split; auto. destruct (C58_hours_days_months Greg regular ex_m "month" Month None out (or_intror (or_intror (conj eq_refl eq_refl))) ex_valid ex_all_tidy E) as (_ & _ & R & _).
    assert (H1 : In (first_of 24241, ex_v 24241) (samples (inp ex_m))) by (apply monthly_In; lia). destruct (proj1 (R _ H1)) as (j & Hj & Sj). { apply MC; [apply first_valid|]. cbn [fst]. rewrite first_month. lia. }
    exists (nth j out (first_of 0, fun _ => NaN)). split; [apply nth_In; auto|apply Sj].
Qed.
Example C59_example : exists out, calendar_average Greg regular ex_m "season" None = Ok out.
Proof.
  destruct (C59_outcome Greg regular ex_m "season" (Quarter 12) None (or_introl (conj eq_refl eq_refl)) ex_valid ex_all_tidy ltac:(cbn; lia) (ex_accepted None (or_introl eq_refl))) as (_ & Q).
  apply (Q (first_of 24240, ex_v 24240)); [apply monthly_In; lia|]. apply (monthly_complete Greg); [apply ex_fin|apply first_valid|]. cbn [fst]. rewrite first_month. lia.
Qed.
Lemma ex_label : label_year (map fst (samples (inp ex_m))) 2020.
Proof.
  exists 4041. split; [|right; split; [reflexivity|left; reflexivity]]. exists (map yr (map fst (samples (inp ex_m)))). split; [apply Permutation_refl|]. split; [|reflexivity].
  change (Sorted Z.le (repeat 2020 12 ++ repeat 2021 12)). cbn [repeat app]. repeat (constructor; [|try constructor; lia]). constructor.
Qed.
Lemma ex_exist : all_exist Greg Month 2020 (map fst (samples (inp ex_m))).
Proof.
  intros t Ht. apply in_map_iff in Ht. destruct Ht as (s & <- & Hs). apply monthly_inv in Hs. destruct Hs as (q & _ & ->). unfold in_year, valid, first_of. cbn [fst yr mo dy sec]. pose proof (mlen_bounds Greg 2020 (q mod 12 + 1)). lia.
Qed.
Lemma ex_clim : exists l, climatology_average Greg regular KeyError ex_m "month" [] None = Ok (Times l).
Proof.
  destruct (C60_outcome Greg regular KeyError ex_m "month" Month [] None 2020 (or_intror (or_intror (conj eq_refl eq_refl))) ex_valid (ex_accepted None (or_introl eq_refl)) ex_label) as [_ Q].
  destruct (Q ltac:(lia) ex_exist) as [_ R]. apply R. intros s u t _ _ Vt Yt _. exists (first_of (24240 + (mo t - 1)), ex_v (24240 + (mo t - 1))). assert (Hm := proj1 Vt). split; [apply monthly_In; lia|]. unfold first_of. cbn [same_key fst mo]. apply Z.eqb_eq. lia.
Qed.
Example C60_example : exists l, climatology_average Greg regular KeyError ex_m "month" [] None = Ok (Times l) /\ Forall (clim_entry Greg Month 2020 2 (samples (inp ex_m))) l.
Proof.
  destruct ex_clim as [l E]. exists l. split; auto. destruct (C60_keys Greg regular KeyError ex_m "month" Month [] None 2020 (Times l) (or_intror (or_intror (conj eq_refl eq_refl))) ex_valid ex_all_tidy ex_label ex_exist E) as (l' & El & F & _). injection El as <-. auto.
Qed.
Lemma ex_spells : spells "DJF" 12 /\ spells "MAM" 3 /\ spells "JJA" 6 /\ spells "SON" 9 /\ spells "NDJ" 11.
Proof. unfold spells. repeat split; lia. Qed.
Lemma ex_in_season m : 1 <= m <= 12 -> exists u, In u (samples (inp ex_m)) /\ in_season m (fst u) = true.
Proof.
  intros Hm. exists (first_of (24240 + (m - 1)), ex_v (24240 + (m - 1))). split; [apply monthly_In; lia|]. unfold first_of, in_season. cbn [fst mo]. apply Z.ltb_lt. replace ((24240 + (m - 1)) mod 12 + 1) with m by lia. rewrite Z.sub_diag. reflexivity.
Qed.
Example C60_season_example : exists out, climatology_average Greg regular KeyError ex_m "season" ["NDJ"; "JJA"]%string None = Ok (Seasons out) /\ map fst out = ["NDJ"; "JJA"]%string.
Proof.
  destruct (C60_seasons Greg regular KeyError ex_m ["NDJ"; "JJA"]%string None ex_valid ex_all_tidy ltac:(cbn; lia) (ex_accepted None (or_introl eq_refl))) as (_ & Q). destruct Q as (_ & R).
  - intros s Hs. destruct ex_spells as (_ & _ & S6 & _ & S11). destruct Hs as [<-|[<-|[]]]; eauto.
  - destruct R as (out & E & N & _); eauto. intros s m _ [Hm _]. apply ex_in_season. auto.
Qed.
(** daily data from 2020-01-01 to 2022-12-31: labels in 2021, which has no 29 February *)
Definition ex_days : smp := daily Greg (ystart Greg 2020) (ystart Greg 2021 - 1) ex_v ++ daily Greg (ystart Greg 2021) (ystart Greg 2022 - 1) ex_v ++ daily Greg (ystart Greg 2022) (ystart Greg 2023 - 1) ex_v.
Lemma years_const (l : smp) y : (forall s, In s l -> yr (fst s) = y) -> map yr (map fst l) = repeat y (List.length l).
Proof. induction l as [|s l IH]; intros H; [reflexivity|]. cbn [map repeat List.length]. f_equal; [apply H; left; auto|apply IH; intros z Hz; apply H; right; auto]. Qed.
Lemma daily_length c a b v : List.length (daily c a b v) = Z.to_nat (b - a + 1).
Proof. unfold daily. rewrite map_length. apply between_length. Qed.
Lemma sorted_repeat y n l : Sorted Z.le l -> (forall z, In z l -> y <= z) -> Sorted Z.le (repeat y n ++ l).
Proof.
  intros Hl H. induction n as [|n IH]; [exact Hl|]. cbn [repeat app]. constructor; auto. destruct n; cbn [repeat app]; [destruct l; constructor; apply H; left; auto|constructor; lia].
Qed.
Lemma ex_days_years : map yr (map fst ex_days) = repeat 2020 (Z.to_nat 366) ++ repeat 2021 (Z.to_nat 365) ++ repeat 2022 (Z.to_nat 365).
Proof.
  unfold ex_days. rewrite !map_app. rewrite (years_const _ 2020), (years_const _ 2021), (years_const _ 2022) by (apply daily_year). rewrite !daily_length. reflexivity.
Qed.
Lemma ex_days_label : label_year (map fst ex_days) 2021.
Proof.
  exists 4042. split; [|left; reflexivity]. exists (map yr (map fst ex_days)). split; [apply Permutation_refl|]. rewrite ex_days_years. split.
  - repeat apply sorted_repeat.
    + rewrite <- (app_nil_r (repeat 2022 _)). apply sorted_repeat; [constructor|intros z []].
    + intros z Hz. apply repeat_spec in Hz. lia.
    + intros z Hz. apply in_app_or in Hz. destruct Hz as [Hz|Hz]; apply repeat_spec in Hz; lia.
  - rewrite !app_length, !repeat_length. reflexivity.
Qed.
Example C61_example : climatology_average Greg regular KeyError (as_input 1 ex_days) "day" [] None = Err ValueError.
Proof.
  apply (C61_leap_refuted Greg regular KeyError (as_input 1 ex_days) "day" Day [] None 2021).
  - right. split; reflexivity.
  - unfold all_valid. cbn [samples inp as_input]. unfold ex_days. rewrite !Forall_app. repeat split; apply daily_valid.
  - apply as_input_accepted; [|left; reflexivity]. assert (L := f_equal (@List.length Z) ex_days_years). rewrite !map_length, !app_length, !repeat_length in L. rewrite L. lia.
  - apply ex_days_label.
  - intros t Vt Yt. set (d := instant Greg t / 86400). exists (date_of Greg (86400 * d), ex_v d). cbn [samples inp as_input fst].
    assert (PY : pnum Greg Year t = 2021) by (cbn [pnum]; rewrite (proj1 (tmonth_div Greg t Vt)); auto). apply (period_iff Greg Year t 2021 Vt) in PY. cbn [pstart pmonth] in PY.
    pose proof (mstart_year Greg 2021) as M1. pose proof (mstart_year Greg 2022) as M2. change (mnum 2021 1) with (12 * 2021) in M1. change (mnum 2022 1) with (12 * (2021 + 1)) in M2. rewrite M1, M2 in PY. split.
    + unfold ex_days. apply in_or_app. right. apply in_or_app. left. apply (in_map (fun d => (date_of Greg (86400 * d), ex_v d))). apply between_In. unfold d. lia.
    + assert (SP : same_period Day t (date_of Greg (86400 * d)) = true). { destruct (date_of_spec Greg (86400 * d)) as [Vd Id]. apply (same_period_pnum Greg Day); auto. cbn [pnum]. rewrite Id. unfold d. lia. }
      cbn [same_period same_key] in *. apply andb_true_iff in SP. destruct SP as [SP S3]. apply andb_true_iff in SP. destruct SP as [_ S2]. rewrite S2, S3. reflexivity.
  - assert (I29 : instant Greg (mkTime 2020 2 29 0) = 86400 * (ystart Greg 2020 + 59)) by (vm_compute; reflexivity).
    assert (V29 : valid Greg (mkTime 2020 2 29 0)) by (unfold valid; cbn; lia).
    exists (mkTime 2020 2 29 0, ex_v (ystart Greg 2020 + 59)). split.
    + cbn [samples inp as_input]. unfold ex_days. apply in_or_app. left. rewrite <- (date_of_instant Greg _ V29), I29. apply (in_map (fun d => (date_of Greg (86400 * d), ex_v d))). apply between_In. change (ystart Greg 2021) with (ystart Greg 2020 + 366). lia.
    + unfold valid, in_year. cbn. lia.
Qed.
Example C62_example : exists out, climate_anomaly Greg regular KeyError ex_m "month" None = Ok out /\ mean_present (in_key Month (first_of 24241) 1 out) = Fin 0.
Proof.
  destruct ex_clim as [l E]. destruct (C62_total Greg regular KeyError ex_m "month" Month None "time" 2020 (Times l) (or_intror (conj eq_refl eq_refl)) ex_valid ex_all_tidy eq_refl ltac:(discriminate) ex_label ex_exist E) as [out EO]. exists out. split; auto.
  apply (C62_zero Greg regular KeyError ex_m "month" Month None 2020 out (or_intror (conj eq_refl eq_refl)) ex_valid ex_all_tidy ex_label ex_exist EO); [cbn; lia|]. eexists _, _. split; [apply (monthly_In 2020 2 ex_v 24241); lia|]. split; reflexivity.
Qed.
Example C62_season_example : exists out, climate_anomaly Greg regular KeyError ex_m "season" None = Ok out.
Proof.
  destruct (C62_season Greg regular KeyError ex_m None ex_valid ex_all_tidy ltac:(cbn; lia)) as (out & E & _).
  - exists "time"%string. split; [discriminate|reflexivity].
  - exact (proj2 (ex_accepted None (or_introl eq_refl))).
  - intros m Hm. apply ex_in_season. lia.
  - eauto.
Qed.
Example C63_example : exists out, climate_anomaly Greg regular KeyError ex_m "year" None = Ok out.
Proof.
  destruct (C63_short Greg regular KeyError ex_m None ex_valid ex_all_tidy ltac:(cbn; lia)) as (out & E & _).
  - exists "time"%string. split; [discriminate|reflexivity].
  - exact (proj2 (ex_accepted None (or_introl eq_refl))).
  - intros s u Hs Hu. apply monthly_inv in Hs, Hu. destruct Hs as (q & Hq & ->). destruct Hu as (q' & Hq' & ->). unfold first_of. cbn [fst yr]. lia.
  - intros s Hs. exists s, s. assert (Cs : complete Month 2 (samples (inp ex_m)) (fst s)). { apply monthly_inv in Hs. destruct Hs as (q & Hq & ->). apply (monthly_complete Greg); [apply ex_fin|apply first_valid|]. cbn [fst]. rewrite first_month. lia. }
    do 4 (split; auto). lia.
  - eauto.
Qed.
Definition ex_century : input fl := as_input 1 (monthly 1900 101 (fun _ _ => Fin 5)).
Example C63_century_example : exists out, climate_anomaly Greg regular KeyError ex_century "year" None = Ok out /\ exists e, In e out /\ fst e = first_of 22800 /\ snd e 0%nat = Fin (- 5).
Proof.
  destruct (C63_century_refuted Greg regular KeyError ex_century None 1900 101 5) as (out & E & F).
  - apply monthly_valid.
  - cbn. lia.
  - exists "time"%string. split; [discriminate|reflexivity].
  - refine (proj2 (as_input_accepted Greg 1 (monthly 1900 101 (fun _ _ => Fin 5)) None _ (or_introl eq_refl))). rewrite monthly_length. lia.
  - apply monthly_whole. lia.
  - lia.
  - unfold ex_century, as_input, monthly. cbn [inp samples]. rewrite Forall_map. apply Forall_forall. reflexivity.
  - exists out. split; auto. assert (H : In (first_of 22800, fun _ : nat => Fin 5) (samples (inp ex_century))) by (apply (monthly_In 1900 101 (fun _ _ => Fin 5) 22800); lia).
    clear E. revert H F. generalize (samples (inp ex_century)). intros xs H F. induction F as [|s o l l' [F1 F2] F IH]; [destruct H|]. destruct H as [->|H].
    + exists o. split; [left; auto|]. split; [exact F1|]. refine (eq_trans (F2 0%nat ltac:(cbn; lia)) _). reflexivity.
    + destruct (IH H) as (e & He & Q). exists e. split; [right; auto|auto].
Qed.
Example C64_example : exists out, month_to_season Greg KeyError ex_m "DJF" None = Ok out /\ List.length out = 2%nat.
Proof.
  destruct (C64_whole_years Greg KeyError ex_m "DJF" 12 None 2020 2) as (out & E & L & _); eauto; [exists "time"%string; reflexivity|apply ex_valid|apply ex_all_tidy|apply ex_spells|apply monthly_whole; lia].
Qed.
(** twelve months from March: the winter is complete, but its February is left out *)
Definition ex_march : smp := map (fun q => (first_of q, ex_v q)) (between 24242 24253).
Example C64_dropped_example : filter (fun e => in_season 12 (fst e)) ex_march = [(first_of 24251, ex_v 24251); (first_of 24252, ex_v 24252)] ++ [(first_of 24253, ex_v 24253)] /\ exists out, month_to_season Greg KeyError (as_input 1 ex_march) "DJF" None = Ok out.
Proof. split; [reflexivity|]. eexists. reflexivity. Qed.
Example C65_example : month_to_season Greg KeyError ex_m "ABC" None = Err KeyError.
Proof.
  apply (C65_errors Greg KeyError ex_m "ABC" None); [exists "time"%string; reflexivity|reflexivity|]. apply find_season_none. reflexivity.
Qed.
Example C86_example : label_year (map fst (monthly 850 1 ex_v)) 850 /\ climatology_average Greg regular KeyError (as_input 1 (monthly 850 1 ex_v)) "month" [] None = Err ValueError.
Proof.
  assert (L : label_year (map fst (monthly 850 1 ex_v)) 850).
  { exists 1700. split; [|left; reflexivity]. exists (map yr (map fst (monthly 850 1 ex_v))). split; [apply Permutation_refl|]. split; [|reflexivity].
    change (Sorted Z.le (repeat 850 12)). cbn [repeat]. repeat (constructor; [|try constructor; lia]). constructor. }
  split; [exact L|]. apply (C86_early_years_refuted Greg regular KeyError (as_input 1 (monthly 850 1 ex_v)) "month" Month [] None 850); auto; [right; right; split; reflexivity|apply monthly_valid|apply as_input_accepted; auto; rewrite monthly_length; lia|lia].
Qed.
(** the second of two elements is missing everywhere *)
Definition ex_dead_v (q : Z) (k : nat) : fl := match k with O => Fin (IZR q) | _ => NaN end.
Definition ex_dead : input fl := as_input 2 (monthly 2020 2 ex_dead_v).
Lemma ex_is_dead : dead (width (inp ex_dead)) (samples (inp ex_dead)).
Proof. exists 1%nat. split; [cbn; lia|]. intros s Hs. apply monthly_inv in Hs. destruct Hs as (q & _ & ->). reflexivity. Qed.
Lemma ex_dead_tidy : all_tidy (width (inp ex_dead)) (samples (inp ex_dead)).
Proof. apply monthly_tidy. intros q [|k]; [right; eexists; reflexivity|left; reflexivity]. Qed.
Example C87_example : exists out, climatology_average Greg regular KeyError ex_dead "season" [] None = Ok (Seasons out) /\ Forall (fun e => snd e 0%nat = Fin 0) out.
Proof.
  destruct (C87_dead_seasons Greg regular KeyError ex_dead [] None (monthly_valid _ _ _ _) ex_dead_tidy) as (out & E & _ & F).
  - apply as_input_accepted; auto. rewrite monthly_length. lia.
  - apply ex_is_dead.
  - assert (In4 : forall m, 1 <= m <= 12 -> exists u, In u (samples (inp ex_dead)) /\ in_season m (fst u) = true).
    { intros m Hm. exists (first_of (24240 + (m - 1)), ex_dead_v (24240 + (m - 1))). split; [apply monthly_In; lia|]. unfold first_of, in_season. cbn [fst mo]. apply Z.ltb_lt. replace ((24240 + (m - 1)) mod 12 + 1) with m by lia. rewrite Z.sub_diag. reflexivity. }
    destruct ex_spells as (S12 & S3 & S6 & S9 & _). intros s [<-|[<-|[<-|[<-|[]]]]]; eexists; (split; [eassumption|]); apply In4; lia.
  - exists out. split; auto. rewrite Forall_forall in F |- *. intros e He. apply F; auto. cbn. lia.
Qed.
Example C88_example : calendar_average Greg regular ex_dead "month" None = Err IndexError.
Proof.
  apply C88_dead; [unfold any_freq; tauto|apply monthly_valid|apply ex_dead_tidy|apply as_input_accepted; auto; rewrite monthly_length; lia|apply ex_is_dead].
Qed.
(** an irregular record: no frequency, no date in February 2020 *)
Example C89_example : exists x, all_valid Greg (samples (inp x)) /\ calendar_average Greg (fun _ => false) x "month" None = Err ValueError.
Proof.
  exists (as_input 1 (map (fun q => (first_of q, ex_v q)) [24240; 24242; 24243])). assert (V : all_valid Greg (map (fun q => (first_of q, ex_v q)) [24240; 24242; 24243])) by (unfold all_valid; rewrite Forall_map; apply Forall_forall; intros; apply first_valid). split; [exact V|].
  apply (C89_spacing Greg (fun _ => false) KeyError (as_input 1 (map (fun q => (first_of q, ex_v q)) [24240; 24242; 24243])) None V); [exists "time"%string; reflexivity| |unfold any_freq; tauto].
  right. split; auto. exists (first_of 24240), (first_of 24242), (first_of 24241). split; [left; reflexivity|]. split; [right; left; reflexivity|]. split; [apply first_valid|]. split; [|discriminate].
  split; apply Z.lt_le_incl; apply instant_lt; try apply first_valid; rewrite !first_month; lia.
Qed.

