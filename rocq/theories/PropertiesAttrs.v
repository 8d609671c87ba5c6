(** C92-C93: the keep_attrs argument of the climatology functions.  [global] is xarray's option keep_attrs, [mul_top], [mul_var],
    [sum_default] what the installed xarray does in arithmetic and in sums, [warr] the attributes of the weights: arbitrary. *)
From Coq Require Import List Bool String.
From Verif Require Import PyBase Arr ClimAttrs ClimAttrsFacts.
Import ListNotations.
Local Open Scope string_scope.

(** C92.  Hour, day and month averages and climatologies and month_to_season: everything is kept, attributes of the variables of a
    Dataset included, with keep_attrs True, 'default' or None (None: unless switched off globally); False leaves nothing. *)
Theorem C92_keep_attrs :
  forall global mul_top mul_var sum_default warr freq k o,
  freq <> "season" -> freq <> "year" ->
    (k = KBool true \/ k = KDefault \/ (k = KNone /\ global <> Some false) ->
       calendar_average_attrs global mul_top mul_var warr freq k o = o /\
       climatology_average_attrs global mul_top mul_var sum_default warr freq k o = o /\
       month_to_season_attrs global k o = o) /\
    (k = KBool false ->
       bare (calendar_average_attrs global mul_top mul_var warr freq k o) /\
       bare (climatology_average_attrs global mul_top mul_var sum_default warr freq k o) /\
       bare (month_to_season_attrs global k o)).
Proof. exact keep_plain. Qed.
Print Assumptions C92_keep_attrs.

(** C92.  Season and year averages: the object's own attributes are kept whatever arithmetic does to attributes, and they are
    the only ones when arithmetic drops attributes; False leaves none then. *)
Theorem C92_keep_attrs_calendar_season :
  forall global mul_top mul_var warr freq k o,
  freq = "season" \/ freq = "year" -> NoDup (map fst (top o)) ->
    let r := calendar_average_attrs global mul_top mul_var warr freq k o in
    (k = KBool true \/ k = KDefault \/ (k = KNone /\ global <> Some false) ->
       (forall key v, slookup key (top o) = Some v -> slookup key (top r) = Some v) /\
       (products_drop mul_top -> top r = top o)) /\
    (k = KBool false -> products_drop mul_top -> top r = []).
Proof. exact keep_season_calendar. Qed.
Print Assumptions C92_keep_attrs_calendar_season.

(** C92.  Seasonal climatologies: the same, except that None keeps even when switched off globally and the string
    "default" keeps nothing. *)
Theorem C92_keep_attrs_climatology_season :
  forall global mul_top mul_var sum_default warr k o,
  NoDup (map fst (top o)) ->
    let r := climatology_average_attrs global mul_top mul_var sum_default warr "season" k o in
    (k = KBool true \/ k = KNone ->
       (forall key v, slookup key (top o) = Some v -> slookup key (top r) = Some v) /\
       (products_drop mul_top -> top r = top o)) /\
    (k = KBool false \/ k = KDefault -> products_drop mul_top -> top r = []).
Proof. exact keep_season_climatology. Qed.
Print Assumptions C92_keep_attrs_climatology_season.

(** C92.  Anomalies: the attributes are the input's unless keep_attrs is False, then there are none, whatever the difference [d] of
    data and climatology carries. *)
Theorem C92_keep_attrs_anomaly :
  forall k o d,
  NoDup (map fst (top o)) ->
    (k <> KBool false -> top (climate_anomaly_attrs k o d) = top o) /\
    (k = KBool false -> top (climate_anomaly_attrs k o d) = []).
Proof. exact keep_anomaly. Qed.
Print Assumptions C92_keep_attrs_anomaly.

(** C93.  Intended: keep_attrs=True keeps the attributes of a Dataset's variables.  Refuted for anomalies, whatever keep_attrs is. *)
Theorem C93_anomaly_variables_refuted :
  forall k o d v, In v (vars (climate_anomaly_attrs k o d)) -> snd v = [].
Proof. exact anomaly_vars. Qed.
Print Assumptions C93_anomaly_variables_refuted.

(** C93.  Refuted for season and year averages and seasonal climatologies when arithmetic drops attributes. *)
Theorem C93_season_variables_refuted :
  forall global mul_top mul_var sum_default warr freq k o v,
  freq = "season" \/ freq = "year" -> products_drop mul_var ->
  In v (vars (calendar_average_attrs global mul_top mul_var warr freq k o)) \/
  In v (vars (climatology_average_attrs global mul_top mul_var sum_default warr "season" k o)) -> snd v = [].
Proof. exact season_vars. Qed.
Print Assumptions C93_season_variables_refuted.

(** C93.  Season and year averages and seasonal climatologies do keep the attributes of the variables, with keep_attrs True, 'default'
    or None, when arithmetic and sums keep attributes and they are not switched off globally. *)
Theorem C93_season_variables_kept :
  forall global mul_top mul_var sum_default warr freq k o,
  products_keep mul_var -> k = KBool true \/ k = KDefault \/ k = KNone -> global <> Some false ->
    vars (calendar_average_attrs global mul_top mul_var warr freq k o) = vars o /\
    (sum_default = true \/ global = Some true ->
       vars (climatology_average_attrs global mul_top mul_var sum_default warr "season" k o) = vars o).
Proof. exact season_vars_kept. Qed.
Print Assumptions C93_season_variables_kept.
Example C93_kept_example :
  products_keep (fun a _ => a) /\
  vars (climatology_average_attrs None (fun a _ => a) (fun a _ => a) true [("units", "d")] "season" KNone
    (mkObj [] [("tas", [("units", "K")])])) = [("tas", [("units", "K")])].
Proof. split; [intros a b|]; reflexivity. Qed.

(** a Dataset with attributes of its own and on its variable; arithmetic that drops, and arithmetic that keeps the left operand's *)
Definition ex_obj : obj := mkObj [("title", "run 1"); ("units", "K")] [("tas", [("units", "K")])].
Definition ex_drop (_ _ : adict) : adict := [].
Definition ex_left (a _ : adict) : adict := a.
Example C92_example :
  NoDup (map fst (top ex_obj)) /\ products_drop ex_drop /\
  top (calendar_average_attrs None ex_drop ex_drop [] "year" KNone ex_obj) = top ex_obj /\
  climatology_average_attrs None ex_left ex_left true [] "season" (KBool true) ex_obj = ex_obj /\
  calendar_average_attrs (Some false) ex_drop ex_drop [] "day" KNone ex_obj = mkObj [] [("tas", [])].
Proof.
  split; [repeat constructor; cbn; intuition discriminate|]. split; [intros a b; reflexivity|]. repeat split; reflexivity.
Qed.
Example C93_example : vars (climate_anomaly_attrs (KBool true) ex_obj ex_obj) = [("tas", [])].
Proof. reflexivity. Qed.
