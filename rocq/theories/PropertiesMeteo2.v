(** C107, C108: is warmer or moister air given a higher heat index and a higher dew point? *)
From Coq Require Import Reals List Bool Arith ZArith Lra Lia String.
From Verif Require Import PyBase Num NumFacts Arr ArrFacts CellFacts Hybrid Meteo SpecMeteo MeteoFacts MeteoCells MeteoApi MeteoApi2 HeatOrder.
Import ListNotations.
Local Open Scope R_scope.

(** C107.  Hot air: from 81.2 F on (80 F with the alternate coefficients) up to 140 F the heat index increases strictly
    with the temperature and with the humidity, the adjustments included.  The two cells may lie in one call or in two. *)
Theorem C107_hot_air_ordered :
  forall (t rh t' rh' : inp fl) alt w out w' out',
  kind_of t = kind_of rh -> compat rh t -> ravel (as_arr rh) <> [] ->
  kind_of t' = kind_of rh' -> compat rh' t' -> ravel (as_arr rh') <> [] ->
  heat_index t rh alt = Ok (w, out) -> heat_index t' rh' alt = Ok (w', out') ->
  forall i i' x h x' h', inb (shp (as_arr t)) i -> inb (shp (as_arr t')) i' ->
    get (as_arr t) i = Fin x -> get (as_arr rh) i = Fin h -> get (as_arr t') i' = Fin x' -> get (as_arr rh') i' = Fin h' ->
    (if alt then 80 else 81.2) <= x -> x <= x' -> x' <= 140 -> 0 <= h -> h <= h' -> h' <= 100 -> x < x' \/ h < h' ->
    exists v v', get (as_arr out) i = Fin v /\ get (as_arr out') i' = Fin v' /\ v < v'.
Proof. exact c107_hot. Qed.
Print Assumptions C107_hot_air_ordered.

(** C107.  Below 40 F it increases with the temperature; from 40 F to 80 F it increases with both as long as the average of
    Steadman's formula and the temperature stays below the threshold of the regression. *)
Theorem C107_mild_air_ordered :
  forall (t rh t' rh' : inp fl) alt w out w' out',
  kind_of t = kind_of rh -> compat rh t -> ravel (as_arr rh) <> [] ->
  kind_of t' = kind_of rh' -> compat rh' t' -> ravel (as_arr rh') <> [] ->
  heat_index t rh alt = Ok (w, out) -> heat_index t' rh' alt = Ok (w', out') ->
  forall i i' x h x' h', inb (shp (as_arr t)) i -> inb (shp (as_arr t')) i' ->
    get (as_arr t) i = Fin x -> get (as_arr rh) i = Fin h -> get (as_arr t') i' = Fin x' -> get (as_arr rh') i' = Fin h' ->
    (x < x' -> x' < 40 -> exists v v', get (as_arr out) i = Fin v /\ get (as_arr out') i' = Fin v' /\ v < v') /\
    (40 <= x -> x <= x' -> x' < 80 -> h <= h' -> x < x' \/ h < h' -> (61 + 1.2 * (x' - 68) + 0.094 * h' + x') / 2 < (if alt then 70 else 79) ->
     exists v v', get (as_arr out) i = Fin v /\ get (as_arr out') i' = Fin v' /\ v < v').
Proof. exact c107_mild. Qed.
Print Assumptions C107_mild_air_ordered.

(** C107 is false at 40 F: at every humidity and for both coefficient sets the index falls from the temperature itself
    to 33.7 + 0.047 h. *)
Theorem C107_forty_degrees_refuted :
  forall alt t h, 39 <= t < 40 -> 0 <= h <= 100 ->
  exists w v v', heat_index (IFloat (Fin t)) (IFloat (Fin h)) alt = Ok (w, IFloat (Fin v)) /\
    heat_index (IFloat (Fin 40)) (IFloat (Fin h)) alt = Ok (w, IFloat (Fin v')) /\ v = t /\ v' = 33.7 + 0.047 * h /\ v' < v.
Proof. exact c107_forty. Qed.
Print Assumptions C107_forty_degrees_refuted.

(** C107 is false where the regression takes over: in moist air a warmer or moister cell can lose more than a degree, with
    the alternate coefficients almost five. *)
Theorem C107_threshold_refuted :
  (exists w w' v v', heat_index (IFloat (Fin 76.9)) (IFloat (Fin 100)) false = Ok (w, IFloat (Fin v)) /\
     heat_index (IFloat (Fin 77)) (IFloat (Fin 100)) false = Ok (w', IFloat (Fin v')) /\ v' < v - 1.3) /\
  (exists w w' v v', heat_index (IFloat (Fin 77)) (IFloat (Fin 97)) false = Ok (w, IFloat (Fin v)) /\
     heat_index (IFloat (Fin 77)) (IFloat (Fin 98)) false = Ok (w', IFloat (Fin v')) /\ v' < v - 1) /\
  (exists w w' v v', heat_index (IFloat (Fin 68.7)) (IFloat (Fin 100)) true = Ok (w, IFloat (Fin v)) /\
     heat_index (IFloat (Fin 68.8)) (IFloat (Fin 100)) true = Ok (w', IFloat (Fin v')) /\ v' < v - 4.9).
Proof. exact c107_threshold. Qed.
Print Assumptions C107_threshold_refuted.

(** two cells of one call: 90 F at 10 percent and 110 F at 50 percent *)
Definition ex_t : inp fl := INd (mkArr [2]%nat (fun i => Fin (match i with [O] => 90 | _ => 110 end))).
Definition ex_h : inp fl := INd (mkArr [2]%nat (fun i => Fin (match i with [O] => 10 | _ => 50 end))).
Example C107_example : exists w out v v', heat_index ex_t ex_h false = Ok (w, out) /\
  get (as_arr out) [0%nat] = Fin v /\ get (as_arr out) [1%nat] = Fin v' /\ v < v'.
Proof.
  destruct (c27_checks ex_t ex_h false eq_refl eq_refl ltac:(discriminate)) as [_ B]. destruct B as (w & out & E & _).
  { intros [(x & Hx & O) _]. cbn in Hx. destruct Hx as [<-|[<-|[]]]; destruct O as [O|O]; cbn in O; unfold rltb in O; destruct (Rlt_dec _ _); try discriminate; lra. }
  destruct (C107_hot_air_ordered ex_t ex_h ex_t ex_h false w out w out eq_refl eq_refl ltac:(discriminate) eq_refl eq_refl ltac:(discriminate) E E
    [0%nat] [1%nat] 90 10 110 50 ltac:(repeat constructor) ltac:(repeat constructor) eq_refl eq_refl eq_refl eq_refl
    ltac:(lra) ltac:(lra) ltac:(lra) ltac:(lra) ltac:(lra) ltac:(lra) ltac:(lra)) as (v & v' & G & G' & L).
  exists w, out, v, v'. auto.
Qed.

(** C108.  Up to 400 K and from a millionth of a percent of humidity on, the dew point increases strictly with the
    temperature and with the humidity. *)
Theorem C108_dewtemp_ordered :
  forall (t rh t' rh' out out' : inp fl),
  compat t rh -> compat t' rh' -> dewtemp t rh = Ok out -> dewtemp t' rh' = Ok out' ->
  forall i i' tk h tk' h', inb (shp (as_arr t)) i -> inb (shp (as_arr t')) i' ->
    get (as_arr t) i = Fin tk -> get (as_arr rh) i = Fin h -> get (as_arr t') i' = Fin tk' -> get (as_arr rh') i' = Fin h' ->
    0 < tk -> tk <= tk' -> tk' <= 400 -> 0.000001 <= h -> h <= h' -> h' <= 100 -> tk < tk' \/ h < h' ->
    exists d d', get (as_arr out) i = Fin d /\ get (as_arr out') i' = Fin d' /\ d < d'.
Proof. exact c108_lemma. Qed.
Print Assumptions C108_dewtemp_ordered.

Example C108_example : exists d d', dewtemp (IFloat (Fin 280)) (IFloat (Fin 50)) = Ok d /\ dewtemp (IFloat (Fin 300)) (IFloat (Fin 50)) = Ok d' /\
  exists x x', get (as_arr d) [] = Fin x /\ get (as_arr d') [] = Fin x' /\ x < x'.
Proof.
  destruct (dewtemp_ok (IFloat (Fin 280)) (IFloat (Fin 50)) eq_refl) as (d & E & _). destruct (dewtemp_ok (IFloat (Fin 300)) (IFloat (Fin 50)) eq_refl) as (d' & E' & _).
  exists d, d'. split; auto. split; auto.
  apply (C108_dewtemp_ordered (IFloat (Fin 280)) (IFloat (Fin 50)) (IFloat (Fin 300)) (IFloat (Fin 50)) d d' eq_refl eq_refl E E' [] [] 280 50 300 50); try constructor; try reflexivity; lra.
Qed.
