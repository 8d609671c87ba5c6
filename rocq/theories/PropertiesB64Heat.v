(** C148: heat_index in double precision. *)
From Coq Require Import Reals List Bool Arith ZArith Lra Lia String.
From Flocq Require Import Core BinarySingleNaN.
From Verif Require Import PyBase PyFacts Num NumFacts NumB64 Arr ArrFacts Spec SpecMeteo SpecB64 B64Facts Hybrid Meteo CellFacts B64Relhum B64Met B64Heat.
Import ListNotations.
Local Open Scope R_scope.

(** C148.  For temperatures of -200 to 200 F and humidities of 0 to 100 %, both sets of coefficients: the heat index computed in double
    precision is within 10^-9 F of the exact one of C28, except where the average of Steadman's formula and the temperature is within
    10^-12 of the threshold (79 or 70) at which the regression replaces it *)
Theorem C148_value :
  forall (M : libm) (t rh : inp b64) alt w out, @compat b64 (NumB M) rh t -> @heat_index b64 (NumB M) t rh alt = Ok (w, out) ->
  forall i T H, inb (shp (as_arr t)) i -> is (get (as_arr t) i) T -> is (get (as_arr rh) i) H -> -200 <= T <= 200 -> 0 <= H <= 100 ->
    1 / 1000000000000 < Rabs (simple_index T H - critical alt) ->
    exists v x, is (get (as_arr out) i) v /\ index_value alt T H x /\ Rabs (v - x) <= 1 / 1000000000.
Proof. exact c148_value. Qed.
Print Assumptions C148_value.

(** C148.  Any temperature below 40 F is returned unchanged, to the last bit, whatever the humidity at that point (even if missing) *)
Theorem C148_cold :
  forall (M : libm) (t rh : inp b64) alt w out, @compat b64 (NumB M) rh t -> @heat_index b64 (NumB M) t rh alt = Ok (w, out) ->
  forall i T, inb (shp (as_arr t)) i -> is (get (as_arr t) i) T -> T < 40 -> get (as_arr out) i = get (as_arr t) i.
Proof. exact c148_cold. Qed.
Print Assumptions C148_cold.

(** C148.  At the threshold the exception is needed: at 76.9090909... F and 100 % the exact average is below 79 and is the heat index,
    the rounded one is 79, and the regression returned instead is more than 1.6 F lower *)
Theorem C148_threshold_refuted :
  forall M : libm, exists w out v x, @heat_index b64 (NumB M) (IFloat t_near) (IFloat (b64_ofZ 100)) false = Ok (w, IFloat out) /\
  is t_near T_near /\ is (b64_ofZ 100) 100 /\ is out v /\ index_value false T_near 100 x /\ v < x - 1.6.
Proof. exact c148_threshold. Qed.
Print Assumptions C148_threshold_refuted.

(** calls meeting the hypotheses: 30, 60, 85 and 85 F at 90, 50, 10 and 90 % (cold, average, dry and humid adjustment) *)
Definition exh_t : inp b64 := INd (mkArr [4%nat] (fun i => b64_ofZ (nth (hd 0%nat i) [30; 60; 85; 85] 0)%Z)).
Definition exh_h : inp b64 := INd (mkArr [4%nat] (fun i => b64_ofZ (nth (hd 0%nat i) [90; 50; 10; 90] 0)%Z)).
Ltac lit := apply ofZ_exact; apply Z.leb_le; reflexivity.
Example C148_example :
  forall M : libm, (exists out, @heat_index b64 (NumB M) exh_t exh_h false = Ok (false, out)) /\ @compat b64 (NumB M) exh_h exh_t /\
  inb (shp (as_arr exh_t)) [3%nat] /\ is (get (as_arr exh_t) [0%nat]) 30 /\ is (get (as_arr exh_t) [3%nat]) 85 /\ is (get (as_arr exh_h) [3%nat]) 90 /\
  1 / 1000000000000 < Rabs (simple_index 60 50 - critical false) /\ 1 / 1000000000000 < Rabs (simple_index 85 10 - critical false) /\
  1 / 1000000000000 < Rabs (simple_index 85 90 - critical false) /\ humid_window 85 90 /\ dry_window 85 10.
Proof.
  intros M. split; [eexists; reflexivity|]. split; [reflexivity|]. split; [repeat constructor|]. split; [lit|]. split; [lit|]. split; [lit|].
  unfold simple_index, critical, humid_window, dry_window. repeat match goal with |- context [Rlt_dec ?a ?b] => destruct (Rlt_dec a b); try lra end.
  split; [rewrite Rabs_left; lra|]. split; [rewrite Rabs_pos_eq; lra|]. split; [rewrite Rabs_pos_eq; lra|]. lra.
Qed.
