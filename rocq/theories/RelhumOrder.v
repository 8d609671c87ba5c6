(** relhum_ice and relhum_water compared with each other, with temperature, and with zero (C113). *)
From Coq Require Import Reals List Bool Arith ZArith Lra Lia String.
From Verif Require Import PyBase Num NumFacts Arr ArrFacts CellFacts Hybrid Meteo SpecMeteo MeteoFacts MeteoCells MeteoApi MeteoApi2.
Import ListNotations.
Local Open Scope R_scope.

Lemma frac_lt a b c d : 0 < b -> 0 < d -> a * d < c * b -> a / b < c / d.
Proof.
  intros Hb Hd H. apply Rmult_lt_reg_r with (b * d); [apply Rmult_lt_0_compat; auto|].
  replace (a / b * (b * d)) with (a * d) by (field; lra). replace (c / d * (b * d)) with (c * b) by (field; lra). auto.
Qed.
Lemma magnus_below x : 154.49 <= x < 273.15 -> magnus_ice x < magnus_water x.
Proof.
  intros H. unfold magnus_ice, magnus_water. apply Rmult_lt_compat_l; [lra|]. apply exp_increasing.
  replace (x - 273.15 + 273.71) with (x + 0.56) by lra. apply frac_lt; [lra|lra|].
  assert (0 < (273.15 - x) * (5.302 * (x - 273.15) + 629.1746)) by (apply Rmult_lt_0_compat; lra). nra.
Qed.
Lemma magnus_above x : 273.15 < x \/ 35.86 < x <= 154.48 -> magnus_water x < magnus_ice x.
Proof.
  intros H. unfold magnus_ice, magnus_water. apply Rmult_lt_compat_l; [lra|]. apply exp_increasing.
  replace (x - 273.15 + 273.71) with (x + 0.56) by lra. apply frac_lt; [lra|lra|].
  assert (0 < (273.15 - x) * - (5.302 * (x - 273.15) + 629.1746)); [|nra].
  destruct H as [H|H]; [|apply Rmult_lt_0_compat; lra].
  replace ((273.15 - x) * - (5.302 * (x - 273.15) + 629.1746)) with ((x - 273.15) * (5.302 * (x - 273.15) + 629.1746)) by ring. apply Rmult_lt_0_compat; lra.
Qed.
Lemma magnus_increasing ice x y : pole ice < x -> x < y -> magnus ice x < magnus ice y.
Proof.
  intros H Hxy. destruct ice; cbn [magnus pole] in *; unfold magnus_ice, magnus_water; (apply Rmult_lt_compat_l; [lra|]); apply exp_increasing.
  - replace (x - 273.15 + 273.71) with (x + 0.56) by lra. replace (y - 273.15 + 273.71) with (y + 0.56) by lra. apply frac_lt; lra || nra.
  - apply frac_lt; lra || nra.
Qed.
(** relative humidity falls with the saturation vapour pressure *)
Lemma rh_vapour e e' w p : 0 < e -> e < e' -> 0 < w -> 0.378 * e' < 0.01 * p -> 100 * (w / q_sat e' p) < 100 * (w / q_sat e p).
Proof.
  intros He Hee Hw Hp. apply Rmult_lt_compat_l; [lra|].
  assert (E : forall e, 0 < e -> 0.378 * e < 0.01 * p -> w / q_sat e p = w / 0.622 * (0.01 * p / e - 0.378)).
  { intros q Hq Hq'. unfold q_sat. field. split; lra. }
  rewrite !E by lra. apply Rmult_lt_compat_l; [lra|]. apply Rplus_lt_compat_r. apply frac_lt; nra.
Qed.

Lemma c113_ice_water (t w p out out' : inp fl) : iw_args t w p -> relhum_ice t w p = Ok out -> relhum_water t w p = Ok out' ->
  forall i x a b, inb (shp (as_arr t)) i -> get (as_arr t) i = Fin x -> get (as_arr w) i = Fin a -> get (as_arr p) i = Fin b ->
    35.86 < x -> 0 < a -> 0.378 * magnus_ice x < 0.01 * b -> 0.378 * magnus_water x < 0.01 * b ->
    exists vi vw, get (as_arr out) i = Fin vi /\ get (as_arr out') i = Fin vw /\
      (154.49 <= x < 273.15 -> vw < vi) /\ (273.15 < x -> vi < vw) /\ (x <= 154.48 -> vi < vw).
Proof.
  intros H E E' i x a b Hi Ex Ea Eb Hx Ha Hb1 Hb2.
  destruct (c32_lemma true t w p H) as (o & Eo & _ & _ & G). unfold relhum_ice in E. rewrite Eo in E. injection E as ->.
  destruct (c32_lemma false t w p H) as (o' & Eo' & _ & _ & G'). unfold relhum_water in E'. rewrite Eo' in E'. injection E' as ->.
  do 2 eexists. split; [eapply G; eauto; cbn [pole magnus]; lra|]. split; [eapply G'; eauto|]. cbn [magnus].
  split; [|split]; intros K.
  - apply rh_vapour; auto; [apply magnus_ice_pos|apply magnus_below; auto].
  - apply rh_vapour; auto; [apply magnus_water_pos|apply magnus_above; auto].
  - apply rh_vapour; auto; [apply magnus_water_pos|apply magnus_above; auto].
Qed.

Lemma c113_temperature ice (t w p t' w' p' out out' : inp fl) : iw_args t w p -> iw_args t' w' p' -> relhum_iw ice t w p = Ok out -> relhum_iw ice t' w' p' = Ok out' ->
  forall i j x y a b, inb (shp (as_arr t)) i -> inb (shp (as_arr t')) j -> get (as_arr t) i = Fin x -> get (as_arr t') j = Fin y ->
    get (as_arr w) i = Fin a -> get (as_arr w') j = Fin a -> get (as_arr p) i = Fin b -> get (as_arr p') j = Fin b ->
    pole ice < x -> x < y -> 0 < a -> 0.378 * magnus ice y < 0.01 * b ->
    exists v v', get (as_arr out) i = Fin v /\ get (as_arr out') j = Fin v' /\ v' < v.
Proof.
  intros H H' E E' i j x y a b Hi Hj Ex Ey Ea Ea' Eb Eb' Hx Hxy Ha Hb.
  destruct (c32_lemma ice t w p H) as (o & Eo & _ & _ & G). rewrite Eo in E. injection E as ->.
  destruct (c32_lemma ice t' w' p' H') as (o' & Eo' & _ & _ & G'). rewrite Eo' in E'. injection E' as ->.
  pose proof (magnus_increasing ice x y Hx Hxy) as M. pose proof (magnus_pos ice x) as P.
  do 2 eexists. split; [eapply G; eauto; lra|]. split; [eapply G'; eauto; lra|]. apply rh_vapour; auto.
Qed.

Lemma c113_negative ice (t w p : inp fl) : iw_args t w p -> exists out, relhum_iw ice t w p = Ok out /\
  forall i x a b, inb (shp (as_arr t)) i -> get (as_arr t) i = Fin x -> get (as_arr w) i = Fin a -> get (as_arr p) i = Fin b ->
    pole ice < x -> 0 < a -> 0.01 * b < 0.378 * magnus ice x -> exists v, get (as_arr out) i = Fin v /\ v < 0.
Proof.
  intros H. destruct (relhum_iw_ok ice t w p H) as (out & E & S & K & G). exists out. split; auto.
  intros i x a b Hi Ex Ea Eb Hx Ha Hb. rewrite (G i Hi), Ex, Ea, Eb. pose proof (magnus_pos ice x) as P.
  assert (He : (if ice then est_ice else est_water) (Fin x) = Fin (magnus ice x)) by (destruct ice; [apply est_ice_fin|apply est_water_fin]; cbn in Hx; lra).
  unfold rh_cell. rewrite He, qst_fin by lra. flsimpl.
  assert (Q : q_sat (magnus ice x) b < 0).
  { unfold q_sat, Rdiv. replace (0.622 * magnus ice x * / (0.01 * b - 0.378 * magnus ice x)) with (- (0.622 * magnus ice x * / (0.378 * magnus ice x - 0.01 * b))) by (field; lra).
    apply Ropp_lt_gt_0_contravar. apply Rmult_lt_0_compat; [lra|apply Rinv_0_lt_compat; lra]. }
  rewrite fdiv_fin by lra. eexists. split; [reflexivity|].
  replace (100 * (a / q_sat (magnus ice x) b)) with (- (100 * (a / - q_sat (magnus ice x) b))) by (field; lra).
  apply Ropp_lt_gt_0_contravar. apply Rmult_lt_0_compat; [lra|]. apply Rdiv_lt_0_compat; lra.
Qed.
(** the stratopause: 270 K at 100 Pa *)
Lemma stratopause ice : 0.01 * 100 < 0.378 * magnus ice 270.
Proof.
  assert (E : forall y, -0.3 <= y -> 0.01 * 100 < 0.378 * (6.1128 * exp y)).
  { intros y Hy. pose proof (exp_ineq1_le y). lra. }
  destruct ice; cbn [magnus]; unfold magnus_ice, magnus_water; apply E.
  - replace (22.571 * (270 - 273.15) / (270 - 273.15 + 273.71)) with (- (22.571 * 3.15 / 270.56)) by lra. lra.
  - replace (17.269 * (270 - 273.15) / (270 - 35.86)) with (- (17.269 * 3.15 / 234.14)) by lra. lra.
Qed.
Lemma magnus_upto_300 ice x : pole ice < x <= 300 -> 0.378 * magnus ice x < 0.01 * 50000.
Proof.
  intros [H H']. assert (M : magnus ice x <= magnus ice 300) by (destruct H' as [K| ->]; [left; apply magnus_increasing; auto|right; auto]).
  assert (E : forall y, y < 3 -> 0.378 * (6.1128 * exp y) < 0.01 * 50000).
  { intros y Hy. apply exp_increasing in Hy. replace 3 with (1 + (1 + 1)) in Hy by lra. rewrite !exp_plus in Hy. pose proof exp_le_3. pose proof (exp_pos 1).
    assert (exp 1 * (exp 1 * exp 1) <= 3 * (3 * 3)) by (repeat (apply Rmult_le_compat; try nra)). lra. }
  apply Rle_lt_trans with (0.378 * magnus ice 300); [lra|]. destruct ice; cbn [magnus]; unfold magnus_ice, magnus_water; apply E; lra.
Qed.
