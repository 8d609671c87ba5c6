(** Heat index, relative humidity, daylight and vapour pressure formulas at one point. *)
From Coq Require Import Reals List Bool Arith ZArith Lra Lia String.
From Verif Require Import PyBase PyFacts Num NumFacts Arr Spec SpecMeteo Meteo ListFacts ExtrapFacts MeteoFacts RelhumFacts.
Import ListNotations.
Local Open Scope R_scope.

(** ** heat index *)
Lemma base_cell alt t h :
  nwhere (nge (nwhere (nlt (Fin t) (ofZ 40)) (Fin t) (ndiv (nadd (nadd (nadd (ofZ 61) (nmul (nsub (Fin t) (ofZ 68)) (dec 12 1))) (nmul (Fin h) (dec 94 3))) (Fin t)) (ofZ 2))) (hi_crit alt))
    (nws_eqn (hi_coeffs alt) (Fin t) (Fin h))
    (nwhere (nlt (Fin t) (ofZ 40)) (Fin t) (ndiv (nadd (nadd (nadd (ofZ 61) (nmul (nsub (Fin t) (ofZ 68)) (dec 12 1))) (nmul (Fin h) (dec 94 3))) (Fin t)) (ofZ 2)))
  = Fin (base_index alt t h).
Proof.
  rewrite nws_fin. assert (E : nwhere (nlt (Fin t) (ofZ 40)) (Fin t) (ndiv (nadd (nadd (nadd (ofZ 61) (nmul (nsub (Fin t) (ofZ 68)) (dec 12 1))) (nmul (Fin h) (dec 94 3))) (Fin t)) (ofZ 2)) = Fin (simple_index t h)).
  { flsimpl. declit. rewrite fdiv_fin by lra. unfold nwhere, simple_index. rewrite rlt_if. destruct (Rlt_dec t 40); auto. apply f_equal. lra. }
  rewrite E. unfold nwhere, nge, base_index, critical, hi_crit. flsimpl.
  destruct alt; flsimpl; rewrite rle_if; match goal with |- context [Rle_dec ?a ?b] => destruct (Rle_dec a b) end; reflexivity.
Qed.
Lemma hi_cell_fin alt t h : exists v, hi_cell alt (Fin t) (Fin h) = Fin v /\ index_value alt t h v.
Proof.
  unfold hi_cell. cbv zeta. rewrite base_cell. unfold nwhere, nge, ngt. 
  assert (D : ndiv (nabs (nsub (ofZ 17) (nabs (nsub (Fin t) (ofZ 95))))) (ofZ 17) = Fin (Rabs (17 - Rabs (t - 95)) / 17)).
  { flsimpl. rewrite fdiv_fin by lra. reflexivity. }
  rewrite D. cbn [nsqrt NumFl]. rewrite fsqrt_fin by (apply Rmult_le_pos; [apply Rabs_pos|lra]).
  flsimpl. declit. rewrite !fdiv_fin by lra. cbn [fl_mul fl_sub fl_add].
  unfold index_value, dry_window, humid_window.
  destruct (rleb_spec h 13); cbn [andb].
  - rewrite (rltb_false 85 h) by lra. cbn [andb].
    destruct (rleb_spec 80 t); cbn [andb]; [destruct (rleb_spec t 112)|].
    + eexists. split; [reflexivity|]. left. split; [lra|]. unfold dry_adjustment. reflexivity.
    + eexists. split; [reflexivity|]. right. right. split; [lra|]. split; [lra|auto].
    + eexists. split; [reflexivity|]. right. right. split; [lra|]. split; [lra|auto].
  - destruct (rltb_spec 85 h); cbn [andb]; [destruct (rleb_spec 80 t); cbn [andb]; [destruct (rleb_spec t 87)|]|].
    + eexists. split; [reflexivity|]. right. left. split; [lra|]. unfold humid_adjustment. lra.
    + eexists. split; [reflexivity|]. right. right. split; [lra|]. split; [lra|auto].
    + eexists. split; [reflexivity|]. right. right. split; [lra|]. split; [lra|auto].
    + eexists. split; [reflexivity|]. right. right. split; [lra|]. split; [lra|auto].
Qed.
Lemma index_value_unique alt t h v w : index_value alt t h v -> index_value alt t h w -> v = w.
Proof.
  unfold index_value. intros [[A ->]|[[A ->]|(A & A' & ->)]] [[B ->]|[[B ->]|(B & B' & ->)]]; auto; try tauto;
  unfold dry_window, humid_window in *; lra.
Qed.
(** where the simple average is returned the published procedure makes no adjustment *)
Lemma adjustment_nonzero t h : dry_window t h -> h < 13 -> t <> 112 -> 0 <= h -> 0 < dry_adjustment t h.
Proof.
  intros [H H'] Hh Ht H0. unfold dry_adjustment. apply Rmult_lt_0_compat; [lra|]. apply sqrt_lt_R0.
  apply Rmult_lt_0_compat; [|lra]. apply Rabs_pos_lt. unfold Rabs at 1. destruct (Rcase_abs (t - 95)); lra.
Qed.

(** ** relhum *)
Lemma rh_clip_fin x : rh_clip (Fin x) = Fin (Rmax (100 * x) 0.0001).
Proof. unfold rh_clip, nclip_lo. flsimpl. declit. rewrite nmax_fin. apply f_equal. f_equal; lra. Qed.
Lemma relhum_chain w p t : rh_clip (ndiv (nmul (Fin w) (nsub (Fin p) (nmul (dec 378 3) (Fin (Esat t))))) (nmul (dec 622 3) (Fin (Esat t))))
  = Fin (Rmax (100 * (w * (p - 0.378 * Esat t) / (0.622 * Esat t))) 0.0001).
Proof.
  pose proof (Esat_pos t) as P. flsimpl. declit. rewrite fdiv_fin by (apply Rgt_not_eq; lra). rewrite rh_clip_fin.
  replace (378 / 1000) with 0.378 by lra. replace (622 / 1000) with 0.622 by lra. reflexivity.
Qed.
Lemma relhum_formula_mono w w' p p' e e' : 0 <= w <= w' -> p <= p' -> 0 <= p' -> 0 < e' <= e ->
  Rmax (100 * (w * (p - 0.378 * e) / (0.622 * e))) 0.0001 <= Rmax (100 * (w' * (p' - 0.378 * e') / (0.622 * e'))) 0.0001.
Proof.
  intros Hw Hp Hp' He. apply Rmax_lub; [|apply Rmax_r].
  destruct (Rle_dec (p - 0.378 * e) 0) as [Hn|Hn].
  - eapply Rle_trans; [|apply Rmax_r]. assert (w * (p - 0.378 * e) / (0.622 * e) <= 0); [|lra].
    assert (0 < / (0.622 * e)) by (apply Rinv_0_lt_compat; lra). unfold Rdiv. assert (w * (p - 0.378 * e) <= 0) by nra. nra.
  - apply Rle_trans with (2 := Rmax_l _ _). apply Rmult_le_compat_l; [lra|].
    assert (E : forall w p e, 0 < e -> w * (p - 0.378 * e) / (0.622 * e) = w * (p * / e - 0.378) / 0.622) by (intros; field; lra).
    rewrite !E by lra. apply Rmult_le_compat_r; [lra|].
    assert (/ e <= / e') by (apply Rinv_le_contravar; lra).
    assert (0 < / e) by (apply Rinv_0_lt_compat; lra).
    assert (p * / e <= p' * / e') by nra.
    assert (0 < p * / e - 0.378). { replace (p * / e - 0.378) with ((p - 0.378 * e) * / e) by (field; lra). apply Rmult_lt_0_compat; lra. }
    apply Rmult_le_compat; lra.
Qed.

(** ** relhum_ice, relhum_water *)
Lemma est_ice_fin t : t <> -0.56 -> est_ice (Fin t) = Fin (magnus_ice t).
Proof.
  intros H. unfold est_ice, magnus_ice. flsimpl. declit. rewrite fdiv_fin by lra. cbn [fl_exp fl_mul].
  replace (61128 / 10000) with 6.1128 by lra. replace (22571 / 1000) with 22.571 by lra. replace (27315 / 100) with 273.15 by lra.
  replace (27371 / 100) with 273.71 by lra. reflexivity.
Qed.
Lemma est_water_fin t : t <> 35.86 -> est_water (Fin t) = Fin (magnus_water t).
Proof.
  intros H. unfold est_water, magnus_water. flsimpl. declit. rewrite fdiv_fin by lra. cbn [fl_exp fl_mul].
  replace (61128 / 10000) with 6.1128 by lra. replace (17269 / 1000) with 17.269 by lra. replace (27315 / 100) with 273.15 by lra.
  replace (3586 / 100) with 35.86 by lra. reflexivity.
Qed.
Lemma qst_fin e p : 0.01 * p <> 0.378 * e -> qst (Fin e) (Fin p) = Fin (q_sat e p).
Proof.
  intros H. unfold qst, q_sat. flsimpl. declit. rewrite fdiv_fin by lra. apply f_equal.
  replace (622 / 1000) with 0.622 by lra. replace (p * (1 / 100) - 378 / 1000 * e) with (0.01 * p - 0.378 * e) by lra. reflexivity.
Qed.
Lemma rh_cell_fin est t w p e : est (Fin t) = Fin e -> 0 < e -> 0.378 * e < 0.01 * p ->
  rh_cell est (Fin t) (Fin w) (Fin p) = Fin (100 * (w / q_sat e p)).
Proof.
  intros He Pe Hp. unfold rh_cell. rewrite He, qst_fin by lra. flsimpl. rewrite fdiv_fin; auto.
  unfold q_sat. apply Rgt_not_eq. apply Rmult_lt_0_compat; [lra|]. apply Rinv_0_lt_compat. lra.
Qed.
Lemma magnus_ice_pos t : 0 < magnus_ice t.
Proof. unfold magnus_ice. apply Rmult_lt_0_compat; [lra|apply exp_pos]. Qed.
Lemma magnus_water_pos t : 0 < magnus_water t.
Proof. unfold magnus_water. apply Rmult_lt_0_compat; [lra|apply exp_pos]. Qed.
Lemma magnus_freezing : magnus_ice 273.15 = 6.1128 /\ magnus_water 273.15 = 6.1128.
Proof.
  unfold magnus_ice, magnus_water. replace (273.15 - 273.15) with 0 by lra. rewrite !Rmult_0_r.
  unfold Rdiv. rewrite !Rmult_0_l, exp_0. lra.
Qed.
Lemma q_sat_pos e p : 0 < e -> 0.378 * e < 0.01 * p -> 0 < q_sat e p.
Proof. intros. unfold q_sat. apply Rmult_lt_0_compat; [lra|apply Rinv_0_lt_compat; lra]. Qed.
Lemma rh_pressure e w p p' : 0 < e -> 0 < w -> 0.378 * e < 0.01 * p -> p < p' -> 100 * (w / q_sat e p) < 100 * (w / q_sat e p').
Proof.
  intros He Hw Hp Hpp. apply Rmult_lt_compat_l; [lra|].
  assert (E : forall p, 0.378 * e < 0.01 * p -> w / q_sat e p = w * (0.01 * p - 0.378 * e) / (0.622 * e)).
  { intros q Hq. unfold q_sat. field. split; lra. }
  rewrite !E by lra. apply Rmult_lt_compat_r; [apply Rinv_0_lt_compat; lra|]. apply Rmult_lt_compat_l; lra.
Qed.

(** ** daylight *)
Lemma PI_307 : 3.07 < PI.
Proof.
  assert (C : 0 < cos 1.535).
  { destruct (pre_cos_bound 1.535 1 ltac:(lra) ltac:(lra)) as [C _]. eapply Rlt_le_trans; [|exact C].
    unfold cos_approx, cos_term. cbn [sum_f_R0 Nat.mul Nat.add]. rewrite !INR_IZR_INZ. cbn [fact Nat.mul Nat.add Z.of_nat Pos.of_succ_nat Pos.succ pow]. lra. }
  destruct (Rlt_dec 3.07 PI); auto. exfalso. assert (cos 1.535 <= 0); [|lra]. pose proof PI2_3_2. apply cos_le_0; lra.
Qed.
Lemma decl_bound j : Rabs (declination j) <= 0.409.
Proof.
  unfold declination. pose proof (SIN_bound (2 * PI / 365 * j - 1.39)). unfold Rabs. destruct (Rcase_abs _); lra.
Qed.
Lemma tan_abs x : Rabs x < PI / 2 -> Rabs (tan x) = tan (Rabs x).
Proof.
  intros H. unfold Rabs at 2. destruct (Rcase_abs x) as [Hx|Hx].
  - rewrite tan_neg. rewrite <- (Ropp_involutive (tan x)) at 1. rewrite Rabs_Ropp, Rabs_right; auto.
    rewrite <- tan_neg. unfold Rabs in H. destruct (Rcase_abs x); [|lra]. apply Rle_ge. left. apply tan_gt_0; lra.
  - rewrite Rabs_right; auto. unfold Rabs in H. destruct (Rcase_abs x); [lra|]. destruct Hx as [Hx|Hx]; [apply Rle_ge; left; apply tan_gt_0; lra|].
    subst. rewrite tan_0. lra.
Qed.
Lemma tan_prod a b : Rabs a + Rabs b < PI / 2 -> Rabs (tan a * tan b) < 1.
Proof.
  intros H. pose proof (Rabs_pos a). pose proof (Rabs_pos b). rewrite Rabs_mult, !tan_abs by lra.
  set (x := Rabs a) in *. set (y := Rabs b) in *. destruct (Req_dec x 0) as [E|E]; [rewrite E, tan_0; lra|].
  destruct (Req_dec y 0) as [E'|E']; [rewrite E', tan_0; lra|].
  assert (Cx : 0 < cos x) by (apply cos_gt_0; lra). assert (Cy : 0 < cos y) by (apply cos_gt_0; lra).
  assert (C : 0 < cos (x + y)) by (apply cos_gt_0; lra). rewrite cos_plus in C. unfold tan.
  apply Rmult_lt_reg_r with (cos x * cos y); [apply Rmult_lt_0_compat; auto|].
  replace (sin x / cos x * (sin y / cos y) * (cos x * cos y)) with (sin x * sin y) by (field; lra). lra.
Qed.
Lemma cos_nonzero x : Rabs x < PI / 2 -> cos x <> 0.
Proof. intros H. unfold Rabs in H. apply Rgt_not_eq. apply cos_gt_0; destruct (Rcase_abs x); lra. Qed.
Lemma lat_bound lat : -66 <= lat <= 66 -> Rabs (lat * (PI / 180)) + 0.409 < PI / 2.
Proof. intros H. pose proof PI_307. rewrite Rabs_mult, (Rabs_right (PI / 180)) by lra. assert (Rabs lat <= 66) by (unfold Rabs; destruct (Rcase_abs lat); lra). nra. Qed.
(** the sunset hour angle *)
Lemma daylight_cell_fin j lat : -66 <= lat <= 66 ->
  exists w, 0 < w < PI /\ cos w = - (tan (lat * (PI / 180)) * tan (declination j)) /\ daylight_cell (Fin j) (Fin lat) = Fin (24 / PI * w).
Proof.
  intros Hl. pose proof (lat_bound lat Hl) as B. pose proof (decl_bound j) as D. pose proof PI_RGT_0 as P.
  pose proof (tan_prod (lat * (PI / 180)) (declination j) ltac:(lra)) as T. apply Rabs_def2 in T.
  set (x := tan (lat * (PI / 180)) * tan (declination j)) in *.
  exists (acos (- x)). split; [apply acos_bound_lt; lra|]. split; [apply cos_acos; lra|].
  unfold daylight_cell. cbv zeta. flsimpl. declit. rewrite !fdiv_fin by lra. cbn [fl_mul fl_sub fl_fin1 fl_neg].
  replace (409 / 1000 * sin (2 * PI / 365 * j - 139 / 100)) with (declination j).
  2: { unfold declination. replace (139 / 100) with 1.39 by lra. lra. }
  rewrite !ftan_fin.
  2: { apply cos_nonzero. pose proof (Rabs_pos (lat * (PI / 180))). lra. }
  2: { apply cos_nonzero. lra. }
  cbn [fl_neg fl_mul]. replace (- tan (lat * (PI / 180)) * tan (declination j)) with (- x) by (unfold x; ring).
  rewrite facos_fin by lra. reflexivity.
Qed.
Lemma hour_angle_unique w w' : 0 < w < PI -> 0 < w' < PI -> cos w = cos w' -> w = w'.
Proof. intros A B C. rewrite <- (acos_cos w), <- (acos_cos w') by lra. congruence. Qed.

(** ** vapour pressure *)
Lemma svp_cell_above tfill f : 32 < f -> svp_cell tfill (Fin f) = Fin (tetens (celsius f)).
Proof.
  intros H. unfold svp_cell. cbv zeta. flsimpl. declit. rewrite (fdiv_fin _ 9) by lra.
  change ((f - 32) * 5 / 9) with (celsius f). assert (P : 0 < celsius f) by (unfold celsius; lra).
  unfold nwhere, ngt. flsimpl. rewrite rltb_true by lra. rewrite fdiv_fin by lra. cbn [fl_exp fl_mul]. apply f_equal.
  unfold tetens. replace (6108 / 10000) with 0.6108 by lra. replace (1727 / 100) with 17.27 by lra. replace (2373 / 10) with 237.3 by lra. reflexivity.
Qed.
Lemma svp_cell_below tfill x : match x with Fin f => f <= 32 | PInf => False | _ => True end -> svp_cell tfill x = tfill.
Proof.
  intros H. unfold svp_cell. cbv zeta. destruct x; cbn in H; [|tauto| |reflexivity].
  - flsimpl. rewrite (fdiv_fin _ 9) by lra. unfold nwhere, ngt. flsimpl. rewrite rltb_false by lra. reflexivity.
  - flsimpl. assert (E : fl_infsgn false 5 = NInf).
    { unfold fl_infsgn. destruct (Req_EM_T 5 0); [lra|]. destruct (Rlt_dec 0 5); [reflexivity|lra]. }
    rewrite E. cbn [fl_div]. destruct (Rlt_dec 9 0); [lra|]. reflexivity.
Qed.
Lemma tetens_increasing c c' : 0 <= c < c' -> tetens c < tetens c'.
Proof.
  intros H. unfold tetens. apply Rmult_lt_compat_l; [lra|]. apply exp_increasing.
  assert (E : forall x, 0 <= x -> 17.27 * x / (x + 237.3) = 17.27 - 17.27 * 237.3 * / (x + 237.3)) by (intros; field; lra).
  rewrite !E by lra. assert (/ (c' + 237.3) < / (c + 237.3)) by (apply Rinv_lt_contravar; [apply Rmult_lt_0_compat|]; lra). nra.
Qed.
Lemma tetens_0 : tetens 0 = 0.6108.
Proof. unfold tetens. rewrite Rmult_0_r. unfold Rdiv. rewrite Rmult_0_l, exp_0. lra. Qed.
Lemma tetens_derivative c : 0 < c -> derivable_pt_lim tetens c (17.27 * 237.3 * tetens c / (c + 237.3) ^ 2).
Proof.
  intros H. replace (17.27 * 237.3 * tetens c / (c + 237.3) ^ 2) with
    (0.6108 * (exp (17.27 * c / (c + 237.3)) * ((17.27 * 1 * (c + 237.3) - (1 + 0) * (17.27 * c)) / (c + 237.3)²))).
  - unfold tetens. apply (derivable_pt_lim_scal (fun c => exp (17.27 * c / (c + 237.3))) 0.6108).
    apply (derivable_pt_lim_comp (fun c => 17.27 * c / (c + 237.3)) exp); [|apply derivable_pt_lim_exp].
    apply (derivable_pt_lim_div (fun c => 17.27 * c) (fun c => c + 237.3)); [| |lra].
    + apply (derivable_pt_lim_scal (fun c => c)). apply derivable_pt_lim_id.
    + apply (derivable_pt_lim_plus (fun c => c) (fun _ => 237.3)); [apply derivable_pt_lim_id|apply derivable_pt_lim_const].
  - unfold tetens, Rsqr. field. lra.
Qed.
Lemma slope_cell_above tfill f : 32 < f -> let c := celsius f in
  slope_cell tfill (Fin f) = Fin (4096 * tetens c / (c + 237.3) ^ 2).
Proof.
  intros H c. unfold slope_cell. cbv zeta. flsimpl. declit. rewrite (fdiv_fin _ 9) by lra.
  change ((f - 32) * 5 / 9) with (celsius f). assert (P : 0 < celsius f) by (unfold celsius; lra). fold c. fold c in P.
  unfold nwhere, ngt, sqr. flsimpl. rewrite rltb_true by lra. rewrite (fdiv_fin (1727 / 100 * c)) by lra. cbn [fl_exp fl_mul].
  rewrite fdiv_fin by (apply Rgt_not_eq; apply Rmult_lt_0_compat; lra). cbn [fl_mul]. apply f_equal.
  unfold tetens. replace (6108 / 10000) with 0.6108 by lra. replace (1727 / 100) with 17.27 by lra. replace (2373 / 10) with 237.3 by lra. field. lra.
Qed.
Lemma slope_cell_below tfill x : match x with Fin f => f <= 32 | PInf => False | _ => True end -> slope_cell tfill x = tfill.
Proof.
  intros H. unfold slope_cell. cbv zeta. destruct x; cbn in H; [|tauto| |reflexivity].
  - flsimpl. rewrite (fdiv_fin _ 9) by lra. unfold nwhere, ngt. flsimpl. rewrite rltb_false by lra. reflexivity.
  - flsimpl. assert (E : fl_infsgn false 5 = NInf).
    { unfold fl_infsgn. destruct (Req_EM_T 5 0); [lra|]. destruct (Rlt_dec 0 5); [reflexivity|lra]. }
    rewrite E. cbn [fl_div]. destruct (Rlt_dec 9 0); [lra|]. reflexivity.
Qed.
