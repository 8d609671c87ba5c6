(** The below-ground formulas against the ECMWF specification. *)
From Coq Require Import Reals List Bool Arith ZArith Lra Lia String.
From Verif Require Import PyBase Num NumFacts Arr Spec InterpHyb.
Import ListNotations.
Local Open Scope R_scope.

Ltac declit := repeat match goal with
  | |- context [(10 ^ Z.of_nat ?k)%Z] => let v := eval compute in (10 ^ Z.of_nat k)%Z in
                                         change (10 ^ Z.of_nat k)%Z with v
  end.

Lemma Rd_fin : R_d = Fin Rdry.
Proof. unfold R_d, Rdry. flsimpl. declit. apply f_equal. lra. Qed.
Lemma ginv_fin : g_inv = Fin (/ grav).
Proof.
  unfold g_inv, grav. flsimpl. declit. rewrite fdiv_fin by lra. apply f_equal. lra.
Qed.
Lemma grav_pos : 0 < grav. Proof. unfold grav. lra. Qed.
Lemma Rdry_pos : 0 < Rdry. Proof. unfold Rdry. lra. Qed.
Lemma alpha_fin : lapse_alpha = Fin ec_alpha.
Proof.
  unfold lapse_alpha. rewrite Rd_fin, ginv_fin. flsimpl. declit. apply f_equal. unfold ec_alpha. replace lapse with (65 / 10000) by (unfold lapse; lra). unfold Rdiv. ring.
Qed.
Lemma alpha_bounds : 0 < ec_alpha < 1.
Proof.
  unfold ec_alpha, lapse, Rdry, grav. split.
  - apply Rmult_lt_0_compat; [lra|]. apply Rinv_0_lt_compat. lra.
  - apply Rmult_lt_reg_r with 9.80616; [lra|]. unfold Rdiv. rewrite Rmult_assoc, Rinv_l by lra. lra.
Qed.
Lemma lapse_fin : dec 65 4 = Fin lapse.
Proof. flsimpl. declit. apply f_equal. unfold lapse. lra. Qed.

Lemma ratio_pos a b : 0 < a -> 0 < b -> 0 < a / b.
Proof. intros. apply Rmult_lt_0_compat; auto. apply Rinv_0_lt_compat. auto. Qed.

Lemma rle_if {A} a b (x y : A) : (if rleb a b then x else y) = if Rle_dec a b then x else y.
Proof. unfold rleb. destruct (Rle_dec a b); reflexivity. Qed.
Lemma rlt_if {A} a b (x y : A) : (if rltb a b then x else y) = if Rlt_dec a b then x else y.
Proof. unfold rltb. destruct (Rlt_dec a b); reflexivity. Qed.

Lemma temp_extrapolate_spec tb lev pl ps phi : 0 < lev -> 0 < ps -> pl <> 0 ->
  temp_extrapolate (Fin tb) (Fin lev) (Fin pl) (Fin ps) (Fin phi) = Fin (ec_temperature tb lev pl ps phi).
Proof.
  intros Hl Hp Hpl. unfold temp_extrapolate. cbv zeta. rewrite alpha_fin, Rd_fin, ginv_fin, lapse_fin.
  change (@ndiv fl NumFl) with fl_div. rewrite (fdiv_fin ps pl), (fdiv_fin lev ps) by lra.
  change (nln (Fin (lev / ps))) with (fl_ln (Fin (lev / ps))). rewrite (fln_fin (lev / ps)) by (apply ratio_pos; auto).
  unfold ec_temperature. cbv zeta.
  assert (Ets : nmul (Fin tb) (nadd (ofZ 1) (nmul (Fin ec_alpha) (nsub (Fin (ps / pl)) (ofZ 1)))) = Fin (ec_tstar tb pl ps)) by reflexivity.
  rewrite Ets. set (t := ec_tstar tb pl ps).
  assert (Ez : nmul (Fin phi) (Fin (/ grav)) = Fin (phi / grav)) by reflexivity. rewrite Ez. set (z := phi / grav).
  assert (Et0 : nadd (Fin t) (nmul (Fin lapse) (Fin z)) = Fin (t + lapse * z)) by reflexivity. rewrite Et0.
  change (ofZ 298) with (Fin 298). rewrite nmin_fin.
  set (L := ln (lev / ps)).
  assert (Ey : forall y, nmul (Fin t) (nadd (nadd (nadd (ofZ 1) (Fin y)) (nmul (dec 5 1) (sqr (Fin y)))) (nmul (fl_div (ofZ 1) (ofZ 6)) (cube (Fin y))))
     = Fin (t * (1 + y + y * y / 2 + y * y * y / 6))).
  { intros y. cbn [ofZ NumFl]. rewrite fdiv_fin by lra. flsimpl. declit. f_equal. field. }
  set (tpl := Rmin 298 (t + lapse * z)).
  assert (Ebl : nmul (dec 2 3) (nadd (nmul (nsub (ofZ 2500) (Fin z)) (Fin (t + lapse * z))) (nmul (nsub (Fin z) (ofZ 2000)) (Fin tpl)))
          = Fin (2 / 1000 * ((2500 - z) * (t + lapse * z) + (z - 2000) * tpl))).
  { flsimpl. declit. reflexivity. }
  rewrite Ebl.
  match goal with |- nmul _ (nadd (nadd (nadd _ ?b) _) _) = _ =>
    assert (Eb : b = Fin (ec_y t phi lev ps)); [|rewrite Eb; apply Ey] end.
  unfold nwhere. cbn [ofZ nle nlt NumFl fl_le fl_lt]. unfold ec_y. fold z. fold L.
  unfold ec_plateau. fold tpl. unfold rleb, rltb, nwhere.
  assert (Hphi : 2000 <= z -> phi <> 0).
  { intros Hz E. unfold z in Hz. rewrite E in Hz. unfold Rdiv in Hz. rewrite Rmult_0_l in Hz. lra. }
  destruct (Rlt_dec z 2000) as [H1|H1].
  - destruct (Rle_dec 2000 z); [lra|]. cbn [andb]. destruct (Rlt_dec 2500 z); [lra|]. cbn [fl_lt nnan NumFl].
    reflexivity.
  - specialize (Hphi ltac:(lra)). destruct (Rle_dec 2000 z); [|lra]. cbn [andb].
    destruct (Rlt_dec 2500 z) as [H2|H2].
    + cbn [fl_lt]. unfold rltb. destruct (Rlt_dec tpl t); [reflexivity|].
      cbn [nsub nmul NumFl fl_sub fl_mul]. rewrite fdiv_fin by auto. reflexivity.
    + destruct (Rle_dec z 2500); [|lra]. cbn [fl_lt]. unfold rltb.
      destruct (Rlt_dec _ t); [reflexivity|]. cbn [nsub nmul NumFl fl_sub fl_mul]. rewrite fdiv_fin by auto. reflexivity.
Qed.

Lemma ec_temperature_surface tb pl ps phi : 0 < ps -> ec_temperature tb ps pl ps phi = ec_tstar tb pl ps.
Proof.
  intros Hp. unfold ec_temperature, ec_y. replace (ps / ps) with 1 by (field; lra). rewrite ln_1.
  destruct (Rlt_dec _ 2000); [|destruct (Rlt_dec _ _)]; rewrite ?Rmult_0_r; unfold Rdiv; ring.
Qed.

Lemma geo_height_extrapolate_spec tb lev pl ps phi : 0 < lev -> 0 < ps -> pl <> 0 ->
  geo_height_extrapolate (Fin tb) (Fin lev) (Fin pl) (Fin ps) (Fin phi) = Fin (ec_height tb lev pl ps phi).
Proof.
  intros Hl Hp Hpl. unfold geo_height_extrapolate. cbv zeta. rewrite alpha_fin, Rd_fin, ginv_fin, lapse_fin.
  change (@ndiv fl NumFl) with fl_div. rewrite (fdiv_fin ps pl), (fdiv_fin lev ps) by lra.
  change (nln (Fin (lev / ps))) with (fl_ln (Fin (lev / ps))). rewrite (fln_fin (lev / ps)) by (apply ratio_pos; auto).
  unfold ec_height. cbv zeta.
  assert (Ets : nmul (Fin tb) (nadd (ofZ 1) (nmul (Fin ec_alpha) (nsub (Fin (ps / pl)) (ofZ 1)))) = Fin (ec_tstar tb pl ps)) by reflexivity.
  rewrite Ets. set (t := ec_tstar tb pl ps).
  assert (Ez : nmul (Fin phi) (Fin (/ grav)) = Fin (phi / grav)) by reflexivity. rewrite Ez. set (z := phi / grav).
  assert (Et0 : nadd (Fin t) (nmul (Fin lapse) (Fin z)) = Fin (t + lapse * z)) by reflexivity. rewrite Et0.
  assert (Ec : dec 2905 1 = Fin 290.5) by (flsimpl; declit; apply f_equal; lra). rewrite Ec.
  set (L := ln (lev / ps)).
  assert (Hphi : t <= 290.5 < t + lapse * z -> phi <> 0).
  { intros Hz E. unfold z in Hz. rewrite E in Hz. unfold Rdiv in Hz. rewrite Rmult_0_l, Rmult_0_r in Hz. lra. }
  assert (Ey : forall al ts, nsub (Fin z) (nmul (nmul (nmul (nmul (Fin Rdry) (Fin ts)) (Fin (/ grav))) (Fin L))
       (nadd (nadd (ofZ 1) (nmul (dec 5 1) (nmul (Fin al) (Fin L)))) (nmul (fl_div (ofZ 1) (ofZ 6)) (sqr (nmul (Fin al) (Fin L))))))
     = Fin (z - Rdry * ts / grav * L * (1 + (al * L) / 2 + al * L * (al * L) / 6))).
  { intros al ts. cbn [ofZ NumFl]. rewrite fdiv_fin by lra. flsimpl. declit. f_equal. field. pose proof grav_pos. lra. }
  assert (Eh : forall ts, nmul (dec 5 1) (nadd (Fin ts) (ofZ 255)) = Fin ((ts + 255) / 2)).
  { intros ts. flsimpl. declit. f_equal. field. }
  assert (Eh2 : forall ts, nmul (dec 5 1) (nadd (Fin 290.5) (Fin ts)) = Fin ((290.5 + ts) / 2)).
  { intros ts. flsimpl. declit. f_equal. field. }
  change (ofZ 0) with (Fin 0). rewrite Eh2.
  match goal with |- nsub _ (nmul (nmul (nmul (nmul _ ?ts) _) _) (nadd (nadd _ (nmul _ (nmul ?al _))) _)) = _ =>
    assert (Eal : al = Fin (ec_gp_alpha t z phi)); [|assert (Ets2 : ts = Fin (ec_gp_tstar t z)); [|rewrite Eal, Ets2; apply Ey]] end.
  - unfold nwhere, ec_gp_alpha. cbn [nle nlt NumFl fl_le fl_lt]. unfold rleb, rltb.
    destruct (Rle_dec t 290.5) as [H1|H1]; destruct (Rlt_dec 290.5 t) as [H2|H2]; try lra;
      destruct (Rlt_dec 290.5 (t + lapse * z)) as [H3|H3]; cbn [andb]; try reflexivity.
    rewrite fdiv_fin by (apply Hphi; lra). reflexivity.
  - unfold nwhere, ec_gp_tstar. cbn [nle nlt NumFl fl_le fl_lt]. unfold rltb.
    destruct (Rlt_dec 290.5 t) as [H2|H2]; destruct (Rlt_dec 290.5 (t + lapse * z)) as [H3|H3]; cbn [andb ofZ];
      cbn [nle nlt NumFl fl_le fl_lt ofZ]; unfold rltb;
      match goal with |- context [Rlt_dec ?x 255] => destruct (Rlt_dec x 255) end; try reflexivity; apply Eh.
Qed.

Lemma ec_tstar_pos tb pl ps : 0 < tb -> 0 < pl -> 0 < ps -> 0 < ec_tstar tb pl ps.
Proof.
  intros Ht Hl Hp. unfold ec_tstar. apply Rmult_lt_0_compat; auto. pose proof alpha_bounds. pose proof (ratio_pos ps pl Hp Hl).
  assert (0 < ec_alpha * (ps / pl)) by (apply Rmult_lt_0_compat; lra). lra.
Qed.

Lemma ec_height_surface tb pl ps phi : 0 < ps -> ec_height tb ps pl ps phi = phi / grav.
Proof.
  intros Hp. unfold ec_height. replace (ps / ps) with 1 by (field; lra). rewrite ln_1, !Rmult_0_r. unfold Rdiv. ring.
Qed.
Lemma ec_height_below tb lev pl ps phi : 0 < tb -> 0 < pl -> 0 < ps -> ps < lev -> ec_height tb lev pl ps phi < phi / grav.
Proof.
  intros Ht Hl Hp Hlt. unfold ec_height. pose proof (ec_tstar_pos tb pl ps Ht Hl Hp) as HT.
  set (t := ec_tstar tb pl ps) in *. set (z := phi / grav).
  assert (HL : 0 < ln (lev / ps)).
  { rewrite <- ln_1. apply ln_increasing; [lra|]. apply Rmult_lt_reg_r with ps; auto. unfold Rdiv. rewrite Rmult_assoc, Rinv_l by lra. lra. }
  assert (HT2 : 0 < ec_gp_tstar t z).
  { unfold ec_gp_tstar. destruct (Rlt_dec 290.5 (t + lapse * z)); [destruct (Rlt_dec 290.5 t)|];
      match goal with |- context [Rlt_dec ?x 255] => destruct (Rlt_dec x 255) end; lra. }
  set (y := ec_gp_alpha t z phi * ln (lev / ps)).
  assert (Hq : 0 < 1 + y / 2 + y * y / 6).
  { replace (1 + y / 2 + y * y / 6) with ((y + 3 / 2) * (y + 3 / 2) / 6 + 5 / 8) by field.
    pose proof (Rle_0_sqr (y + 3 / 2)) as Hs. unfold Rsqr in Hs. lra. }
  assert (0 < Rdry * ec_gp_tstar t z / grav * ln (lev / ps) * (1 + y / 2 + y * y / 6)); [|lra].
  pose proof Rdry_pos. pose proof (Rinv_0_lt_compat _ grav_pos).
  apply Rmult_lt_0_compat; auto. apply Rmult_lt_0_compat; auto. apply Rmult_lt_0_compat; auto. apply Rmult_lt_0_compat; auto.
Qed.

Lemma temp_extrapolate_surface tb pl ps phi : 0 < ps -> pl <> 0 ->
  temp_extrapolate (Fin tb) (Fin ps) (Fin pl) (Fin ps) (Fin phi) = Fin (ec_tstar tb pl ps).
Proof. intros Hp Hl. rewrite temp_extrapolate_spec, ec_temperature_surface by auto. reflexivity. Qed.
Lemma geo_height_surface_below tb pl ps phi : 0 < ps -> 0 < pl ->
  geo_height_extrapolate (Fin tb) (Fin ps) (Fin pl) (Fin ps) (Fin phi) = Fin (phi / grav) /\
  forall lev, 0 < tb -> ps < lev ->
    exists h, geo_height_extrapolate (Fin tb) (Fin lev) (Fin pl) (Fin ps) (Fin phi) = Fin h /\ h < phi / grav.
Proof.
  intros Hp Hl. split.
  - rewrite geo_height_extrapolate_spec, ec_height_surface by lra. reflexivity.
  - intros lev Ht Hlt. eexists. split; [apply geo_height_extrapolate_spec; lra|apply ec_height_below; auto].
Qed.
