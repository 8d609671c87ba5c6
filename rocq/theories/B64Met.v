(** relhum_ice, relhum_water, psychrometric_constant and saturation vapour pressure in binary64 (C147). *)
From Coq Require Import Reals List Bool Arith ZArith Lra Lia String.
From Flocq Require Import Core BinarySingleNaN.
From Verif Require Import PyBase PyFacts Num NumFacts NumB64 Arr ArrFacts XrFacts Spec SpecMeteo SpecB64 B64Facts Hybrid Meteo ListFacts CellFacts HybridFacts MeteoFacts B64Blend B64Relhum B64Cos B64Dew SpecB64Met.
Import ListNotations.
Local Open Scope R_scope.

(** ** relhum_ice and relhum_water cell by cell, for any numbers *)
Lemma relabel_any {T} {N : Num T} (t : da T) r : wf_da t -> coords_fit t -> shp r = shp (dat t) ->
  relabel t r = Ok (mkDa (dims t) r (coords t) (attrs t) None).
Proof.
  intros [Wl Wn] F S. unfold relabel, ndim. rewrite S, Wl, Nat.eqb_refl. cbn [negb].
  replace (forallb _ (coords t)) with true; [reflexivity|]. symmetry. apply forallb_forall. intros [n c] Hc. cbn [snd].
  match goal with |- shape_eqb ?a ?b = true => destruct (shape_eqb_spec a b) as [|Hn]; auto end. exfalso. apply Hn. rewrite (F n c Hc).
  apply map_ext. intros d. unfold dsize. destruct (sindex d (dims t)) as [j|]; auto.
  destruct (nth_error (shp (dat t)) j) eqn:E; [symmetry; apply nth_error_nth; auto|]. symmetry. apply nth_overflow. apply nth_error_None. auto.
Qed.
Lemma relhum_iw_cells {T} {N : Num T} ice (t w p : inp T) : alike t w p -> exists out, relhum_iw ice t w p = Ok out /\ shp (as_arr out) = shp (as_arr t) /\
  forall i, inb (shp (as_arr t)) i ->
    get (as_arr out) i = rh_cell (if ice then est_ice else est_water) (get (as_arr t) i) (get (as_arr w) i) (get (as_arr p) i).
Proof.
  intros (Kw & Kp & H). set (est := if ice then est_ice else est_water).
  assert (S : shp (as_arr w) = shp (as_arr t) /\ shp (as_arr p) = shp (as_arr t)).
  { destruct t, w, p; cbn in Kw, Kp; try discriminate; auto. cbn [as_arr]. destruct H as ((_ & _ & _ & A & _) & (_ & _ & _ & B & _) & _). split; congruence. }
  unfold relhum_iw. cbv zeta. fold est. rewrite Kw, Kp. assert (KB : forall k, kind_beq k k = true) by (intros []; reflexivity). rewrite KB. cbn [andb negb].
  destruct (shape_eqb_spec (shp (as_arr t)) (shp (as_arr w))) as [_|Q]; [|exfalso; apply Q; symmetry; apply S].
  destruct (shape_eqb_spec (shp (as_arr t)) (shp (as_arr p))) as [_|Q]; [|exfalso; apply Q; symmetry; apply S]. cbn [andb negb].
  destruct t as [t|t|t|t|t], w as [w|w|w|w|w], p as [p|p|p|p|p]; cbn in Kw, Kp; try discriminate; cbn [as_arr] in *.
  2-5: try destruct ice; eexists; (split; [reflexivity|]); cbn [as_arr shp get]; auto.
  destruct H as (Ftp & Fwt & Fwp & Cf). unfold rh_xr.
  assert (F1 : same_frame (xr_map est t) p) by (apply (same_frame_values t p); auto).
  destruct (xr_map2_same (fun e pv => qst e pv) (xr_map est t) p F1) as (q & Eq & Dq & Cq & Sq & _ & Wq & Gq). rewrite Eq. cbn [bind].
  assert (F2 : same_frame w q).
  { apply (same_frame_join_r (xr_map est t) p w q); auto. }
  destruct (xr_map2_same ndiv w q F2) as (r & Er & Dr & Cr & Sr & _ & Wr & Gr). rewrite Er. cbn [bind]. cbv zeta.
  rewrite relabel_any; [|apply Ftp|auto|cbn; destruct S; congruence]. cbn [bind].
  eexists. split; [reflexivity|]. cbn [as_arr dat xr_map amap shp get kind_of]. destruct S as [Sw Sp]. split; [congruence|].
  intros i Hi. rewrite Gr by congruence. rewrite Gq by (cbn; auto). reflexivity.
Qed.

(** ** products and quotients up to the largest number *)
Lemma mul_lt x y a b : is x a -> is y b -> Rabs (rn (a * b)) < bpow radix2 1024 -> is (Bmult mode_NE x y) (rn (a * b)).
Proof.
  intros [Fx <-] [Fy <-] H. pose proof (Bmult_correct 53 1024 _ _ mode_NE x y) as C.
  change (round radix2 (SpecFloat.fexp 53 1024) (round_mode mode_NE) (B2R x * B2R y)) with (rn (B2R x * B2R y)) in C.
  rewrite Rlt_bool_true in C by exact H. destruct C as (C1 & C2 & _). split; [|assumption]. rewrite C2, Fx, Fy. reflexivity.
Qed.
Lemma div_lt x y a b : is x a -> is y b -> b <> 0 -> Rabs (rn (a / b)) < bpow radix2 1024 -> is (Bdiv mode_NE x y) (rn (a / b)).
Proof.
  intros [Fx <-] [Fy <-] Hb H. pose proof (Bdiv_correct 53 1024 _ _ mode_NE x y Hb) as C.
  change (round radix2 (SpecFloat.fexp 53 1024) (round_mode mode_NE) (B2R x / B2R y)) with (rn (B2R x / B2R y)) in C.
  rewrite Rlt_bool_true in C by exact H. destruct C as (C1 & C2 & _). split; [|assumption]. rewrite C2, Fx. reflexivity.
Qed.
Lemma over_fin (z : b64) s : B2SF z = binary_overflow 53 1024 mode_NE s -> is_finite z = false.
Proof. intros H. destruct z; cbn in H; try reflexivity; destruct s; discriminate. Qed.
Lemma mul_fin x y a b : is x a -> is y b -> is_finite (Bmult mode_NE x y) = true -> Rabs (rn (a * b)) < bpow radix2 1024.
Proof.
  intros [Fx <-] [Fy <-] H. pose proof (Bmult_correct 53 1024 _ _ mode_NE x y) as C.
  change (round radix2 (SpecFloat.fexp 53 1024) (round_mode mode_NE) (B2R x * B2R y)) with (rn (B2R x * B2R y)) in C.
  destruct (Rlt_bool_spec (Rabs (rn (B2R x * B2R y))) (bpow radix2 1024)); auto. apply over_fin in C. congruence.
Qed.
Lemma div_fin x y a b : is x a -> is y b -> b <> 0 -> is_finite (Bdiv mode_NE x y) = true -> Rabs (rn (a / b)) < bpow radix2 1024.
Proof.
  intros [Fx <-] [Fy <-] Hb H. pose proof (Bdiv_correct 53 1024 _ _ mode_NE x y Hb) as C.
  change (round radix2 (SpecFloat.fexp 53 1024) (round_mode mode_NE) (B2R x / B2R y)) with (rn (B2R x / B2R y)) in C.
  destruct (Rlt_bool_spec (Rabs (rn (B2R x / B2R y))) (bpow radix2 1024)); auto. apply over_fin in C. congruence.
Qed.
Lemma hundred_times (z : b64) k v : is k 100 -> is (Bmult mode_NE k z) v -> 0 < v -> exists r, is z r /\ 0 < r /\ v = rn (100 * r) /\ Rabs v < bpow radix2 1024.
Proof.
  intros Ik Iv Hv. assert (Fz : is_finite z = true).
  { destruct Iv as [F _], Ik as [Fk Rk]. destruct z; auto; destruct k; cbn in Fk, Rk, F; try discriminate; exfalso; lra. }
  exists (B2R z). assert (Iz : is z (B2R z)) by (split; auto). split; [auto|].
  pose proof (mul_fin _ _ _ _ Ik Iz (proj1 Iv)) as L. pose proof (mul_lt _ _ _ _ Ik Iz L) as Iv2.
  assert (V : v = rn (100 * B2R z)) by (destruct Iv as [_ <-], Iv2 as [_ <-]; reflexivity). rewrite V in *. split; [|auto].
  destruct (Rle_lt_dec (B2R z) 0) as [N|]; auto. exfalso. assert (rn (100 * B2R z) <= rn 0) by (apply rn_le; lra). rewrite rn_0 in *. lra.
Qed.
Lemma over (w q : b64) a r : is w a -> 0 < a -> is (Bdiv mode_NE w q) r -> 0 < r -> exists s, is q s /\ 0 < s /\ r = rn (a / s) /\ Rabs r < bpow radix2 1024.
Proof.
  intros Iw Ha Ir Hr. assert (Fq : is_finite q = true /\ B2R q <> 0).
  { destruct Iw as [Fw Rw], Ir as [F R]. destruct q; destruct w; cbn in Fw, Rw, F, R; try discriminate; try (exfalso; lra).
    split; auto. cbn. intros Q. apply eq_0_F2R in Q. destruct s; discriminate. }
  destruct Fq as [Fq Nq]. assert (Iq : is q (B2R q)) by (split; auto). exists (B2R q). split; [auto|].
  pose proof (div_fin _ _ _ _ Iw Iq Nq (proj1 Ir)) as L. pose proof (div_lt _ _ _ _ Iw Iq Nq L) as Ir2.
  assert (V : r = rn (a / B2R q)) by (destruct Ir as [_ <-], Ir2 as [_ <-]; reflexivity). rewrite V in *. split; [|auto].
  destruct (Rle_lt_dec (B2R q) 0) as [N|]; auto. exfalso. assert (a / B2R q < 0) by (apply Rdiv_pos_neg || (unfold Rdiv; apply Rmult_pos_neg || idtac; assert (/ B2R q < 0) by (apply Rinv_lt_0_compat; lra); nra)).
  assert (rn (a / B2R q) <= rn 0) by (apply rn_le; lra). rewrite rn_0 in *. lra.
Qed.
Lemma rh_less M est (t w w' p : b64) a a' v : is w a -> 0 < a -> is w' a' -> 0 <= a' <= a -> is (@rh_cell b64 (NumB M) est t w p) v -> 0 < v ->
  exists v', is (@rh_cell b64 (NumB M) est t w' p) v' /\ 0 <= v' <= v /\ (a' = 0 -> v' = 0).
Proof.
  unfold rh_cell. set (q := @qst b64 (NumB M) (est t) p). intros Iw Ha Iw' Ha' Iv Hv.
  assert (Ik : is (@ofZ b64 (NumB M) 100) 100) by (apply (ofZ_exact 100); lia).
  destruct (hundred_times _ _ _ Ik Iv Hv) as (r & Ir & Hr & Ev & Lv).
  destruct (over _ _ _ _ Iw Ha Ir Hr) as (s & Is & Hs & Er & Lr). pose proof (Rinv_0_lt_compat s Hs) as Hi.
  assert (B1 : 0 <= rn (a' / s) <= r).
  { rewrite Er. split; [apply rn_ge_fmt; [apply fmt_0|unfold Rdiv; nra]|apply rn_le; unfold Rdiv; nra]. }
  assert (I1 : is (@ndiv b64 (NumB M) w' q) (rn (a' / s))).
  { apply div_lt; auto; [lra|]. rewrite Rabs_pos_eq by lra. rewrite Rabs_pos_eq in Lr by lra. lra. }
  assert (B2 : 0 <= rn (100 * rn (a' / s)) <= v).
  { rewrite Ev. split; [apply rn_ge_fmt; [apply fmt_0|lra]|apply rn_le; lra]. }
  exists (rn (100 * rn (a' / s))). split; [|split; [auto|]].
  - apply mul_lt; auto. rewrite Rabs_pos_eq by lra. rewrite Rabs_pos_eq in Lv by lra. lra.
  - intros ->. unfold Rdiv. rewrite Rmult_0_l, rn_0, Rmult_0_r, rn_0. reflexivity.
Qed.

(** ** psychrometric_constant *)
Section Lib.
Variable M : libm.
Local Instance NB : Num b64 := NumB M.
Lemma psy_cells {T} {N : Num T} (p : inp T) i : shp (as_arr (psychrometric_constant p)) = shp (as_arr p) /\
  get (as_arr (psychrometric_constant p)) i = nmul (dec 66474 8) (get (as_arr p) i).
Proof. destruct p; split; reflexivity. Qed.
Lemma pow900 : bpow radix2 900 * 1024 <= big.
Proof. change 1024 with (bpow radix2 10). rewrite <- bpow_plus. apply bpow_le. lia. Qed.
Lemma psy_is (x : b64) p : is x p -> Rabs p <= hi900 -> is (@nmul b64 NB (dec 66474 8) x) (rn (rn 0.00066474 * p)).
Proof.
  intros Ix H. assert (Ic : is (@dec b64 NB 66474 8) (rn 0.00066474)).
  { pose proof (dec_is M 66474 8 ltac:(lia) ltac:(lia)) as D. replace (IZR 66474 / IZR (10 ^ Z.of_nat 8)) with 0.00066474 in D; [exact D|]. change (10 ^ Z.of_nat 8)%Z with 100000000%Z. lra. }
  apply mul_is; auto. assert (0 <= rn 0.00066474 <= 1).
  { split; [apply rn_ge_fmt; [apply fmt_0|lra]|apply rn_le_fmt; [apply (fmt_Z 1); lia|lra]]. }
  rewrite Rabs_mult, (Rabs_pos_eq (rn _)) by lra. pose proof pow900 as P. unfold hi900 in H. pose proof (bpow_gt_0 radix2 900). pose proof (Rabs_pos p). nra.
Qed.
Lemma psy_close p : Rabs (rn (rn 0.00066474 * p) - 0.00066474 * p) <= 3 * ulp1 * (0.00066474 * Rabs p) + tiny.
Proof.
  pose proof (rn_abs (rn 0.00066474 * p)) as E. fold tiny in E.
  assert (L : bpow radix2 (-1022) <= Rabs 0.00066474).
  { rewrite Rabs_pos_eq by lra. apply Rle_trans with (bpow radix2 (-11)); [apply bpow_le; lia|]. change (bpow radix2 (-11)) with (/ 2048). lra. }
  pose proof (rn_rel _ L) as R. rewrite (Rabs_pos_eq 0.00066474) in R by lra.
  assert (U : 0 < ulp1 <= / 1024). { split; [apply ulp1_pos|]. change (/ 1024) with (bpow radix2 (-10)). apply bpow_le. lia. }
  set (c := rn 0.00066474) in *. assert (C : Rabs c <= 2 * 0.00066474). { apply Rabs_le. apply Rabs_le_inv in R. nra. }
  replace (rn (c * p) - 0.00066474 * p) with ((rn (c * p) - c * p) + (c - 0.00066474) * p) by ring.
  eapply Rle_trans; [apply Rabs_triang|]. rewrite Rabs_mult in E. rewrite (Rabs_mult (c - _)).
  pose proof (Rabs_pos p) as P. assert (Rabs c * Rabs p <= 2 * 0.00066474 * Rabs p) by (apply Rmult_le_compat_r; auto).
  assert (Rabs (c - 0.00066474) * Rabs p <= ulp1 * 0.00066474 * Rabs p) by (apply Rmult_le_compat_r; auto).
  assert (ulp1 * (Rabs c * Rabs p) <= ulp1 * (2 * 0.00066474 * Rabs p)) by (apply Rmult_le_compat_l; lra). lra.
Qed.

(** ** saturation vapour pressure *)
Lemma svp_cells {T} {N : Num T} (t : inp T) f i : shp (as_arr (saturation_vapor_pressure t f)) = shp (as_arr t) /\
  get (as_arr (saturation_vapor_pressure t f)) i = svp_cell f (get (as_arr t) i) /\
  get (as_arr (saturation_vapor_pressure_slope t f)) i = slope_cell f (get (as_arr t) i) /\
  get (as_arr (actual_saturation_vapor_pressure t f)) i = svp_cell f (get (as_arr t) i).
Proof. destruct t; repeat split; reflexivity. Qed.
(** degrees Celsius as the code rounds them *)
Definition cel (f : R) : R := rn (rn (rn (f - 32) * 5) / 9).
Lemma hi_bound x : Rabs x <= 1024 * hi900 -> Rabs x <= big.
Proof. intros H. pose proof pow900. unfold hi900 in H. lra. Qed.
Lemma fmt_hi k : (0 <= k <= 100)%Z -> fmt (bpow radix2 k * hi900).
Proof. intros H. unfold hi900. rewrite <- bpow_plus. apply fmt_bpow. lia. Qed.
Lemma hi_ge : 1000 <= hi900.
Proof. apply Rle_trans with (bpow radix2 10); [change (bpow radix2 10) with 1024; lra|apply bpow_le; lia]. Qed.
Lemma cel_is (x : b64) f : is x f -> Rabs f <= hi900 ->
  is (@ndiv b64 NB (nmul (nsub x (ofZ 32)) (ofZ 5)) (ofZ 9)) (cel f) /\ Rabs (cel f) <= 16 * hi900.
Proof.
  intros Ix H. pose proof hi_ge as G.
  assert (I32 : is (@ofZ b64 NB 32) 32) by (apply (ofZ_exact 32); lia).
  assert (I5 : is (@ofZ b64 NB 5) 5) by (apply (ofZ_exact 5); lia).
  assert (I9 : is (@ofZ b64 NB 9) 9) by (apply (ofZ_exact 9); lia).
  apply Rabs_le_inv in H.
  assert (B1 : Rabs (f - 32) <= bpow radix2 1 * hi900) by (change (bpow radix2 1) with 2; apply Rabs_le; lra).
  assert (A1 : Rabs (f - 32) <= big) by (apply hi_bound; change (bpow radix2 1) with 2 in B1; lra).
  pose proof (sub_is _ _ _ _ Ix I32 A1) as S. pose proof (rn_abs_le _ _ (fmt_hi 1 ltac:(lia)) B1) as B1r. change (bpow radix2 1) with 2 in B1r. apply Rabs_le_inv in B1r.
  set (d := rn (f - 32)) in *.
  assert (B2 : Rabs (d * 5) <= bpow radix2 4 * hi900) by (change (bpow radix2 4) with 16; apply Rabs_le; lra).
  assert (A2 : Rabs (d * 5) <= big) by (apply hi_bound; change (bpow radix2 4) with 16 in B2; lra).
  pose proof (mul_is _ _ _ _ S I5 A2) as P. pose proof (rn_abs_le _ _ (fmt_hi 4 ltac:(lia)) B2) as B2r. change (bpow radix2 4) with 16 in B2r. apply Rabs_le_inv in B2r.
  set (e := rn (d * 5)) in *.
  assert (B3 : Rabs (e / 9) <= bpow radix2 4 * hi900) by (change (bpow radix2 4) with 16; apply Rabs_le; lra).
  assert (A3 : Rabs (e / 9) <= big) by (apply hi_bound; change (bpow radix2 4) with 16 in B3; lra).
  pose proof (div_is _ _ _ _ P I9 ltac:(lra) A3) as D. split; [exact D|]. pose proof (rn_abs_le _ _ (fmt_hi 4 ltac:(lia)) B3) as B3r. exact B3r.
Qed.
Lemma cel_cold f : f <= 32 -> cel f <= 0.
Proof.
  intros H. unfold cel. pose proof fmt_0. apply rn_le_fmt; auto. assert (rn (f - 32) <= 0) by (apply rn_le_fmt; auto; lra).
  assert (rn (rn (f - 32) * 5) <= 0) by (apply rn_le_fmt; auto; lra). lra.
Qed.
Lemma cel_warm f : fmt f -> 32 < f -> bpow radix2 (-51) <= cel f.
Proof.
  intros F H. assert (Q : bpow radix2 (-47) <= f - 32).
  { assert (Q : succ radix2 (FLT_exp (-1074) 53) 32 <= f) by (apply succ_le_lt; auto; [typeclasses eauto|apply (fmt_Z 32); lia]).
    rewrite succ_eq_pos in Q by lra. change 32 with (bpow radix2 5) in Q at 2. rewrite ulp_bpow in Q. change (FLT_exp (-1074) 53 (5 + 1)) with (-47)%Z in Q. lra. }
  pose proof (bpow_gt_0 radix2 (-47)) as P. unfold cel. pose proof (rn_ge_fmt _ _ (fmt_bpow (-47) ltac:(lia)) Q) as R1.
  assert (R2 : bpow radix2 (-47) <= rn (rn (f - 32) * 5)) by (apply rn_ge_fmt; [apply fmt_bpow; lia|lra]).
  apply rn_ge_fmt; [apply fmt_bpow; lia|]. assert (bpow radix2 (-47) = 16 * bpow radix2 (-51)) by (change 16 with (bpow radix2 4); rewrite <- bpow_plus; reflexivity). lra.
Qed.
Lemma warm_test (x : b64) f : is x f -> Rabs f <= hi900 ->
  @ngt b64 NB (ndiv (nmul (nsub x (ofZ 32)) (ofZ 5)) (ofZ 9)) (ofZ 0) = Rlt_bool 32 f.
Proof.
  intros Ix H. destruct (cel_is x f Ix H) as [C _]. assert (I0 : is (@ofZ b64 NB 0) 0) by (apply (ofZ_exact 0); lia).
  change (Bltb (@ofZ b64 NB 0) (@ndiv b64 NB (nmul (nsub x (ofZ 32)) (ofZ 5)) (ofZ 9)) = Rlt_bool 32 f).
  rewrite (lt_is _ _ _ _ I0 C). destruct (Rlt_bool_spec 32 f) as [L|L].
  - apply Rlt_bool_true. pose proof (cel_warm f (is_fmt _ _ Ix) L). pose proof (bpow_gt_0 radix2 (-51)). lra.
  - apply Rlt_bool_false. apply cel_cold; auto.
Qed.
Lemma nan_test : @ngt b64 NB (ndiv (nmul (nsub B754_nan (ofZ 32)) (ofZ 5)) (ofZ 9)) (ofZ 0) = false.
Proof. reflexivity. Qed.
Lemma lit_is z k X : (Z.abs z <= 2 ^ 53)%Z -> (k <= 15)%nat -> IZR z / IZR (10 ^ Z.of_nat k) = X -> is (@dec b64 NB z k) (rn X).
Proof. intros Hz Hk <-. exact (dec_is M z k Hz Hk). Qed.
Lemma lit_near X : / 1000000 <= X -> X * (1 - / 1000000) <= rn X <= X * (1 + / 1000000).
Proof.
  intros H. pose proof (near_lit X H) as N. unfold near in N. apply Rabs_le_inv in N.
  assert (U : 0 < ulp1 <= / 1048576). { split; [apply ulp1_pos|]. change (/ 1048576) with (bpow radix2 (-20)). apply bpow_le. lia. }
  assert (ulp1 * X <= / 1048576 * X) by (apply Rmult_le_compat_r; lra). lra.
Qed.
(** the argument of the exponential above freezing *)
Lemma arg_is (x : b64) f : is x f -> Rabs f <= hi900 -> 32 < f ->
  exists a, is (ndiv (nmul (dec 1727 2) (ndiv (nmul (nsub x (ofZ 32)) (ofZ 5)) (ofZ 9))) (nadd (ndiv (nmul (nsub x (ofZ 32)) (ofZ 5)) (ofZ 9)) (dec 2373 1))) a /\ 0 <= a <= 18.
Proof.
  intros Ix H L. destruct (cel_is x f Ix H) as [C Cu]. pose proof (cel_warm f (is_fmt _ _ Ix) L) as Cl. set (c := cel f) in *.
  match type of C with is ?e _ => set (t := e) in * end.
  pose proof (bpow_gt_0 radix2 (-51)) as P51. rewrite Rabs_pos_eq in Cu by lra. pose proof hi_ge as G.
  pose proof (lit_is 1727 2 17.27 ltac:(lia) ltac:(lia) ltac:(change (10 ^ Z.of_nat 2)%Z with 100%Z; lra)) as I1.
  pose proof (lit_is 2373 1 237.3 ltac:(lia) ltac:(lia) ltac:(change (10 ^ Z.of_nat 1)%Z with 10%Z; lra)) as I2.
  pose proof (lit_near 17.27 ltac:(lra)) as N1. pose proof (lit_near 237.3 ltac:(lra)) as N2. set (k := rn 17.27) in *. set (m := rn 237.3) in *.
  assert (B1 : 0 <= k * c <= 17.3 * c) by nra.
  assert (A1 : Rabs (k * c) <= big) by (apply hi_bound; rewrite Rabs_pos_eq; lra).
  pose proof (mul_is _ _ _ _ I1 C A1) as J1.
  assert (A2 : Rabs (c + m) <= big) by (apply hi_bound; rewrite Rabs_pos_eq; lra).
  pose proof (add_is _ _ _ _ C I2 A2) as J2.
  assert (D : c <= rn (c + m)) by (apply rn_ge_fmt; [eapply is_fmt; exact C|lra]).
  assert (Nu : 0 <= rn (k * c) <= 17.5 * c).
  { split; [apply rn_ge_fmt; [apply fmt_0|lra]|].
    assert (K : bpow radix2 (-1022) <= Rabs (k * c)).
    { rewrite Rabs_pos_eq by lra. apply Rle_trans with (bpow radix2 (-51)); [apply bpow_le; lia|nra]. }
    pose proof (rn_rel _ K) as R. rewrite (Rabs_pos_eq (k * c)) in R by lra. apply Rabs_le_inv in R.
    assert (U : 0 < ulp1 <= / 1024). { split; [apply ulp1_pos|]. change (/ 1024) with (bpow radix2 (-10)). apply bpow_le. lia. }
    assert (ulp1 * (k * c) <= / 1024 * (17.3 * c)) by (apply Rmult_le_compat; lra). lra. }
  set (n := rn (k * c)) in *. set (d := rn (c + m)) in *.
  assert (Q : 0 <= n / d <= 18).
  { assert (0 < d) by lra. split; [apply Rmult_le_pos; [lra|apply Rlt_le, Rinv_0_lt_compat; lra]|]. apply Rmult_le_reg_r with d; auto. unfold Rdiv. rewrite Rmult_assoc, Rinv_l by lra. nra. }
  exists (rn (n / d)). split; [apply div_is; auto; [lra|apply hi_bound; rewrite Rabs_pos_eq; lra]|].
  split; [apply rn_ge_fmt; [apply fmt_0|lra]|apply rn_le_fmt; [apply (fmt_Z 18); lia|lra]].
Qed.
Lemma svp_warm (x fill : b64) f : exp_ok M -> is x f -> Rabs f <= hi900 -> 32 < f -> exists v, is (svp_cell fill x) v /\ rn 0.6108 <= v.
Proof.
  intros He Ix H L. unfold svp_cell. cbv zeta. rewrite (warm_test x f Ix H), Rlt_bool_true by auto. unfold nwhere.
  destruct (arg_is x f Ix H L) as (a & Ia & Ha). destruct (He _ a Ia ltac:(lra)) as (e & Ie & Be).
  pose proof (lit_is 6108 4 0.6108 ltac:(lia) ltac:(lia) ltac:(change (10 ^ Z.of_nat 4)%Z with 10000%Z; lra)) as I1.
  pose proof (lit_near 0.6108 ltac:(lra)) as N1. exists (rn (rn 0.6108 * e)). split.
  - apply mul_is; auto. pose proof hi_ge. assert (bpow radix2 40 <= hi900) by (apply bpow_le; lia). apply hi_bound. rewrite Rabs_pos_eq by nra. nra.
  - apply rn_ge_fmt; [apply fmt_rn|nra].
Qed.
Lemma svp_cold (x fill : b64) f : is x f -> Rabs f <= hi900 -> f <= 32 -> svp_cell fill x = fill /\ slope_cell fill x = fill.
Proof.
  intros Ix H L. unfold svp_cell, slope_cell. cbv zeta. rewrite (warm_test x f Ix H), Rlt_bool_false by auto. split; reflexivity.
Qed.
Lemma svp_nan (fill : b64) : svp_cell fill B754_nan = fill /\ slope_cell fill B754_nan = fill.
Proof. split; reflexivity. Qed.
End Lib.

(** a library whose exponential is correctly rounded meets the assumption *)
Definition true_exp : libm := mkLibm (fun x => of_real (exp (B2R x))) (fun x => x) (fun x => x) (fun x => x) (fun x => x) (fun x => x).
Lemma exp_20 : exp 20 <= bpow radix2 40.
Proof.
  assert (E1 : 0 < exp 1 <= 3) by (split; [apply exp_pos|exact exp_le_3]).
  assert (P : forall a b c d, exp a <= c -> exp b <= d -> exp (a + b) <= c * d).
  { intros a b c d Ha Hb. rewrite exp_plus. pose proof (exp_pos a). pose proof (exp_pos b). apply Rmult_le_compat; lra. }
  assert (E2 : exp 2 <= 3 * 3) by (replace 2 with (1 + 1) by lra; apply P; lra).
  assert (E4 : exp 4 <= 9 * 9) by (replace 4 with (2 + 2) by lra; apply P; lra).
  assert (E5 : exp 5 <= 81 * 3) by (replace 5 with (4 + 1) by lra; apply P; lra).
  assert (E10 : exp 10 <= 243 * 243) by (replace 10 with (5 + 5) by lra; apply P; lra).
  assert (E20 : exp 20 <= (243 * 243) * (243 * 243)) by (replace 20 with (10 + 10) by lra; apply P; lra).
  change (bpow radix2 40) with 1099511627776. lra.
Qed.
Lemma true_exp_ok : exp_ok true_exp.
Proof.
  intros x r [Fx <-] H. cbn [true_exp m_exp]. set (r := B2R x) in *.
  assert (B : 1 <= exp r <= bpow radix2 40).
  { split; [pose proof (exp_ineq1_le r); lra|]. apply Rle_trans with (exp 20); [|exact exp_20]. destruct (proj2 H) as [L|E]; [left; apply exp_increasing; auto|rewrite E; lra]. }
  exists (rn (exp r)). assert (bpow radix2 40 <= big) by (apply bpow_le; lia). split; [apply of_real_is; rewrite Rabs_pos_eq; lra|].
  split; [apply rn_ge_fmt; [apply (fmt_Z 1); lia|lra]|apply rn_le_fmt; [apply fmt_bpow; lia|lra]].
Qed.

(** ** the API *)
Lemma c147_relhum M (ice : bool) (t w w' p : inp b64) : @alike b64 (NumB M) t w p -> @alike b64 (NumB M) t w' p ->
  exists out out', @relhum_iw b64 (NumB M) ice t w p = Ok out /\ @relhum_iw b64 (NumB M) ice t w' p = Ok out' /\
  forall i a a' v, inb (shp (as_arr t)) i -> is (get (as_arr w) i) a -> 0 < a -> is (get (as_arr w') i) a' -> 0 <= a' <= a ->
    is (get (as_arr out) i) v -> 0 < v -> exists v', is (get (as_arr out') i) v' /\ 0 <= v' <= v /\ (a' = 0 -> v' = 0).
Proof.
  intros A A'. destruct (@relhum_iw_cells b64 (NumB M) ice t w p A) as (o & E & _ & G). destruct (@relhum_iw_cells b64 (NumB M) ice t w' p A') as (o' & E' & _ & G').
  exists o, o'. split; [exact E|]. split; [exact E'|]. intros i a a' v Hi Ia Pa Ia' La Iv Pv. rewrite G in Iv by auto. rewrite G' by auto. exact (rh_less M _ _ _ _ _ a a' v Ia Pa Ia' La Iv Pv).
Qed.
Lemma c147_psychrometric M (p : inp b64) i x : is (get (as_arr p) i) x -> Rabs x <= hi900 ->
  exists v, is (get (as_arr (@psychrometric_constant b64 (NumB M) p)) i) v /\ Rabs (v - 0.00066474 * x) <= 3 * ulp1 * (0.00066474 * Rabs x) + tiny /\
    forall j x', is (get (as_arr p) j) x' -> x <= x' <= hi900 -> exists v', is (get (as_arr (@psychrometric_constant b64 (NumB M) p)) j) v' /\ v <= v'.
Proof.
  intros Ix H. exists (rn (rn 0.00066474 * x)). rewrite (proj2 (@psy_cells b64 (NumB M) p i)). split; [exact (psy_is M _ _ Ix H)|]. split; [apply psy_close|].
  intros j x' Ix' H'. exists (rn (rn 0.00066474 * x')). rewrite (proj2 (@psy_cells b64 (NumB M) p j)).
  apply Rabs_le_inv in H. split; [apply (psy_is M _ _ Ix'); apply Rabs_le; lra|]. apply rn_le. apply Rmult_le_compat_l; [|lra]. apply rn_ge_fmt; [apply fmt_0|lra].
Qed.
Lemma c147_freezing M (t : inp b64) (fill : b64) i f : is (get (as_arr t) i) f -> Rabs f <= hi900 -> f <= 32 ->
  get (as_arr (@saturation_vapor_pressure b64 (NumB M) t fill)) i = fill /\ get (as_arr (@actual_saturation_vapor_pressure b64 (NumB M) t fill)) i = fill /\
  get (as_arr (@saturation_vapor_pressure_slope b64 (NumB M) t fill)) i = fill.
Proof.
  intros Ix H L. destruct (@svp_cells b64 (NumB M) t fill i) as (_ & -> & -> & ->). destruct (svp_cold M _ fill f Ix H L) as [A B]. auto.
Qed.
Lemma c147_missing M (t : inp b64) (fill : b64) i : get (as_arr t) i = B754_nan ->
  get (as_arr (@saturation_vapor_pressure b64 (NumB M) t fill)) i = fill /\ get (as_arr (@actual_saturation_vapor_pressure b64 (NumB M) t fill)) i = fill /\
  get (as_arr (@saturation_vapor_pressure_slope b64 (NumB M) t fill)) i = fill.
Proof.
  intros Ix. destruct (@svp_cells b64 (NumB M) t fill i) as (_ & -> & -> & ->). rewrite Ix. destruct (svp_nan M fill) as [A B]. auto.
Qed.
Lemma c147_warm M (t : inp b64) (fill : b64) i f : exp_ok M -> is (get (as_arr t) i) f -> Rabs f <= hi900 -> 32 < f ->
  exists v, is (get (as_arr (@saturation_vapor_pressure b64 (NumB M) t fill)) i) v /\ is (get (as_arr (@actual_saturation_vapor_pressure b64 (NumB M) t fill)) i) v /\ rn 0.6108 <= v.
Proof.
  intros He Ix H L. destruct (@svp_cells b64 (NumB M) t fill i) as (_ & -> & _ & ->). destruct (svp_warm M _ fill f He Ix H L) as (v & Iv & B). eauto.
Qed.
