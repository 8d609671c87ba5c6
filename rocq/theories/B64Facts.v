(** Facts about binary64 arithmetic, from Flocq's correctness theorems. *)
From Coq Require Import Reals ZArith Bool Lia Lra.
From Flocq Require Import Core BinarySingleNaN Relative Plus_error.
From Verif Require Import Num NumB64 SpecB64.
Local Open Scope R_scope.

Definition big : R := bpow radix2 1023.

Lemma is_fmt x r : is x r -> fmt r.
Proof. intros [_ <-]. apply (generic_format_B2R 53 1024). Qed.
Lemma fmt_rn x : fmt (rn x). Proof. apply generic_format_round; typeclasses eauto. Qed.
Lemma rn_fmt x : fmt x -> rn x = x. Proof. intros H. apply round_generic; [typeclasses eauto|exact H]. Qed.
Lemma rn_le x y : x <= y -> rn x <= rn y. Proof. apply round_le; typeclasses eauto. Qed.
Lemma fmt_0 : fmt 0. Proof. apply generic_format_0. Qed.
Lemma fmt_big : fmt big.
Proof. apply generic_format_bpow. unfold FLT_exp. cbn. lia. Qed.
Lemma fmt_bpow e : (-1074 <= e)%Z -> fmt (bpow radix2 e).
Proof. intros H. apply generic_format_bpow. unfold FLT_exp. lia. Qed.
Lemma fmt_opp x : fmt x -> fmt (- x). Proof. apply generic_format_opp. Qed.
Lemma rn_0 : rn 0 = 0. Proof. apply rn_fmt, fmt_0. Qed.
Lemma rn_ge_fmt x y : fmt x -> x <= y -> x <= rn y.
Proof. intros F H. rewrite <- (rn_fmt x F). apply rn_le, H. Qed.
Lemma rn_le_fmt x y : fmt y -> x <= y -> rn x <= y.
Proof. intros F H. rewrite <- (rn_fmt y F). apply rn_le, H. Qed.
Lemma rn_abs_le x y : fmt y -> Rabs x <= y -> Rabs (rn x) <= y.
Proof. intros F H. apply Rabs_le. apply Rabs_le_inv in H. split; [apply rn_ge_fmt; [apply fmt_opp; auto|lra]|apply rn_le_fmt; auto; lra]. Qed.
Lemma rn_opp x : rn (- x) = - rn x. Proof. apply round_NE_opp. Qed.
Lemma big_lt : big < bpow radix2 1024. Proof. apply bpow_lt. lia. Qed.

(** ** operations *)
Lemma rn_small x : Rabs x <= big -> Rlt_bool (Rabs (rn x)) (bpow radix2 1024) = true.
Proof. intros H. apply Rlt_bool_true. eapply Rle_lt_trans; [apply rn_abs_le; [apply fmt_big|exact H]|apply big_lt]. Qed.

Lemma add_is x y a b : is x a -> is y b -> Rabs (a + b) <= big -> is (Bplus mode_NE x y) (rn (a + b)).
Proof.
  intros [Fx <-] [Fy <-] H. pose proof (Bplus_correct 53 1024 _ _ mode_NE x y Fx Fy) as C.
  change (round radix2 (SpecFloat.fexp 53 1024) (round_mode mode_NE) (B2R x + B2R y)) with (rn (B2R x + B2R y)) in C.
  rewrite rn_small in C by exact H. destruct C as (C1 & C2 & _). split; assumption.
Qed.
Lemma sub_is x y a b : is x a -> is y b -> Rabs (a - b) <= big -> is (Bminus mode_NE x y) (rn (a - b)).
Proof.
  intros [Fx <-] [Fy <-] H. pose proof (Bminus_correct 53 1024 _ _ mode_NE x y Fx Fy) as C.
  change (round radix2 (SpecFloat.fexp 53 1024) (round_mode mode_NE) (B2R x - B2R y)) with (rn (B2R x - B2R y)) in C.
  rewrite rn_small in C by exact H. destruct C as (C1 & C2 & _). split; assumption.
Qed.
Lemma mul_is x y a b : is x a -> is y b -> Rabs (a * b) <= big -> is (Bmult mode_NE x y) (rn (a * b)).
Proof.
  intros [Fx <-] [Fy <-] H. pose proof (Bmult_correct 53 1024 _ _ mode_NE x y) as C.
  change (round radix2 (SpecFloat.fexp 53 1024) (round_mode mode_NE) (B2R x * B2R y)) with (rn (B2R x * B2R y)) in C.
  rewrite rn_small in C by exact H. destruct C as (C1 & C2 & _). split; [|assumption]. rewrite C2, Fx, Fy. reflexivity.
Qed.
Lemma div_is x y a b : is x a -> is y b -> b <> 0 -> Rabs (a / b) <= big -> is (Bdiv mode_NE x y) (rn (a / b)).
Proof.
  intros [Fx <-] [Fy <-] Hb H. pose proof (Bdiv_correct 53 1024 _ _ mode_NE x y Hb) as C.
  change (round radix2 (SpecFloat.fexp 53 1024) (round_mode mode_NE) (B2R x / B2R y)) with (rn (B2R x / B2R y)) in C.
  rewrite rn_small in C by exact H. destruct C as (C1 & C2 & _). split; [|assumption]. rewrite C2, Fx. reflexivity.
Qed.
Lemma ofZ_is z : Rabs (IZR z) <= big -> is (b64_ofZ z) (rn (IZR z)).
Proof.
  intros H. pose proof (binary_normalize_correct 53 1024 _ _ mode_NE z 0 false) as C. cbv zeta in C.
  assert (E : F2R (Float radix2 z 0) = IZR z) by (unfold F2R; cbn; lra). rewrite E in C.
  change (round radix2 (SpecFloat.fexp 53 1024) (round_mode mode_NE) (IZR z)) with (rn (IZR z)) in C.
  rewrite rn_small in C by exact H. destruct C as (C1 & C2 & _). split; assumption.
Qed.
Lemma fmt_Z z : (Z.abs z <= 2 ^ 53)%Z -> fmt (IZR z).
Proof.
  intros H. destruct (Z.eq_dec (Z.abs z) (2 ^ 53)) as [E|E].
  - assert (IZR z = bpow radix2 53 \/ IZR z = - bpow radix2 53) as [->| ->].
    { destruct (Z.abs_eq_or_opp z) as [Q|Q]; [left|right]; rewrite Q in E.
      - subst z. reflexivity.
      - replace z with (- (2 ^ 53))%Z by lia. rewrite opp_IZR. reflexivity. }
    + apply fmt_bpow. lia.
    + apply fmt_opp, fmt_bpow. lia.
  - replace (IZR z) with (F2R (Float radix2 z 0)) by (unfold F2R; cbn; lra).
    apply generic_format_FLT. exists (Float radix2 z 0); [reflexivity| |cbn; lia]. cbn. lia.
Qed.
Lemma IZR_big z : (Z.abs z <= 2 ^ 53)%Z -> Rabs (IZR z) <= big.
Proof. intros H. rewrite <- abs_IZR. apply Rle_trans with (IZR (2 ^ 53)); [apply IZR_le; auto|]. change (bpow radix2 53 <= big). apply bpow_le. lia. Qed.
Lemma ofZ_exact z : (Z.abs z <= 2 ^ 53)%Z -> is (b64_ofZ z) (IZR z).
Proof. intros H. rewrite <- (rn_fmt (IZR z)) by (apply fmt_Z; auto). apply ofZ_is, IZR_big, H. Qed.

(** ** comparisons *)
Lemma lt_is x y a b : is x a -> is y b -> Bltb x y = Rlt_bool a b.
Proof. intros [Fx <-] [Fy <-]. apply Bltb_correct; auto. Qed.
Lemma le_is x y a b : is x a -> is y b -> Bleb x y = Rle_bool a b.
Proof. intros [Fx <-] [Fy <-]. apply Bleb_correct; auto. Qed.
Lemma eq_is x y a b : is x a -> is y b -> Beqb x y = Req_bool a b.
Proof. intros [Fx <-] [Fy <-]. apply Beqb_correct; auto. Qed.
Lemma nan_is x a : is x a -> is_nan x = false.
Proof. intros [F _]. destruct x; auto; discriminate. Qed.

(** ** errors *)
Lemma ulp1_pos : 0 < ulp1. Proof. apply bpow_gt_0. Qed.
Lemma ulp1_val : ulp1 = / 2 * bpow radix2 (-53 + 1).
Proof. unfold ulp1. replace (-53)%Z with (-52 - 1)%Z at 1 by lia. unfold Z.sub. rewrite bpow_plus. change (bpow radix2 (-(1))) with (/2). cbn [Z.add]. rewrite Rmult_comm. reflexivity. Qed.
(** relative error of one rounding, outside the subnormal range *)
Lemma rn_rel x : bpow radix2 (-1022) <= Rabs x -> Rabs (rn x - x) <= ulp1 * Rabs x.
Proof.
  intros H. rewrite ulp1_val. apply (relative_error_N_FLT radix2 (-1074) 53 ltac:(lia) (fun z => negb (Z.even z))). exact H.
Qed.
Lemma rn_abs x : Rabs (rn x - x) <= ulp1 * Rabs x + bpow radix2 (-1075).
Proof.
  destruct (error_N_FLT radix2 (-1074) 53 ltac:(lia) (fun z => negb (Z.even z)) x) as (eps & eta & He & Hn & _ & E).
  unfold rn. rewrite E. replace (x * (1 + eps) + eta - x) with (x * eps + eta) by lra.
  eapply Rle_trans; [apply Rabs_triang|]. apply Rplus_le_compat.
  - rewrite Rabs_mult, Rmult_comm. apply Rmult_le_compat_r; [apply Rabs_pos|]. rewrite ulp1_val. exact He.
  - eapply Rle_trans; [exact Hn|]. replace (-1075)%Z with (-1074 - 1)%Z by lia. unfold Z.sub. rewrite bpow_plus. change (bpow radix2 (-(1))) with (/2). lra.
Qed.
(** sums and differences of binary64 numbers: no underflow *)
Lemma rn_add a b : fmt a -> fmt b -> Rabs (rn (a + b) - (a + b)) <= ulp1 * Rabs (a + b).
Proof.
  intros Fa Fb. destruct (FLT_plus_error_N_ex radix2 (-1074) 53 (fun z => negb (Z.even z)) a b Fa Fb) as (eps & He & E).
  unfold rn. rewrite E. replace ((a + b) * (1 + eps) - (a + b)) with ((a + b) * eps) by lra.
  rewrite Rabs_mult, Rmult_comm. apply Rmult_le_compat_r; [apply Rabs_pos|]. rewrite ulp1_val. eapply Rle_trans; [exact He|]. apply (u_rod1pu_ro_le_u_ro radix2 53).
Qed.
Lemma rn_sub a b : fmt a -> fmt b -> Rabs (rn (a - b) - (a - b)) <= ulp1 * Rabs (a - b).
Proof. intros Fa Fb. apply (rn_add a (- b)); auto. apply fmt_opp, Fb. Qed.
Lemma rn_sub_pos a b : fmt a -> fmt b -> b < a -> 0 < rn (a - b).
Proof.
  intros Fa Fb H. assert (0 <= rn (a - b)) by (rewrite <- rn_0; apply rn_le; lra).
  assert (rn (a - b) <> 0); [|lra]. apply (round_plus_neq_0 radix2 (FLT_exp (-1074) 53) ZnearestE a (- b) Fa (fmt_opp _ Fb)). lra.
Qed.
(** halving a number that is not tiny is exact *)
Lemma fmt_half x : fmt x -> bpow radix2 (-1021) <= Rabs x -> fmt (x / 2).
Proof.
  intros F H. unfold fmt in *. replace (x / 2) with (x * bpow radix2 (-1)) by (change (bpow radix2 (-1)) with (/2); lra).
  assert (Hx : x <> 0). { intros ->. rewrite Rabs_R0 in H. pose proof (bpow_gt_0 radix2 (-1021)). lra. }
  assert (M : (-1020 <= mag radix2 x)%Z). { apply mag_ge_bpow. exact H. }
  apply FLT_format_generic in F; [|typeclasses eauto]. destruct F as [[m e] E1 E2 E3]. cbn in E2, E3.
  assert (G : generic_format radix2 (FLX_exp 53) x). { apply generic_format_FLX. exists (Float radix2 m e); auto. }
  assert (G2 : generic_format radix2 (FLX_exp 53) (x * bpow radix2 (-1))).
  { apply FLX_format_generic in G; [|typeclasses eauto]. destruct G as [[m' e'] G1 G2]. apply generic_format_FLX. exists (Float radix2 m' (e' - 1)).
    - rewrite G1. unfold F2R. cbn [Fnum Fexp]. unfold Z.sub. rewrite bpow_plus. rewrite Rmult_assoc. reflexivity.
    - exact G2. }
  apply generic_format_FLT_FLX; [|exact G2]. rewrite Rabs_mult, (Rabs_pos_eq (bpow radix2 (-1))) by apply bpow_ge_0.
  replace (-1074 + 53 - 1)%Z with (-1021 + -1)%Z by lia. rewrite bpow_plus. apply Rmult_le_compat_r; [apply bpow_ge_0|exact H].
Qed.
