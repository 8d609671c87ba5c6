(** Facts about the meteorology formulas at one point. *)
From Coq Require Import Reals List Bool Arith ZArith Lra Lia String.
From Verif Require Import PyBase PyFacts Num NumFacts Arr Spec SpecMeteo Meteo ListFacts ExtrapFacts.
Import ListNotations.
Local Open Scope R_scope.

Ltac flnum := flsimpl; declit; repeat (rewrite fdiv_fin by lra).

(** ** dew point *)
Lemma dewtemp_cell_fin tk h : 0 < tk -> 0 < lhv_over_gc tk -> 0 < h ->
  lhv_over_gc tk - tk * ln (h * 0.01) <> 0 ->
  dewtemp_cell (Fin tk) (Fin h) = Fin (tk * lhv_over_gc tk / (lhv_over_gc tk - tk * ln (h * 0.01))).
Proof.
  intros Ht Hl Hh Hd. unfold dewtemp_cell. cbv zeta. flsimpl. declit.
  assert (Eg : fl_div (Fin (4615 / 10)) (Fin (1000 * (4186 / 1000))) = Fin (461.5 / (1000 * 4.186))).
  { rewrite fdiv_fin by lra. apply f_equal. lra. }
  rewrite Eg. rewrite fdiv_fin by lra.
  assert (El : (5973 / 10 - 57 / 100 * (tk - 273)) / (461.5 / (1000 * 4.186)) = lhv_over_gc tk).
  { unfold lhv_over_gc. lra. }
  rewrite El. rewrite fln_fin by lra. cbn [fl_mul fl_sub].
  replace (h * (1 / 100)) with (h * 0.01) by lra. rewrite fdiv_fin by auto. reflexivity.
Qed.
Lemma dewtemp_cell_zero tk : 0 < tk -> 0 < lhv_over_gc tk -> dewtemp_cell (Fin tk) (Fin 0) = Fin 0.
Proof.
  intros Ht Hl. unfold dewtemp_cell. cbv zeta. flsimpl. declit.
  rewrite (fdiv_fin (4615 / 10)) by lra. rewrite fdiv_fin by lra. cbn [fl_ln fl_mul]. 
  replace (0 * (1 / 100)) with 0 by lra. unfold fl_ln. destruct (Rlt_dec 0 0); [lra|]. destruct (Req_EM_T 0 0); [|lra].
  cbn [fl_mul]. unfold fl_infsgn. destruct (Req_EM_T tk 0); [lra|]. destruct (Rlt_dec 0 tk); [|lra]. reflexivity.
Qed.
Lemma dewtemp_cell_neg tk h : h < 0 -> dewtemp_cell tk (Fin h) = NaN.
Proof.
  intros Hh. unfold dewtemp_cell. cbv zeta. flsimpl. declit.
  assert (E : fl_ln (Fin (h * (1 / 100))) = NaN).
  { unfold fl_ln. destruct (Rlt_dec 0 (h * (1 / 100))); [lra|]. destruct (Req_EM_T (h * (1 / 100)) 0); [lra|]. reflexivity. }
  rewrite E. assert (M : forall x, fl_mul x NaN = NaN) by (destruct x; reflexivity).
  assert (S : forall x, fl_sub x NaN = NaN) by (destruct x; reflexivity).
  assert (D : forall x, fl_div x NaN = NaN) by (destruct x; reflexivity).
  rewrite M, S, D. reflexivity.
Qed.
Lemma lhv_pos tk : tk < 1320 -> 0 < lhv_over_gc tk.
Proof. intros H. unfold lhv_over_gc. apply Rmult_lt_0_compat; [lra|]. apply Rinv_0_lt_compat. lra. Qed.
Lemma ln_le_0 x : 0 < x <= 1 -> ln x <= 0.
Proof. intros [H [H1| ->]]; [|rewrite ln_1; lra]. rewrite <- ln_1. left. apply ln_increasing; lra. Qed.

Lemma dew_bounds tk h : 0 < tk < 1320 -> 0 < h <= 100 ->
  exists d, dewtemp_cell (Fin tk) (Fin h) = Fin d /\ 0 < d <= tk /\ (d = tk <-> h = 100) /\
    / d = / tk - ln (h * 0.01) / lhv_over_gc tk.
Proof.
  intros Ht Hh. pose proof (lhv_pos tk ltac:(lra)) as Hl. pose proof (ln_le_0 (h * 0.01) ltac:(lra)) as Hn.
  set (L := lhv_over_gc tk) in *. set (n := ln (h * 0.01)) in *.
  assert (Hd : 0 < L - tk * n) by nra.
  exists (tk * L / (L - tk * n)). split; [apply dewtemp_cell_fin; fold L n; lra|].
  assert (E : tk * L / (L - tk * n) = tk - tk * (tk * (- n)) / (L - tk * n)) by (field; lra).
  assert (Hq : 0 <= tk * (tk * - n) / (L - tk * n)).
  { apply Rmult_le_pos; [apply Rmult_le_pos; [lra|]; apply Rmult_le_pos; lra|]. left. apply Rinv_0_lt_compat. auto. }
  split; [split; [apply Rmult_lt_0_compat; [apply Rmult_lt_0_compat; lra|apply Rinv_0_lt_compat; auto]|lra]|]. split.
  - split; intros H.
    + assert (Hz : tk * (tk * - n) = 0).
      { assert (A : tk * (tk * - n) / (L - tk * n) = 0) by lra. apply Rmult_eq_reg_r with (/ (L - tk * n)).
        - unfold Rdiv in A. rewrite A. lra.
        - apply Rinv_neq_0_compat. lra. }
      assert (H0 : n = 0) by (apply Rmult_integral in Hz; destruct Hz as [?|Hz]; [lra|]; apply Rmult_integral in Hz; lra). unfold n in *. assert (h * 0.01 = 1); [|lra].
      rewrite <- (exp_ln (h * 0.01)) by lra. rewrite H0. apply exp_0.
    + assert (n = 0) by (unfold n; rewrite H; replace (100 * 0.01) with 1 by lra; apply ln_1). rewrite H0. field. lra.
  - field. repeat split; lra.
Qed.
Lemma dew_increasing tk h h' d d' : 0 < tk < 1320 -> 0 < h < h' -> h' <= 100 ->
  dewtemp_cell (Fin tk) (Fin h) = Fin d -> dewtemp_cell (Fin tk) (Fin h') = Fin d' -> d < d'.
Proof.
  intros Ht Hh Hh' E E'. pose proof (lhv_pos tk ltac:(lra)) as Hl.
  destruct (dew_bounds tk h Ht ltac:(lra)) as (e & E1 & B & _ & I).
  destruct (dew_bounds tk h' Ht ltac:(lra)) as (e' & E1' & B' & _ & I').
  assert (e = d) by congruence. assert (e' = d') by congruence. subst.
  assert (ln (h * 0.01) < ln (h' * 0.01)) by (apply ln_increasing; lra).
  assert (/ d' < / d).
  { rewrite I, I'. assert (ln (h * 0.01) / lhv_over_gc tk < ln (h' * 0.01) / lhv_over_gc tk); [|lra].
    apply Rmult_lt_compat_r; auto. apply Rinv_0_lt_compat. auto. }
  rewrite <- (Rinv_inv d), <- (Rinv_inv d'). apply Rinv_lt_contravar; auto.
  apply Rmult_lt_0_compat; apply Rinv_0_lt_compat; lra.
Qed.

(** ** heat index *)
Lemma nws_fin alt t h : nws_eqn (hi_coeffs alt) (Fin t) (Fin h) = Fin (regression alt t h).
Proof. destruct alt; unfold nws_eqn, hi_coeffs, regression; cbn [nth]; flsimpl; declit; f_equal; simpl; lra. Qed.
