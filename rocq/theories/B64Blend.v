(** The rounded interpolation formula. *)
From Coq Require Import Reals List Bool Arith ZArith Lra Lia.
From Flocq Require Import Core BinarySingleNaN Sterbenz.
From Verif Require Import NumB64 Spec SpecB64 B64Facts B64DeltaP.
Local Open Scope R_scope.

Section Blend.
  Variables a b pa pb x : R.
  Hypotheses (Fa : fmt a) (Fb : fmt b) (Fpa : fmt pa) (Fpb : fmt pb) (Fx : fmt x).
  Hypotheses (Hp : pa < pb) (Hx : pa <= x <= pb).
  Let D := rn (pb - pa).
  Let num := rn (x - pa).
  Let w := rn (num / D).
  Let e := rn (b - a).
  Let t := rn (e * w).

  Lemma D_pos : 0 < D. Proof. apply rn_sub_pos; auto. Qed.
  Lemma num_range : 0 <= num <= D.
  Proof. split; [apply rn_ge_fmt; [apply fmt_0|lra]|apply rn_le; lra]. Qed.
  Lemma quot_range : 0 <= num / D <= 1.
  Proof.
    pose proof D_pos. pose proof num_range. split; [apply Rmult_le_pos; [lra|apply Rlt_le, Rinv_0_lt_compat; lra]|].
    apply (Rmult_le_reg_r D); auto. unfold Rdiv. rewrite Rmult_assoc, Rinv_l by lra. lra.
  Qed.
  Lemma fmt_1 : fmt 1. Proof. apply (fmt_Z 1). apply Z.leb_le. reflexivity. Qed.
  Lemma w_range : 0 <= w <= 1.
  Proof. pose proof quot_range. split; [apply rn_ge_fmt; [apply fmt_0|lra]|apply rn_le_fmt; [apply fmt_1|lra]]. Qed.
  Lemma t_range : (0 <= t <= e \/ e <= t <= 0).
  Proof.
    pose proof w_range as Hw. assert (Fe : fmt e) by apply fmt_rn. destruct (Rle_lt_dec 0 e) as [H|H]; [left|right].
    - split; [apply rn_ge_fmt; [apply fmt_0|apply Rmult_le_pos; lra]|apply rn_le_fmt; auto]. rewrite <- (Rmult_1_r e) at 2. apply Rmult_le_compat_l; lra.
    - assert (e <= e * w <= 0). { pose proof (Rmult_le_compat_l (- e) w 1 ltac:(lra) ltac:(lra)). pose proof (Rmult_le_pos (- e) w ltac:(lra) ltac:(lra)). lra. }
      split; [apply rn_ge_fmt; auto; lra|apply rn_le_fmt; [apply fmt_0|lra]].
  Qed.
  Lemma blend_between : Rmin a (rn (a + e)) <= rblend a b pa pb x <= Rmax a (rn (a + e)).
  Proof.
    unfold rblend. fold num. fold D. fold w. fold e. fold t. pose proof t_range as Ht.
    assert (A : rn (a + 0) = a) by (rewrite Rplus_0_r; apply rn_fmt; auto).
    destruct Ht as [Ht|Ht].
    - pose proof (rn_le (a + 0) (a + t) ltac:(lra)) as Q. rewrite A in Q. pose proof (rn_le (a + t) (a + e) ltac:(lra)).
      split; [apply Rle_trans with a; auto; apply Rmin_l|apply Rle_trans with (rn (a + e)); auto; apply Rmax_r].
    - pose proof (rn_le (a + t) (a + 0) ltac:(lra)) as Q. rewrite A in Q. pose proof (rn_le (a + e) (a + t) ltac:(lra)).
      split; [apply Rle_trans with (rn (a + e)); auto; apply Rmin_r|apply Rle_trans with a; auto; apply Rmax_l].
  Qed.
  Lemma blend_low : x = pa -> rblend a b pa pb x = a.
  Proof.
    intros ->. unfold rblend. replace (pa - pa) with 0 by lra. rewrite rn_0. unfold Rdiv. rewrite Rmult_0_l, rn_0, Rmult_0_r, rn_0, Rplus_0_r. apply rn_fmt. auto.
  Qed.
  Lemma blend_high : x = pb -> rblend a b pa pb x = rn (a + e).
  Proof.
    intros ->. unfold rblend. fold D. fold e. unfold Rdiv. rewrite Rinv_r by (pose proof D_pos; lra). rewrite (rn_fmt 1 fmt_1), Rmult_1_r.
    rewrite (rn_fmt e) by apply fmt_rn. reflexivity.
  Qed.
  Lemma e_err : Rabs (e - (b - a)) <= ulp1 * Rabs (b - a). Proof. apply rn_sub; auto. Qed.
  Lemma top_err : Rabs (rn (a + e) - b) <= 3 * ulp1 * (Rabs a + Rabs b).
  Proof.
    pose proof e_err as E1. pose proof (rn_add a e Fa (fmt_rn _)) as E2. pose proof ulp1_pos. pose proof ulp1_small.
    assert (T : Rabs (b - a) <= Rabs a + Rabs b) by (unfold Rabs; repeat destruct Rcase_abs; lra).
    assert (T2 : Rabs (a + e) <= Rabs b + Rabs (e - (b - a))) by (replace (a + e) with (b + (e - (b - a))) by lra; apply Rabs_triang).
    assert (T3 : Rabs (rn (a + e) - b) <= Rabs (rn (a + e) - (a + e)) + Rabs (e - (b - a))).
    { replace (rn (a + e) - b) with ((rn (a + e) - (a + e)) + (e - (b - a))) by lra. apply Rabs_triang. }
    pose proof (Rabs_pos a). pose proof (Rabs_pos b). pose proof (Rabs_pos (b - a)).
    set (A := Rabs a) in *. set (B := Rabs b) in *. set (C := Rabs (b - a)) in *.
    assert (E1' : Rabs (e - (b - a)) <= ulp1 * (A + B)) by nra.
    assert (Rabs (a + e) <= 2 * (A + B)) by nra. nra.
  Qed.
  Lemma sub_exact : within2 a b -> e = b - a.
  Proof.
    intros [H|H]; unfold e; apply rn_fmt; unfold fmt.
    - apply sterbenz; try typeclasses eauto; auto; lra.
    - replace (b - a) with (- ((- b) - (- a))) by lra. apply fmt_opp. apply sterbenz; try typeclasses eauto; try (apply fmt_opp; assumption); lra.
  Qed.
  Lemma top_exact : within2 a b -> rn (a + e) = b.
  Proof. intros H. rewrite (sub_exact H). replace (a + (b - a)) with b by lra. apply rn_fmt. auto. Qed.

  Lemma tiny_ulp : tiny <= ulp1 / 16.
  Proof. unfold tiny, ulp1. replace (bpow radix2 (-53) / 16) with (bpow radix2 (-57)). apply bpow_le; lia. replace (-57)%Z with (-53 + -4)%Z by lia. rewrite bpow_plus. cbn [bpow radix_val radix2 Z.pow_pos Pos.iter]. cbv. lra. Qed.
  Lemma tiny_pos : 0 < tiny. Proof. apply bpow_gt_0. Qed.
  Lemma w_err : Rabs (w - (x - pa) / (pb - pa)) <= 4 * ulp1.
  Proof.
    pose proof ulp1_pos as U. pose proof ulp1_small as U2. pose proof tiny_ulp as Ti.
    pose proof (rn_sub x pa Fx Fpa) as N1. pose proof (rn_sub pb pa Fpb Fpa) as N2. fold num in N1. fold D in N2.
    rewrite (Rabs_pos_eq (x - pa)) in N1 by lra. rewrite (Rabs_pos_eq (pb - pa)) in N2 by lra.
    pose proof quot_range as Q. pose proof D_pos as HD.
    pose proof (rn_abs (num / D)) as N3. fold w in N3. fold tiny in N3. rewrite (Rabs_pos_eq (num / D)) in N3 by lra.
    set (W := (x - pa) / (pb - pa)). assert (HW : x - pa = W * (pb - pa)) by (unfold W; field; lra).
    assert (W01 : 0 <= W <= 1).
    { unfold W. split; [apply Rmult_le_pos; [lra|apply Rlt_le, Rinv_0_lt_compat; lra]|]. fold W. apply (Rmult_le_reg_r (pb - pa)); [lra|]. rewrite <- HW. lra. }
    assert (Q2 : Rabs (num / D - W) <= 5 / 2 * ulp1).
    { replace (num / D - W) with ((num - W * D) / D) by (field; lra). unfold Rdiv. rewrite Rabs_mult, (Rabs_pos_eq (/ D)) by (apply Rlt_le, Rinv_0_lt_compat; auto).
      apply (Rmult_le_reg_r D); auto. rewrite Rmult_assoc, Rinv_l, Rmult_1_r by lra.
      apply Rabs_le_inv in N1. apply Rabs_le_inv in N2. apply Rabs_le.
      set (d := pb - pa) in *. assert (0 < d) by (unfold d; lra). rewrite HW in N1. fold d in N1.
      assert (Wd : 0 <= W * d <= d) by nra. assert (d * (1 - ulp1) <= D) by nra.
      assert (W * (d - ulp1 * d) <= W * D <= W * (d + ulp1 * d)) by (split; apply Rmult_le_compat_l; lra).
      assert (ulp1 * (W * d) <= ulp1 * d) by (apply Rmult_le_compat_l; lra).
      assert (ulp1 * D >= ulp1 * (d * (1 - ulp1))) by nra.
      assert (2 * ulp1 * d <= 5 / 2 * ulp1 * D) by nra.
      split; nra. }
    replace (w - W) with ((w - num / D) + (num / D - W)) by lra. eapply Rle_trans; [apply Rabs_triang|]. nra.
  Qed.
  Lemma blend_err : Rabs (rblend a b pa pb x - (a + (b - a) * ((x - pa) / (pb - pa)))) <= 10 * ulp1 * (Rabs a + Rabs b) + tiny.
  Proof.
    unfold rblend. fold num. fold D. fold w. fold e. fold t.
    pose proof ulp1_pos as U. pose proof ulp1_small as U2. pose proof e_err as E1. pose proof w_err as E2. pose proof w_range as Hw.
    pose proof (rn_abs (e * w)) as E3. fold t in E3. fold tiny in E3. pose proof (rn_add a t Fa (fmt_rn _)) as E4.
    pose proof t_range as Ht. set (W := (x - pa) / (pb - pa)) in *.
    assert (T : Rabs (b - a) <= Rabs a + Rabs b) by (unfold Rabs; repeat destruct Rcase_abs; lra).
    set (C := Rabs (b - a)) in *. set (M := Rabs a + Rabs b) in *. assert (0 <= C) by apply Rabs_pos.
    assert (Ee : Rabs e <= C + ulp1 * C). { replace e with ((b - a) + (e - (b - a))) by lra. eapply Rle_trans; [apply Rabs_triang|]. fold C. lra. }
    assert (Et : Rabs t <= Rabs e) by (destruct Ht; unfold Rabs; repeat destruct Rcase_abs; lra).
    assert (Ew : Rabs (e * w) <= Rabs e). { rewrite Rabs_mult, (Rabs_pos_eq w) by lra. pose proof (Rabs_pos e). nra. }
    assert (Et2 : Rabs (a + t) <= M + 2 * C). { eapply Rle_trans; [apply Rabs_triang|]. unfold M. pose proof (Rabs_pos b). nra. }
    assert (K1 : Rabs (e * w - (b - a) * W) <= 5 * ulp1 * C).
    { replace (e * w - (b - a) * W) with ((e - (b - a)) * w + (b - a) * (w - W)) by ring. eapply Rle_trans; [apply Rabs_triang|].
      rewrite !Rabs_mult, (Rabs_pos_eq w) by lra. fold C. pose proof (Rabs_pos (e - (b - a))). pose proof (Rabs_pos (w - W)).
      assert (Rabs (e - (b - a)) * w <= ulp1 * C) by nra. assert (C * Rabs (w - W) <= C * (4 * ulp1)) by nra. nra. }
    replace (rn (a + t) - (a + (b - a) * W)) with ((rn (a + t) - (a + t)) + ((t - e * w) + (e * w - (b - a) * W))) by ring.
    eapply Rle_trans; [apply Rabs_triang|]. eapply Rle_trans; [apply Rplus_le_compat_l, Rabs_triang|].
    assert (Rabs (t - e * w) <= ulp1 * (C + ulp1 * C) + tiny) by nra.
    assert (Rabs (rn (a + t) - (a + t)) <= ulp1 * (M + 2 * C)) by nra.
    assert (UC : 0 <= ulp1 * C) by (apply Rmult_le_pos; lra).
    assert (ulp1 * C <= ulp1 * M) by (apply Rmult_le_compat_l; lra).
    assert (ulp1 * (ulp1 * C) <= / 1024 * (ulp1 * C)) by (apply Rmult_le_compat_r; lra). lra.
  Qed.
  Lemma blend_good r : r = rblend a b pa pb x -> good_value a b pa pb x r.
  Proof.
    intros ->. split; auto. split; [apply blend_err|]. split; [|apply blend_low]. exists (rn (a + e)).
    split; [apply top_err|]. split; [apply top_exact|]. split; [apply blend_between|apply blend_high].
  Qed.
End Blend.

(** values between the same two levels keep the order of the levels *)
Lemma blend_mono a b pa pb x y : fmt pa -> fmt pb -> pa < pb -> x <= y ->
  (a <= b -> rblend a b pa pb x <= rblend a b pa pb y) /\ (b <= a -> rblend a b pa pb y <= rblend a b pa pb x).
Proof.
  intros Fa Fb Hp Hxy. pose proof (rn_sub_pos pb pa Fb Fa Hp) as HD. unfold rblend.
  assert (Hw : rn (rn (x - pa) / rn (pb - pa)) <= rn (rn (y - pa) / rn (pb - pa))).
  { apply rn_le. apply Rmult_le_compat_r; [apply Rlt_le, Rinv_0_lt_compat; auto|]. apply rn_le. lra. }
  split; intros Hab; apply rn_le, Rplus_le_compat_l, rn_le.
  - apply Rmult_le_compat_l; auto. apply rn_ge_fmt; [apply fmt_0|lra].
  - assert (rn (b - a) <= 0) by (apply rn_le_fmt; [apply fmt_0|lra]). nra.
Qed.
