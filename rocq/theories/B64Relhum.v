(** The vapour pressure table of relhum in binary64. *)
From Coq Require Import Reals List Bool Arith ZArith Lra Lia String.
From Flocq Require Import Core BinarySingleNaN Sterbenz.
From Verif Require Import PyBase PyFacts Num NumFacts NumB64 Arr Spec SpecMeteo SpecB64 B64Facts B64DeltaP B64Blend Meteo RelhumMixFacts MeteoApi2 ListFacts ArrFacts XrFacts CellFacts RelhumFacts.
Import ListNotations.
Local Open Scope R_scope.

(** ** multiples of a power of two *)
Lemma fmt_mult x e : fmt x -> (-1074 <= e)%Z -> bpow radix2 (e + 52) <= Rabs x -> exists k, x = IZR k * bpow radix2 e.
Proof.
  intros Fx He Hx. assert (Hc : (e <= cexp radix2 (FLT_exp (-1074) 53) x)%Z).
  { unfold cexp, FLT_exp. assert (e + 53 <= mag radix2 x)%Z; [|lia]. apply mag_ge_bpow. replace (e + 53 - 1)%Z with (e + 52)%Z by lia. exact Hx. }
  set (c := cexp radix2 (FLT_exp (-1074) 53) x) in *.
  exists (Ztrunc (scaled_mantissa radix2 (FLT_exp (-1074) 53) x) * 2 ^ (c - e))%Z. unfold fmt, generic_format in Fx. rewrite Fx at 1. unfold F2R. cbn [Fnum Fexp]. fold c.
  rewrite mult_IZR. change (2 ^ (c - e))%Z with (Zpower radix2 (c - e)). rewrite (IZR_Zpower radix2 (c - e)) by lia. rewrite Rmult_assoc. f_equal. rewrite <- bpow_plus.
  f_equal. lia.
Qed.
Lemma mult_fmt k e : (-1074 <= e)%Z -> (Z.abs k <= 2 ^ 53)%Z -> fmt (IZR k * bpow radix2 e).
Proof.
  intros He Hk. destruct (Z.eq_dec (Z.abs k) (2 ^ 53)) as [E|E].
  - assert (k = 2 ^ 53 \/ k = - 2 ^ 53)%Z as [->| ->] by lia.
    + change (fmt (bpow radix2 53 * bpow radix2 e)). rewrite <- bpow_plus. apply fmt_bpow. lia.
    + rewrite opp_IZR, <- Ropp_mult_distr_l. apply fmt_opp. change (fmt (bpow radix2 53 * bpow radix2 e)). rewrite <- bpow_plus. apply fmt_bpow. lia.
  - apply generic_format_FLT. exists (Float radix2 k e); [reflexivity| |exact He]. cbn [Fnum]. change (radix2 ^ 53)%Z with (2 ^ 53)%Z. lia.
Qed.

(** ** the ends of the table *)
Definition zm : R := IZR 6092525870902149 * bpow radix2 (-45).
Definition zx : R := IZR 6599884516423107 * bpow radix2 (-44).
Lemma zx45 : zx = IZR 13199769032846214 * bpow radix2 (-45).
Proof. unfold zx. change (-44)%Z with (1 + -45)%Z. rewrite bpow_plus. change (bpow radix2 1) with 2. lra. Qed.
Lemma p45 : bpow radix2 (-45) = / 35184372088832. Proof. reflexivity. Qed.
Lemma p44 : bpow radix2 (-44) = / 17592186044416. Proof. reflexivity. Qed.
Lemma zm_val : Rabs (zm - 173.16) <= bpow radix2 (-46).
Proof. unfold zm. rewrite p45. change (bpow radix2 (-46)) with (/ 70368744177664). apply Rabs_le. split; lra. Qed.
Lemma zx_val : Rabs (zx - 375.16) <= bpow radix2 (-45).
Proof. unfold zx. rewrite p44, p45. apply Rabs_le. split; lra. Qed.

(** ** the weights of the two table entries *)
Section Weights.
  Variable t : R.
  Hypotheses (Ft : fmt t) (Ht : zm <= t <= zx).
  Lemma zm_lo : 173 <= zm <= 174. Proof. unfold zm. rewrite p45. split; lra. Qed.
  Lemma zx_hi : 375 <= zx <= 376. Proof. unfold zx. rewrite p44. split; lra. Qed.
  Lemma t_pos : 173 <= t <= 376. Proof. pose proof zm_lo. pose proof zx_hi. lra. Qed.
  Lemma t_mult : exists k, t = IZR k * bpow radix2 (-45).
  Proof. apply fmt_mult; auto; [lia|]. pose proof t_pos. rewrite Rabs_pos_eq by lra. change (bpow radix2 (-45 + 52)) with 128. lra. Qed.
  Lemma t_mult' : 256 <= t -> exists k, t = IZR k * bpow radix2 (-44).
  Proof. intros H. apply fmt_mult; auto; [lia|]. rewrite Rabs_pos_eq by lra. change (bpow radix2 (-44 + 52)) with 256. lra. Qed.
  Lemma small45 k : 0 <= IZR k * bpow radix2 (-45) <= 256 -> fmt (IZR k * bpow radix2 (-45)).
  Proof.
    intros H. apply mult_fmt; [lia|]. rewrite p45 in H. assert (B : 0 <= IZR k <= IZR (2 ^ 53)) by (change (IZR (2 ^ 53)) with 9007199254740992; lra).
    destruct B as [B1 B2]. apply le_IZR in B1, B2. rewrite Z.abs_eq; auto.
  Qed.
  (** the distance from the coldest entry is exact *)
  Lemma diff_exact : rn (t - zm) = t - zm.
  Proof.
    apply rn_fmt. destruct t_mult as (k & E). rewrite E. unfold zm. rewrite <- Rmult_minus_distr_r, <- minus_IZR. apply small45.
    rewrite minus_IZR, Rmult_minus_distr_r, <- E. fold zm. pose proof zm_lo. pose proof zx_hi. lra.
  Qed.
  Variable k : nat.
  Hypothesis Hk : INR k <= t - zm < INR k + 1.
  Let T2 := rn (zm + INR k).
  Let T3 := rn (T2 + 1).
  Lemma k_range : (k <= 202)%nat.
  Proof.
    assert (k < 203)%nat; [|lia]. apply INR_lt. rewrite (INR_IZR_INZ 203). change (IZR (Z.of_nat 203)) with 203.
    assert (zx - zm < 203) by (unfold zx, zm; rewrite p44, p45; lra). lra.
  Qed.
  Lemma T2_le : T2 <= t. Proof. apply rn_le_fmt; auto. lra. Qed.
  Lemma ulp_512 x : Rabs x < 512 -> Rabs (rn x - x) <= bpow radix2 (-45).
  Proof.
    intros H. destruct (Req_dec x 0) as [->|Hx]; [rewrite rn_0, Rminus_0_r, Rabs_R0; apply bpow_ge_0|].
    unfold rn. eapply Rle_trans; [apply error_le_half_ulp; typeclasses eauto|].
    change (-45)%Z with (-1 + -44)%Z. rewrite bpow_plus. change (bpow radix2 (-1)) with (/ 2). apply Rmult_le_compat_l; [lra|].
    rewrite ulp_neq_0 by auto. apply bpow_le. unfold cexp, FLT_exp. assert (mag radix2 x <= 9)%Z; [|lia]. apply mag_le_bpow; auto.
  Qed.
  Lemma INR_k : 0 <= INR k <= 202.
  Proof. split; [apply pos_INR|]. pose proof k_range as H. apply le_INR in H. rewrite (INR_IZR_INZ 202) in H. exact H. Qed.
  Lemma T2_err : Rabs (T2 - (zm + INR k)) <= bpow radix2 (-45).
  Proof. apply ulp_512. pose proof INR_k. pose proof zm_lo. rewrite Rabs_pos_eq by lra. lra. Qed.
  Lemma T2_range : 172 <= T2 <= 376.
  Proof. pose proof T2_err as H. apply Rabs_le_inv in H. pose proof INR_k. pose proof zm_lo. pose proof t_pos. pose proof T2_le. rewrite p45 in H. lra. Qed.
  Lemma T3_err : Rabs (T3 - (T2 + 1)) <= bpow radix2 (-45).
  Proof. apply ulp_512. pose proof T2_range. rewrite Rabs_pos_eq by lra. lra. Qed.
  Lemma T3_ge : t <= T3.
  Proof.
    apply rn_ge_fmt; auto. destruct (Rle_lt_dec (zm + INR k) 256) as [H|H].
    - assert (E : T2 = zm + INR k); [|rewrite E; lra]. apply rn_fmt. unfold zm in *. rewrite INR_IZR_INZ in *.
      assert (E : IZR 6092525870902149 * bpow radix2 (-45) + IZR (Z.of_nat k) = IZR (6092525870902149 + Z.of_nat k * 2 ^ 45) * bpow radix2 (-45)).
      { rewrite plus_IZR, mult_IZR. change (IZR (2 ^ 45)) with 35184372088832. rewrite p45. field. }
      rewrite E in *. apply small45. split; auto. rewrite <- E. pose proof zm_lo as Q. unfold zm in Q. assert (0 <= IZR (Z.of_nat k)) by (apply IZR_le; lia). lra.
    - assert (Hb : 256 <= t) by lra. destruct (t_mult' Hb) as (a & Ea).
      assert (G2 : 256 <= T2) by (apply rn_ge_fmt; [apply (fmt_Z 256); apply Z.leb_le; reflexivity|lra]).
      assert (F2 : fmt T2) by apply fmt_rn.
      destruct (fmt_mult T2 (-44) F2 ltac:(lia)) as (b & Eb).
      { rewrite Rabs_pos_eq by lra. change (bpow radix2 (-44 + 52)) with 256. exact G2. }
      pose proof T2_err as Q. apply Rabs_le_inv in Q. rewrite p45 in Q.
      assert (L : t < T2 + 1 + / 35184372088832) by lra. rewrite Ea, Eb, p44 in *.
      assert (L2 : IZR a < IZR (b + 2 ^ 44 + 1)) by (rewrite !plus_IZR; change (IZR (2 ^ 44)) with 17592186044416; lra).
      apply lt_IZR in L2. assert (L3 : (a <= b + 2 ^ 44)%Z) by lia. apply IZR_le in L3. rewrite plus_IZR in L3. change (IZR (2 ^ 44)) with 17592186044416 in L3. lra.
  Qed.
  Lemma w0_exact : rn (T3 - t) = T3 - t.
  Proof.
    apply rn_fmt. apply sterbenz; try typeclasses eauto; auto; [apply fmt_rn|]. pose proof T3_ge. pose proof T3_err as Q. apply Rabs_le_inv in Q. rewrite p45 in Q.
    pose proof T2_le. pose proof t_pos. lra.
  Qed.
  Lemma w1_exact : rn (t - T2) = t - T2.
  Proof. apply rn_fmt. apply sterbenz; try typeclasses eauto; auto; [apply fmt_rn|]. pose proof T2_le. pose proof T2_range. pose proof t_pos. pose proof T3_ge. pose proof T3_err as Q. apply Rabs_le_inv in Q. rewrite p45 in Q. lra. Qed.
End Weights.

Lemma tiny1024 : tiny <= ulp1 / 1024.
Proof. replace (ulp1 / 1024) with (bpow radix2 (-63)); [apply bpow_le; lia|]. unfold ulp1. change (-63)%Z with (-53 + -10)%Z. rewrite bpow_plus. reflexivity. Qed.
Lemma u45 : bpow radix2 (-45) = 256 * ulp1.
Proof. unfold ulp1. change (-45)%Z with (8 + -53)%Z. rewrite bpow_plus. reflexivity. Qed.
Lemma u_small : ulp1 <= / 1000000.
Proof. unfold ulp1. apply Rle_trans with (bpow radix2 (-20)); [apply bpow_le; lia|]. change (bpow radix2 (-20)) with (/ 1048576). lra. Qed.
Lemma u_pos : 0 < ulp1. Proof. apply ulp1_pos. Qed.

(** the table entries *)
Lemma tab_ratio k : (k < 203)%nat -> tab k <= tab (S k) <= 5 / 4 * tab k.
Proof.
  intros Hk. split; [apply tab_steps; auto|]. rewrite !tab_z by lia.
  assert (G : forallb (fun k => (4 * nth (S k) es_table_z 0 <=? 5 * nth k es_table_z 0)%Z) (seq 0 203) = true) by (vm_compute; reflexivity).
  rewrite forallb_forall in G. specialize (G k ltac:(apply in_seq; lia)). apply Z.leb_le, IZR_le in G. rewrite !mult_IZR in G. lra.
Qed.
Lemma tab_lo k : (k < 204)%nat -> 1 / 100 <= tab k <= 1100000.
Proof.
  intros Hk. pose proof (mono_nat tab 203 (fun j H => proj1 (tab_steps j H)) 0 k ltac:(lia)) as M1.
  pose proof (mono_nat tab 203 (fun j H => proj1 (tab_steps j H)) k 203 ltac:(lia)) as M2.
  assert (1 / 100 <= tab 0) by (unfold tab; cbn; lra). assert (tab 203 <= 1100000) by (rewrite tab_z by lia; cbn [nth es_table_z]; lra). lra.
Qed.
Lemma normal_lo x : / 1000000 <= Rabs x -> bpow radix2 (-1022) <= Rabs x.
Proof. intros H. eapply Rle_trans; [|exact H]. apply Rle_trans with (bpow radix2 (-20)); [apply bpow_le; lia|]. change (bpow radix2 (-20)) with (/ 1048576). lra. Qed.

Section Es.
  Variables (t : R) (k : nat).
  Hypotheses (Ft : fmt t) (Ht : zm <= t <= zx) (Hk : INR k <= t - zm < INR k + 1).
  Let T2 := rn (zm + INR k).
  Let T3 := rn (T2 + 1).
  Let L := rn (tab k).
  Let H := rn (tab (S k)).
  Let w0 := rn (T3 - t).
  Let w1 := rn (t - T2).
  Let c01 := rn (1 / 10).
  (** the code's value, every operation rounded *)
  Definition res_e1 := rn (rn (w0 * L) + rn (w1 * H)).
  Definition es_r := rn (res_e1 * c01).
  Let P := pl tab (t - zm).
  Let Sv := tab (S k).
  Lemma k202 : (k <= 202)%nat. Proof. eapply k_range; eauto. Qed.
  Lemma w0_range : w0 = T3 - t /\ 0 <= w0 <= 2.
  Proof.
    assert (E : w0 = T3 - t) by (eapply w0_exact; eauto). pose proof (T3_ge t Ft Ht k Hk : t <= T3). pose proof (T3_err t Ft Ht k Hk : Rabs (T3 - (T2 + 1)) <= _) as Q. pose proof (T2_le t Ft k Hk : T2 <= t).
    apply Rabs_le_inv in Q. rewrite p45 in Q. split; auto. lra.
  Qed.
  Lemma w1_range : w1 = t - T2 /\ 0 <= w1 <= 2.
  Proof.
    assert (E : w1 = t - T2) by (eapply w1_exact; eauto). pose proof (T3_ge t Ft Ht k Hk : t <= T3). pose proof (T3_err t Ft Ht k Hk : Rabs (T3 - (T2 + 1)) <= _) as Q. pose proof (T2_le t Ft k Hk : T2 <= t).
    apply Rabs_le_inv in Q. rewrite p45 in Q. split; auto. lra.
  Qed.
  Lemma w0_err : Rabs (w0 - (INR k + 1 - (t - zm))) <= 512 * ulp1.
  Proof.
    destruct w0_range as [E _]. pose proof (T3_err t Ft Ht k Hk : Rabs (T3 - (T2 + 1)) <= _) as Q. pose proof (T2_err t Ht k Hk : Rabs (T2 - (zm + INR k)) <= _) as Q2. apply Rabs_le_inv in Q, Q2. rewrite u45 in Q, Q2.
    apply Rabs_le. lra.
  Qed.
  Lemma w1_err : Rabs (w1 - (t - zm - INR k)) <= 256 * ulp1.
  Proof.
    destruct w1_range as [E _]. pose proof (T2_err t Ht k Hk : Rabs (T2 - (zm + INR k)) <= _) as Q2. apply Rabs_le_inv in Q2. rewrite u45 in Q2. apply Rabs_le. lra.
  Qed.
  Lemma S_lo : 1 / 100 <= Sv <= 1100000. Proof. apply tab_lo. pose proof k202. lia. Qed.
  Lemma tk_lo : 4 / 5 * Sv <= tab k <= Sv. Proof. pose proof (tab_ratio k ltac:(pose proof k202; lia)). unfold Sv. lra. Qed.
  Lemma L_err : Rabs (L - tab k) <= ulp1 * Sv.
  Proof.
    pose proof tk_lo. pose proof S_lo. pose proof u_pos. eapply Rle_trans; [apply rn_rel; apply normal_lo; rewrite Rabs_pos_eq; lra|].
    rewrite Rabs_pos_eq by lra. apply Rmult_le_compat_l; lra.
  Qed.
  Lemma H_err : Rabs (H - Sv) <= ulp1 * Sv.
  Proof. pose proof S_lo. eapply Rle_trans; [apply rn_rel; apply normal_lo; fold Sv; rewrite Rabs_pos_eq; lra|]. fold Sv. rewrite Rabs_pos_eq by lra. lra. Qed.
  Lemma P_val : P = (INR k + 1 - (t - zm)) * tab k + (t - zm - INR k) * Sv.
  Proof. unfold P. rewrite (pl_at tab _ k Hk). reflexivity. Qed.
  Lemma P_range : 4 / 5 * Sv <= P <= Sv.
  Proof. rewrite P_val. pose proof tk_lo. split; nra. Qed.
  (** an error bound in units of ulp1 * Sv *)
  Lemma e1_err : Rabs (res_e1 - P) <= 800 * (ulp1 * Sv).
  Proof.
    destruct w0_range as [_ W0]. destruct w1_range as [_ W1]. pose proof w0_err as E0. pose proof w1_err as E1. pose proof L_err as EL. pose proof H_err as EH.
    pose proof S_lo as HS. pose proof tk_lo as HT. pose proof u_pos as U. pose proof u_small as U2. pose proof tiny1024 as Ti.
    set (U1 := ulp1 * Sv) in *. assert (HU : 0 < U1 <= Sv / 1000000) by (unfold U1; split; [nra|nra]).
    assert (Ti2 : tiny <= U1) by (unfold U1; nra).
    set (i0 := INR k + 1 - (t - zm)) in *. set (i1 := t - zm - INR k) in *. assert (I0 : 0 <= i0 <= 1) by (unfold i0; lra). assert (I1 : 0 <= i1 <= 1) by (unfold i1; lra).
    assert (BL : 0 <= L <= 2 * Sv) by (apply Rabs_le_inv in EL; lra). assert (BH : 0 <= H <= 2 * Sv) by (apply Rabs_le_inv in EH; lra).
    assert (A0 : Rabs (w0 * L - i0 * tab k) <= 514 * U1).
    { replace (w0 * L - i0 * tab k) with ((w0 - i0) * L + i0 * (L - tab k)) by ring. eapply Rle_trans; [apply Rabs_triang|]. rewrite !Rabs_mult.
      rewrite (Rabs_pos_eq L), (Rabs_pos_eq i0) by lra. assert (L <= Sv + U1) by (apply Rabs_le_inv in EL; lra).
      assert (Rabs (w0 - i0) * L <= 512 * ulp1 * (Sv + U1)) by (apply Rmult_le_compat; try apply Rabs_pos; lra).
      assert (i0 * Rabs (L - tab k) <= 1 * U1) by (apply Rmult_le_compat; try apply Rabs_pos; lra).
      assert (ulp1 * U1 <= U1 / 1000000) by nra. unfold U1 in *. lra. }
    assert (A1 : Rabs (w1 * H - i1 * Sv) <= 258 * U1).
    { replace (w1 * H - i1 * Sv) with ((w1 - i1) * H + i1 * (H - Sv)) by ring. eapply Rle_trans; [apply Rabs_triang|]. rewrite !Rabs_mult.
      rewrite (Rabs_pos_eq H), (Rabs_pos_eq i1) by lra. assert (H <= Sv + U1) by (apply Rabs_le_inv in EH; lra).
      assert (Rabs (w1 - i1) * H <= 256 * ulp1 * (Sv + U1)) by (apply Rmult_le_compat; try apply Rabs_pos; lra).
      assert (i1 * Rabs (H - Sv) <= 1 * U1) by (apply Rmult_le_compat; try apply Rabs_pos; lra).
      assert (ulp1 * U1 <= U1 / 1000000) by nra. unfold U1 in *. lra. }
    assert (B0 : 0 <= w0 * L <= 4 * Sv) by nra. assert (B1 : 0 <= w1 * H <= 4 * Sv) by nra.
    pose proof (rn_abs (w0 * L)) as R0. pose proof (rn_abs (w1 * H)) as R1. fold tiny in R0, R1. rewrite (Rabs_pos_eq (w0 * L)) in R0 by lra. rewrite (Rabs_pos_eq (w1 * H)) in R1 by lra.
    assert (R0' : Rabs (rn (w0 * L) - w0 * L) <= 5 * U1) by (unfold U1 in *; nra). assert (R1' : Rabs (rn (w1 * H) - w1 * H) <= 5 * U1) by (unfold U1 in *; nra).
    pose proof (rn_add _ _ (fmt_rn (w0 * L)) (fmt_rn (w1 * H))) as R2.
    apply Rabs_le_inv in R0', R1', A0, A1.
    assert (B2 : Rabs (rn (w0 * L) + rn (w1 * H)) <= 9 * Sv) by (apply Rabs_le; lra).
    assert (R2' : Rabs (rn (rn (w0 * L) + rn (w1 * H)) - (rn (w0 * L) + rn (w1 * H))) <= 9 * U1).
    { eapply Rle_trans; [exact R2|]. unfold U1. replace (9 * (ulp1 * Sv)) with (ulp1 * (9 * Sv)) by ring. apply Rmult_le_compat_l; lra. }
    apply Rabs_le_inv in R2'. pose proof P_val as EP. fold i0 i1 in EP. unfold res_e1. fold w0 w1 L H. rewrite EP. apply Rabs_le. lra.
  Qed.
  Lemma c01_err : Rabs (c01 - 1 / 10) <= ulp1 / 10.
  Proof. eapply Rle_trans; [apply rn_rel; apply normal_lo; rewrite Rabs_pos_eq; lra|]. rewrite Rabs_pos_eq by lra. lra. Qed.
  Lemma res_err : Rabs (es_r - P / 10) <= 1010 * ulp1 * (P / 10).
  Proof.
    pose proof e1_err as E. pose proof c01_err as C. pose proof P_range as HP. pose proof S_lo as HS. pose proof u_pos as U. pose proof u_small as U2. pose proof tiny1024 as Ti.
    set (U1 := ulp1 * Sv) in *. assert (HU : 0 < U1 <= Sv / 1000000) by (unfold U1; split; [nra|nra]).
    assert (Ti2 : tiny <= U1 / 10) by (unfold U1; nra).
    apply Rabs_le_inv in E, C. assert (B1 : 0 <= res_e1 <= 2 * Sv) by lra.
    assert (Hc : 0 <= c01 <= / 10 + / 1000000) by lra.
    assert (A : Rabs (res_e1 * c01 - P / 10) <= 80.2 * U1).
    { replace (res_e1 * c01 - P / 10) with ((res_e1 - P) * c01 + P * (c01 - 1 / 10)) by field. eapply Rle_trans; [apply Rabs_triang|]. rewrite !Rabs_mult.
      rewrite (Rabs_pos_eq c01), (Rabs_pos_eq P) by lra.
      assert (Rabs (res_e1 - P) * c01 <= 800 * U1 * (/ 10 + / 1000000)) by (apply Rmult_le_compat; try apply Rabs_pos; try lra; apply Rabs_le; lra).
      assert (P * Rabs (c01 - 1 / 10) <= Sv * (ulp1 / 10)) by (apply Rmult_le_compat; try apply Rabs_pos; try lra; apply Rabs_le; lra).
      unfold U1 in *. lra. }
    pose proof (rn_abs (res_e1 * c01)) as R. fold tiny in R. fold es_r in R.
    assert (B2 : 0 <= res_e1 * c01 <= 2 / 5 * Sv) by (split; nra). rewrite (Rabs_pos_eq (res_e1 * c01)) in R by lra.
    assert (R' : Rabs (es_r - res_e1 * c01) <= U1 / 2) by (unfold U1 in *; nra).
    apply Rabs_le_inv in A, R'. assert (U1 <= 10 * (5 / 4 * (ulp1 * (P / 10)))) by (unfold U1; nra).
    apply Rabs_le. lra.
  Qed.
End Es.
(** ** how far apart two close values of the table function are *)
Lemma pl_rel x y : 0 <= x -> x <= y -> y <= x + 1 -> y < 203 -> 0 <= pl tab y - pl tab x <= (y - x) / 2 * pl tab x.
Proof.
  intros H0 H1 H2 H3. destruct (floor_nat x H0) as (k & _ & Hk). assert (K : (k < 203)%nat) by (apply INR_lt; rewrite INR203; lra).
  pose proof (tab_ratio k K) as R1. pose proof (tab_lo k ltac:(lia)) as R2. pose proof (pl_between tab k x 203 (fun j H => proj1 (tab_steps j H)) K Hk) as B.
  destruct (Rlt_le_dec y (INR k + 1)) as [L|G].
  - rewrite (pl_at tab y k) by lra. rewrite (pl_at tab x k) in * by lra. set (d := tab (S k) - tab k) in *.
    replace ((INR k + 1 - y) * tab k + (y - INR k) * tab (S k) - ((INR k + 1 - x) * tab k + (x - INR k) * tab (S k))) with ((y - x) * d) by (unfold d; ring).
    assert (0 <= d <= tab k / 4) by (unfold d; lra). split; [apply Rmult_le_pos; lra|]. unfold Rdiv. rewrite Rmult_assoc. apply Rmult_le_compat_l; lra.
  - assert (Ek : INR (S k) = INR k + 1) by apply S_INR. assert (K1 : (S k < 203)%nat) by (apply INR_lt; rewrite INR203; lra).
    pose proof (tab_ratio (S k) K1) as R3. rewrite (pl_at tab y (S k)) by lra. rewrite (pl_at tab x k) in * by lra. rewrite Ek in *.
    set (d := tab (S k) - tab k) in *. set (d2 := tab (S (S k)) - tab (S k)) in *.
    replace ((INR k + 1 + 1 - y) * tab (S k) + (y - (INR k + 1)) * tab (S (S k)) - ((INR k + 1 - x) * tab k + (x - INR k) * tab (S k))) with ((y - (INR k + 1)) * d2 + (INR k + 1 - x) * d) by (unfold d, d2; ring).
    assert (0 <= d <= tab k / 4) by (unfold d; lra). assert (0 <= d2 <= 5 / 16 * tab k) by (unfold d2; lra).
    assert ((y - (INR k + 1)) * d2 <= (y - (INR k + 1)) * (5 / 16 * tab k)) by (apply Rmult_le_compat_l; lra).
    assert ((INR k + 1 - x) * d <= (INR k + 1 - x) * (5 / 16 * tab k)) by (apply Rmult_le_compat_l; lra).
    assert (0 <= (y - (INR k + 1)) * d2) by (apply Rmult_le_pos; lra). assert (0 <= (INR k + 1 - x) * d) by (apply Rmult_le_pos; lra). split; [lra|].
    apply Rle_trans with ((y - x) * (5 / 16 * tab k)); [lra|]. unfold Rdiv. rewrite (Rmult_assoc (y - x)). apply Rmult_le_compat_l; lra.
Qed.
Lemma pl_close x y c : 0 <= x < 203 -> 0 <= y < 203 -> Rabs (x - y) <= c -> c <= 1 -> Rabs (pl tab x - pl tab y) <= c * pl tab y.
Proof.
  intros Hx Hy Hc H1. apply Rabs_le_inv in Hc.
  assert (P : forall z, 0 <= z < 203 -> 0 < pl tab z). { intros z Hz. destruct (floor_nat z) as (k & _ & Hk); [lra|]. assert (K : (k < 203)%nat) by (apply INR_lt; rewrite INR203; lra).
    pose proof (pl_between tab k z 203 (fun j H => proj1 (tab_steps j H)) K Hk). pose proof (tab_pos k ltac:(lia)). lra. }
  pose proof (P x Hx). pose proof (P y Hy). destruct (Rle_dec y x) as [L|G].
  - pose proof (pl_rel y x ltac:(lra) L ltac:(lra) ltac:(lra)) as Q. rewrite Rabs_pos_eq by lra. eapply Rle_trans; [apply Q|]. apply Rmult_le_compat_r; lra.
  - pose proof (pl_rel x y ltac:(lra) ltac:(lra) ltac:(lra) ltac:(lra)) as Q. rewrite Rabs_minus_sym, Rabs_pos_eq by lra. eapply Rle_trans; [apply Q|]. apply Rmult_le_compat; lra.
Qed.

(** ** relative errors *)
Lemma u_le : ulp1 <= / 1000000000000000.
Proof. apply Rle_trans with (bpow radix2 (-50)); [apply bpow_le; lia|]. change (bpow radix2 (-50)) with (/ 1125899906842624). lra. Qed.
Definition near (k s x X : R) : Prop := Rabs (x - X) <= k * ulp1 * X + s.
Lemma near_mul k m s x X y Y : 0 <= k <= 10000 -> 0 <= m <= 10000 -> 0 <= s -> 0 <= X -> 0 <= Y -> near k s x X -> near m 0 y Y ->
  near (k + m + 2) (3 * s * Y + tiny) (rn (x * y)) (X * Y).
Proof.
  unfold near. intros Hk Hm Hs HX HY EX EY. pose proof u_le as U. pose proof u_pos as U0.
  assert (KU : 0 <= k * ulp1 <= / 10000000000) by (split; [apply Rmult_le_pos; lra|apply Rle_trans with (10000 * / 1000000000000000); [apply Rmult_le_compat; lra|lra]]).
  assert (MU : 0 <= m * ulp1 <= / 10000000000) by (split; [apply Rmult_le_pos; lra|apply Rle_trans with (10000 * / 1000000000000000); [apply Rmult_le_compat; lra|lra]]).
  set (ku := k * ulp1) in *. set (mu := m * ulp1) in *. rewrite Rplus_0_r in EY.
  assert (XY : 0 <= X * Y) by (apply Rmult_le_pos; lra). assert (SY : 0 <= s * Y) by (apply Rmult_le_pos; lra).
  assert (MY : 0 <= mu * Y <= Y) by (split; [apply Rmult_le_pos; lra|rewrite <- (Rmult_1_l Y) at 2; apply Rmult_le_compat_r; lra]).
  apply Rabs_le_inv in EY. assert (BY : 0 <= y) by lra.
  assert (KM : ku * mu <= ulp1 / 2).
  { unfold ku, mu. replace (k * ulp1 * (m * ulp1)) with (ulp1 * (k * m * ulp1)) by ring. unfold Rdiv. apply Rmult_le_compat_l; [lra|].
    apply Rle_trans with (10000 * 10000 * / 1000000000000000); [|lra]. apply Rmult_le_compat; [apply Rmult_le_pos; lra|lra|apply Rmult_le_compat; lra|lra]. }
  assert (E : Rabs (x * y - X * Y) <= (ku + mu + ulp1 / 2) * (X * Y) + 2 * (s * Y)).
  { replace (x * y - X * Y) with ((x - X) * y + X * (y - Y)) by ring. eapply Rle_trans; [apply Rabs_triang|]. rewrite !Rabs_mult, (Rabs_pos_eq X), (Rabs_pos_eq y) by lra.
    assert (A1 : Rabs (x - X) * y <= (ku * X + s) * (Y + mu * Y)) by (apply Rmult_le_compat; try apply Rabs_pos; lra).
    assert (A2 : X * Rabs (y - Y) <= X * (mu * Y)) by (apply Rmult_le_compat_l; [lra|apply Rabs_le; lra]).
    assert (A3 : ku * mu * (X * Y) <= ulp1 / 2 * (X * Y)) by (apply Rmult_le_compat_r; lra).
    assert (A4 : s * (mu * Y) <= s * Y) by (apply Rmult_le_compat_l; lra).
    replace ((ku * X + s) * (Y + mu * Y)) with (ku * (X * Y) + ku * mu * (X * Y) + s * Y + s * (mu * Y)) in A1 by ring.
    replace (X * (mu * Y)) with (mu * (X * Y)) in A2 by ring. lra. }
  pose proof (rn_abs (x * y)) as R. fold tiny in R. apply Rabs_le_inv in E. set (Q := X * Y) in *.
  assert (Qb : Rabs (x * y) <= 5 / 4 * Q + 2 * (s * Y)).
  { assert ((ku + mu + ulp1 / 2) * Q <= 1 / 4 * Q) by (apply Rmult_le_compat_r; lra). apply Rabs_le. lra. }
  assert (R2 : ulp1 * Rabs (x * y) <= ulp1 * (5 / 4 * Q + 2 * (s * Y))) by (apply Rmult_le_compat_l; lra).
  assert (R3 : ulp1 * (2 * (s * Y)) <= s * Y) by (apply Rle_trans with (1 / 2 * (2 * (s * Y))); [apply Rmult_le_compat_r; lra|lra]).
  assert (R4 : 0 <= ulp1 * Q) by (apply Rmult_le_pos; lra).
  apply Rabs_le_inv in R. unfold ku, mu in E. apply Rabs_le. lra.
Qed.
Lemma near_div k m s x X y Y : 0 <= k <= 10000 -> 0 <= m <= 10000 -> 0 <= s -> 0 <= X -> 0 < Y -> near k s x X -> near m 0 y Y ->
  near (k + m + 2) (3 * s / Y + tiny) (rn (x / y)) (X / Y).
Proof.
  unfold near. intros Hk Hm Hs HX HY EX EY. pose proof u_le as U. pose proof u_pos as U0.
  assert (KU : 0 <= k * ulp1 <= / 10000000000) by (split; [apply Rmult_le_pos; lra|apply Rle_trans with (10000 * / 1000000000000000); [apply Rmult_le_compat; lra|lra]]).
  assert (MU : 0 <= m * ulp1 <= / 10000000000) by (split; [apply Rmult_le_pos; lra|apply Rle_trans with (10000 * / 1000000000000000); [apply Rmult_le_compat; lra|lra]]).
  assert (MM : (m * ulp1) * (m * ulp1) <= ulp1 / 8 /\ (k * ulp1) * (m * ulp1) <= ulp1 / 8).
  { assert (A : forall j, 0 <= j <= 10000 -> (j * ulp1) * (m * ulp1) <= ulp1 / 8); [|split; apply A; lra].
    intros j Hj. replace (j * ulp1 * (m * ulp1)) with (ulp1 * (j * m * ulp1)) by ring. unfold Rdiv. apply Rmult_le_compat_l; [lra|].
    apply Rle_trans with (10000 * 10000 * / 1000000000000000); [|lra]. apply Rmult_le_compat; [apply Rmult_le_pos; lra|lra|apply Rmult_le_compat; lra|lra]. }
  assert (MUpos : 0 < Y - m * ulp1 * Y) by (assert (m * ulp1 * Y <= 1 / 2 * Y) by (apply Rmult_le_compat_r; lra); lra).
  set (ku := k * ulp1) in *. set (mu := m * ulp1) in *. rewrite Rplus_0_r in EY. apply Rabs_le_inv in EY. assert (BY : 0 < y) by lra.
  set (g := / y). set (G := / Y). assert (G0 : 0 < G) by (apply Rinv_0_lt_compat; lra). assert (g0 : 0 < g) by (apply Rinv_0_lt_compat; lra).
  assert (gG : g <= G * (1 + 2 * mu)).
  { unfold g, G. apply Rmult_le_reg_l with y; [lra|]. rewrite Rinv_r by lra. apply Rle_trans with ((Y - mu * Y) * (/ Y * (1 + 2 * mu))).
    - replace ((Y - mu * Y) * (/ Y * (1 + 2 * mu))) with ((1 - mu) * (1 + 2 * mu)) by (field; lra). assert (mu * mu <= / 10000000000 * mu) by (apply Rmult_le_compat_r; lra).
      replace ((1 - mu) * (1 + 2 * mu)) with (1 + mu - 2 * (mu * mu)) by ring. lra.
    - apply Rmult_le_compat_r; [|lra]. apply Rmult_le_pos; [left; exact G0|lra]. }
  assert (E1 : Rabs (g - G) <= (mu + ulp1 / 4) * G).
  { replace (g - G) with ((Y - y) * G * g) by (unfold g, G; field; lra). rewrite !Rabs_mult, (Rabs_pos_eq g), (Rabs_pos_eq G) by lra.
    assert (A : Rabs (Y - y) * G <= mu). { apply Rle_trans with (mu * Y * G); [apply Rmult_le_compat_r; [lra|apply Rabs_le; lra]|]. unfold G. rewrite Rmult_assoc, Rinv_r, Rmult_1_r by lra. lra. }
    apply Rle_trans with (mu * (G * (1 + 2 * mu))); [apply Rmult_le_compat; try lra; apply Rmult_le_pos; [apply Rabs_pos|lra]|].
    replace (mu * (G * (1 + 2 * mu))) with ((mu + 2 * (mu * mu)) * G) by ring. apply Rmult_le_compat_r; lra. }
  set (xy := x / y). change (x / y) with (x * g) in xy. change (X / Y) with (X * G). change (3 * s / Y) with (3 * s * G).
  assert (XG : 0 <= X * G) by (apply Rmult_le_pos; lra). assert (SG : 0 <= s * G) by (apply Rmult_le_pos; lra).
  assert (g2 : g <= 3 / 2 * G) by (apply Rle_trans with (G * (1 + 2 * mu)); [auto|rewrite (Rmult_comm G); apply Rmult_le_compat_r; lra]).
  assert (E : Rabs (x * g - X * G) <= (ku + mu + ulp1 * (3 / 4)) * (X * G) + 2 * (s * G)).
  { replace (x * g - X * G) with ((x - X) * g + X * (g - G)) by ring. eapply Rle_trans; [apply Rabs_triang|]. rewrite !Rabs_mult, (Rabs_pos_eq X), (Rabs_pos_eq g) by lra.
    assert (A1 : Rabs (x - X) * g <= (ku * X + s) * g) by (apply Rmult_le_compat_r; lra).
    assert (A2 : X * Rabs (g - G) <= X * ((mu + ulp1 / 4) * G)) by (apply Rmult_le_compat_l; lra).
    assert (KX : 0 <= ku * X) by (apply Rmult_le_pos; lra).
    assert (A3 : ku * X * g <= ku * X * (G * (1 + 2 * mu))) by (apply Rmult_le_compat_l; lra).
    assert (A4 : s * g <= s * (3 / 2 * G)) by (apply Rmult_le_compat_l; lra).
    replace (ku * X * (G * (1 + 2 * mu))) with (ku * (X * G) + 2 * (ku * mu) * (X * G)) in A3 by ring.
    assert (A5 : 2 * (ku * mu) * (X * G) <= ulp1 / 4 * (X * G)) by (apply Rmult_le_compat_r; lra).
    replace (X * ((mu + ulp1 / 4) * G)) with ((mu + ulp1 / 4) * (X * G)) in A2 by ring.
    assert (A6 : 0 <= ulp1 * (X * G)) by (apply Rmult_le_pos; lra). replace ((ku * X + s) * g) with (ku * X * g + s * g) in A1 by ring. lra. }
  pose proof (rn_abs xy) as R. fold tiny in R. unfold xy in *. apply Rabs_le_inv in E. set (Q := X * G) in *. 
  assert (Qb : Rabs (x * g) <= 9 / 8 * Q + 2 * (s * G)).
  { assert ((ku + mu + ulp1 * (3 / 4)) * Q <= 1 / 8 * Q) by (apply Rmult_le_compat_r; lra). apply Rabs_le. lra. }
  assert (R2 : ulp1 * Rabs (x * g) <= ulp1 * (9 / 8 * Q + 2 * (s * G))) by (apply Rmult_le_compat_l; lra).
  assert (R3 : ulp1 * (2 * (s * G)) <= s * G) by (apply Rle_trans with (1 / 2 * (2 * (s * G))); [apply Rmult_le_compat_r; lra|lra]).
  assert (R4 : 0 <= ulp1 * Q) by (apply Rmult_le_pos; lra).
  apply Rabs_le_inv in R. unfold ku, mu in E. apply Rabs_le. lra.
Qed.
Section B.
  Variable M : libm.
  Local Instance NB : Num b64 := NumB M.
  Lemma mint_is : is mintemp zm. Proof. split; reflexivity. Qed.
  Lemma maxt_is : is maxtemp zx. Proof. split; reflexivity. Qed.
  Lemma zm_le_zx : zm <= zx. Proof. pose proof zm_lo. pose proof zx_hi. lra. Qed.
  Lemma nmax_is x y a b : is x a -> is y b -> is (nmax x y) (Rmax a b).
  Proof.
    intros X Y. unfold nmax. change (@isnan b64 NB) with (@is_nan 53 1024). rewrite (nan_is _ _ X), (nan_is _ _ Y). change (@nle b64 NB) with (@Bleb 53 1024). rewrite (le_is _ _ _ _ Y X).
    destruct (Rle_bool_spec b a); [rewrite Rmax_left by lra|rewrite Rmax_right by lra]; auto.
  Qed.
  (** the temperature of a number that is not NaN, as np.clip sees it *)
  Definition clipz (x : b64) : R := match x with B754_infinity s => if s then zm else zx | _ => Rmin (Rmax (B2R x) zm) zx end.
  Lemma clip_is (x : b64) : is_nan x = false -> is (nclip mintemp maxtemp x) (clipz x).
  Proof.
    intros Nn. unfold nclip. destruct x as [s|s| |s m e H]; try discriminate.
    - apply nmin_is; [apply nmax_is; [split; reflexivity|apply mint_is]|apply maxt_is].
    - destruct s.
      + change (nmax (B754_infinity true) mintemp) with (@mintemp b64 NB). cbn [clipz]. pose proof (nmin_is M _ _ _ _ mint_is maxt_is) as X. rewrite Rmin_left in X by apply zm_le_zx. exact X.
      + change (nmax (B754_infinity false) mintemp) with (@B754_infinity 53 1024 false). change (nmin (@B754_infinity 53 1024 false) maxtemp) with (@maxtemp b64 NB). apply maxt_is.
    - apply nmin_is; [apply nmax_is; [split; reflexivity|apply mint_is]|apply maxt_is].
  Qed.
  Lemma clipz_range x : zm <= clipz x <= zx.
  Proof.
    pose proof zm_le_zx. assert (A : forall r, zm <= Rmin (Rmax r zm) zx <= zx). { intros r. unfold Rmin, Rmax. repeat destruct (Rle_dec _ _); lra. }
    destruct x as [s|[|]| |s m e Hx]; cbn [clipz]; auto; lra.
  Qed.
  Lemma trunc_is x r k : is x r -> INR k <= r < INR k + 1 -> ntrunc x = Some (Z.of_nat k).
  Proof.
    intros [F R] H. change (ntrunc x) with (b64_toZ mode_ZR x). unfold b64_toZ. rewrite F. f_equal.
    apply eq_IZR. rewrite Btrunc_correct by reflexivity. destruct (Bnearbyint_correct 53 1024 _ mode_ZR x) as (E & F' & _). rewrite E, R.
    assert (Z : Ztrunc r = Z.of_nat k). { pose proof (pos_INR k). rewrite Ztrunc_floor by lra. apply Zfloor_imp. rewrite plus_IZR, <- INR_IZR_INZ. lra. }
    cbn [round_mode]. assert (R1 : forall y, round radix2 (FIX_exp 0) Ztrunc y = IZR (Ztrunc y)).
    { intros y. unfold round, F2R, scaled_mantissa, cexp, FIX_exp. cbn [Fnum Fexp]. change (- 0)%Z with 0%Z. change (bpow radix2 0) with 1. rewrite !Rmult_1_r. reflexivity. }
    rewrite !R1, Ztrunc_IZR, Z. reflexivity.
  Qed.
  Lemma big_ge : 1000000000000000 <= big.
  Proof. apply Rle_trans with (bpow radix2 50); [change (bpow radix2 50) with 1125899906842624; lra|apply bpow_le; lia]. Qed.
  Lemma Rabs_big x : 0 <= x <= 1000000000000000 -> Rabs x <= big. Proof. intros H. rewrite Rabs_pos_eq by lra. pose proof big_ge. lra. Qed.
  Lemma dec_is z k : (Z.abs z <= 2 ^ 53)%Z -> (k <= 15)%nat -> is (dec z k) (rn (IZR z / IZR (10 ^ Z.of_nat k))).
  Proof.
    intros Hz Hk. change (dec z k) with (b64_dec z k). unfold b64_dec. assert (P : (1 <= 10 ^ Z.of_nat k <= 10 ^ 15)%Z) by (split; [apply (Z.pow_le_mono_r 10 0); lia|apply Z.pow_le_mono_r; lia]).
    assert (1 <= IZR (10 ^ Z.of_nat k)) by (apply IZR_le; lia).
    apply div_is; [apply ofZ_exact; auto|apply ofZ_exact; rewrite Z.abs_eq by lia; eapply Z.le_trans; [apply P|]; lia|lra|].
    unfold Rdiv. rewrite Rabs_mult. rewrite (Rabs_pos_eq (/ _)) by (apply Rlt_le, Rinv_0_lt_compat; lra).
    assert (/ IZR (10 ^ Z.of_nat k) <= 1) by (rewrite <- Rinv_1; apply Rinv_le; lra). pose proof (IZR_big z Hz). pose proof (Rabs_pos (IZR z)).
    assert (0 <= / IZR (10 ^ Z.of_nat k)) by (apply Rlt_le, Rinv_0_lt_compat; lra). nra.
  Qed.
  Lemma table_small k : (Z.abs (nth k es_table_z 0%Z) <= 2 ^ 53)%Z.
  Proof.
    assert (F : Forall (fun z => (Z.abs z <= 2 ^ 53)%Z) es_table_z) by (apply Forall_forall; assert (B : forallb (fun z => (Z.abs z <=? 2 ^ 53)%Z) es_table_z = true) by (vm_compute; reflexivity); rewrite forallb_forall in B; intros z Hz; apply Z.leb_le, B, Hz).
    destruct (Nat.lt_ge_cases k (List.length es_table_z)) as [H|H]; [eapply Forall_nth in F; eauto|rewrite nth_overflow by lia; lia].
  Qed.
  Lemma entry_is k : (k < 204)%nat -> pyget es_table (Z.of_nat k) = Ok (nth k es_table nnan) /\ is (nth k es_table nnan) (rn (tab k)).
  Proof.
    intros H. assert (L : List.length (@es_table b64 NB) = 204%nat) by (unfold es_table; rewrite map_length; reflexivity).
    split; [apply pyget_nat; rewrite L; auto|]. unfold es_table. rewrite (nth_indep _ _ (dec 0%Z 5)) by (rewrite map_length; unfold es_table in L; rewrite map_length in L; rewrite L; auto).
    rewrite (map_nth (fun z => dec z 5)). rewrite tab_z by auto. apply (dec_is _ 5); [apply table_small|lia].
  Qed.
  Lemma es_cell_is (x : b64) : is_nan x = false -> exists e k, es_cell x = Ok e /\ INR k <= clipz x - zm < INR k + 1 /\ fmt (clipz x) /\ is e (es_r (clipz x) k).
  Proof.
    intros Nn. pose proof (clip_is x Nn) as C. pose proof (clipz_range x) as R. unfold es_cell. set (c := nclip mintemp maxtemp x) in *. set (t := clipz x) in *.
    assert (Ft : fmt t) by (eapply is_fmt; eauto).
    pose proof (sub_is _ _ _ _ C mint_is) as D. assert (Hd : Rabs (t - zm) <= big) by (pose proof zm_lo; pose proof zx_hi; apply Rabs_big; lra). specialize (D Hd).
    rewrite diff_exact in D by auto. destruct (floor_nat (t - zm)) as (k & _ & Hk); [lra|]. pose proof (k_range t R k Hk) as K. pose proof (INR_k t R k Hk) as IK.
    replace (ntrunc (c - mintemp)%num) with (Some (Z.of_nat k)) by (symmetry; exact (trunc_is _ _ k D Hk)). cbn [oget bind]. cbv zeta.
    destruct (entry_is k) as [El Il]; [lia|]. destruct (entry_is (S k)) as [Eh Ih]; [lia|]. rewrite El. cbn [bind].
    replace (Z.of_nat k + 1)%Z with (Z.of_nat (S k)) by lia. rewrite Eh. cbn [bind].
    eexists. exists k. split; [reflexivity|]. split; [exact Hk|]. split; [exact Ft|].
    pose proof zm_lo. pose proof zx_hi.
    pose proof (ofZ_exact (Z.of_nat k) ltac:(lia)) as Ok_. rewrite <- INR_IZR_INZ in Ok_.
    pose proof (add_is _ _ _ _ mint_is Ok_ ltac:(apply Rabs_big; lra)) as A2.
    assert (O1 : is (ofZ 1) 1) by (apply (ofZ_exact 1); lia).
    pose proof (T2_range t Ft R k Hk) as R2. cbn zeta in R2.
    pose proof (add_is _ _ _ _ A2 O1 ltac:(apply Rabs_big; lra)) as A3.
    pose proof (w0_range t k Ft R Hk) as W0. pose proof (w1_range t k Ft R Hk) as W1. cbn zeta in W0, W1. destruct W0 as [W0 W0r]. destruct W1 as [W1 W1r].
    pose proof (sub_is _ _ _ _ A3 C ltac:(apply Rabs_big; rewrite <- W0; lra)) as B0.
    pose proof (sub_is _ _ _ _ C A2 ltac:(apply Rabs_big; rewrite <- W1; lra)) as B1.
    pose proof (L_err t k R Hk) as EL. pose proof (H_err t k R Hk) as EH. pose proof (S_lo t k R Hk) as SL. pose proof (tk_lo t k R Hk) as TK. cbn zeta in EL, EH, SL, TK.
    set (w0 := rn (rn (rn (zm + INR k) + 1) - t)) in *. set (w1 := rn (t - rn (zm + INR k))) in *. set (Lo := rn (tab k)) in *. set (Hi := rn (tab (S k))) in *.
    pose proof u_small as U. pose proof u_pos as U0. assert (US : 0 <= ulp1 * tab (S k) <= tab (S k) / 1000000) by (split; nra).
    apply Rabs_le_inv in EL, EH. assert (HL : 0 <= Lo <= 2200000) by lra. assert (HH : 0 <= Hi <= 2200000) by lra.
    assert (X0 : 0 <= w0 * Lo <= 4400000) by (split; [apply Rmult_le_pos; lra|replace 4400000 with (2 * 2200000) by lra; apply Rmult_le_compat; lra]).
    assert (X1 : 0 <= w1 * Hi <= 4400000) by (split; [apply Rmult_le_pos; lra|replace 4400000 with (2 * 2200000) by lra; apply Rmult_le_compat; lra]).
    pose proof (mul_is _ _ _ _ B0 Il ltac:(apply Rabs_big; lra)) as M0. pose proof (mul_is _ _ _ _ B1 Ih ltac:(apply Rabs_big; lra)) as M1.
    assert (Y0 : 0 <= rn (w0 * Lo) <= 4400000) by (split; [apply rn_ge_fmt; [apply fmt_0|lra]|apply rn_le_fmt; [apply (fmt_Z 4400000); lia|lra]]).
    assert (Y1 : 0 <= rn (w1 * Hi) <= 4400000) by (split; [apply rn_ge_fmt; [apply fmt_0|lra]|apply rn_le_fmt; [apply (fmt_Z 4400000); lia|lra]]).
    pose proof (add_is _ _ _ _ M0 M1 ltac:(apply Rabs_big; lra)) as A.
    assert (Y : 0 <= rn (rn (w0 * Lo) + rn (w1 * Hi)) <= 8800000) by (split; [apply rn_ge_fmt; [apply fmt_0|lra]|apply rn_le_fmt; [apply (fmt_Z 8800000); lia|lra]]).
    assert (C1 : is (dec 1 1) (rn (1 / 10))) by (apply (dec_is 1 1); lia).
    assert (C2 : 0 <= rn (1 / 10) <= 1) by (split; [apply rn_ge_fmt; [apply fmt_0|lra]|apply rn_le_fmt; [apply (fmt_Z 1); lia|lra]]).
    exact (mul_is _ _ _ _ A C1 ltac:(apply Rabs_big; split; [apply Rmult_le_pos; lra|apply Rle_trans with (8800000 * 1); [apply Rmult_le_compat; lra|lra]])).
  Qed.
  (** a temperature inside the table for each infinity *)
  Definition realt (x : b64) : R := match x with B754_infinity s => if s then 0 else 400 | _ => B2R x end.
  Lemma clip_close x : Rabs (clipz x - zm - (clipT (realt x) - 173.16)) <= 512 * ulp1.
  Proof.
    pose proof zm_val as A. pose proof zx_val as B. change (bpow radix2 (-46)) with (/ 70368744177664) in A. rewrite p45 in B. apply Rabs_le_inv in A, B.
    replace (512 * ulp1) with (/ 17592186044416) by (rewrite <- p44; change (-44)%Z with (9 + -53)%Z; rewrite bpow_plus; reflexivity).
    pose proof zm_lo. pose proof zx_hi. unfold clipT. destruct x as [s|[|]| |s m e Hx]; cbn [clipz realt]; try set (q := B2R _); apply Rabs_le; unfold Rmin, Rmax; repeat destruct (Rle_dec _ _); lra.
  Qed.
  Lemma es_near (x : b64) : is_nan x = false -> exists e v, es_cell x = Ok e /\ is e v /\ near 1600 0 v (Esat (realt x)) /\ 1 / 2000 <= v <= 220000.
  Proof.
    intros Nn. destruct (es_cell_is x Nn) as (e & k & E & Hk & Ft & I). exists e, (es_r (clipz x) k). split; [auto|]. split; [auto|].
    pose proof (clipz_range x) as R. pose proof (res_err _ k Ft R Hk) as A. pose proof (P_range _ k R Hk) as P. pose proof (S_lo _ k R Hk) as S1. set (t := clipz x) in *. set (p := pl tab (t - zm)) in *.
    pose proof u_le as U. pose proof u_pos as U0. assert (HP : 8 / 1000 <= p <= 1100000) by lra.
    assert (AU : 0 <= 1010 * ulp1 * (p / 10) <= p / 100).
    { split; [apply Rmult_le_pos; lra|]. apply Rle_trans with (/ 10 * (p / 10)); [apply Rmult_le_compat_r; lra|lra]. }
    assert (A' := A). apply Rabs_le_inv in A'. split; [|lra].
    pose proof (clip_close x) as C. fold t in C. pose proof (clipT_range (realt x)) as CR. pose proof zm_lo. pose proof zx_hi.
    assert (Z : zx - zm < 203). { pose proof zm_val as V. pose proof zx_val as W. change (bpow radix2 (-46)) with (/ 70368744177664) in V. rewrite p45 in W. apply Rabs_le_inv in V, W. lra. }
    pose proof (pl_close (t - zm) (clipT (realt x) - 173.16) _ ltac:(lra) ltac:(lra) C ltac:(lra)) as D. fold p in D.
    unfold near, Esat. set (q := pl tab (clipT (realt x) - 173.16)) in *. apply Rabs_le_inv in D.
    assert (Q1 : 512 * ulp1 * q <= 1 / 1000 * q \/ q < 0) by (destruct (Rlt_dec q 0); [right; auto|left; apply Rmult_le_compat_r; lra]).
    assert (Q0 : 0 < q). { pose proof (Esat_pos (realt x)) as Z1. unfold Esat in Z1. fold q in Z1. lra. }
    destruct Q1 as [Q1|Q1]; [|lra]. assert (p <= 1.001 * q) by lra. assert (ulp1 * p <= ulp1 * (1.001 * q)) by (apply Rmult_le_compat_l; lra).
    assert (0 <= ulp1 * q) by (apply Rmult_le_pos; lra). apply Rabs_le. lra.
  Qed.
  (** ** the humidity *)
  Definition b500 : R := bpow radix2 500.
  Definition rh_r (w p v : R) : R := rn (rn (rn (w * rn (p - rn (rn (378 / 1000) * v))) / rn (rn (622 / 1000) * v)) * 100).
  Lemma fmt_small z : (Z.abs z <= 2 ^ 53)%Z -> forall x, Rabs x <= IZR z -> Rabs (rn x) <= IZR z.
  Proof. intros H x Hx. apply rn_abs_le; auto. apply fmt_Z; auto. Qed.
  Lemma b500_ge : 1000000 <= b500.
  Proof. apply Rle_trans with (bpow radix2 30); [change (bpow radix2 30) with 1073741824; lra|apply bpow_le; lia]. Qed.
  Lemma rnp_le e x : (-1074 <= e)%Z -> Rabs x <= bpow radix2 e -> Rabs (rn x) <= bpow radix2 e. Proof. intros H. apply rn_abs_le, fmt_bpow, H. Qed.
  Lemma pow_big e : (e <= 1023)%Z -> bpow radix2 e <= big. Proof. intros H. apply bpow_le. lia. Qed.
  Lemma b_range v : 1 / 2000 <= v <= 220000 -> bpow radix2 (-12) <= rn (rn (622 / 1000) * v) <= 220000.
  Proof.
    intros Hv. assert (C : 1 / 2 <= rn (622 / 1000) <= 1) by (split; [apply rn_ge_fmt; [replace (1 / 2) with (bpow radix2 (-1)) by (change (bpow radix2 (-1)) with (/ 2); lra); apply fmt_bpow; lia|lra]|apply rn_le_fmt; [apply (fmt_Z 1); lia|lra]]).
    assert (L : 1 / 2 * (1 / 2000) <= rn (622 / 1000) * v) by (apply Rmult_le_compat; lra).
    assert (L2 : rn (622 / 1000) * v <= 1 * 220000) by (apply Rmult_le_compat; lra).
    split; [apply rn_ge_fmt; [apply fmt_bpow; lia|]|apply rn_le_fmt; [apply (fmt_Z 220000); lia|]; lra].
    change (bpow radix2 (-12)) with (/ 4096). lra.
  Qed.
  Lemma rh_is wb pb e w p v : is wb w -> is pb p -> is e v -> 1 / 2000 <= v <= 220000 -> Rabs w <= b500 -> Rabs p <= b500 ->
    is (rh_value wb pb e) (Rmax (rh_r w p v) (rn (1 / 10000))).
  Proof.
    intros W P E Hv Hw Hp. unfold rh_value, rh_clip, nclip_lo.
    assert (C3 : is (dec 378 3) (rn (378 / 1000))) by (apply (dec_is 378 3); lia). assert (C6 : is (dec 622 3) (rn (622 / 1000))) by (apply (dec_is 622 3); lia).
    assert (C4 : is (dec 1 4) (rn (1 / 10000))) by (apply (dec_is 1 4); lia). assert (C100 : is (ofZ 100) 100) by (apply (ofZ_exact 100); lia).
    apply nmax_is; [|exact C4].
    assert (R3 : 0 <= rn (378 / 1000) <= 1) by (split; [apply rn_ge_fmt; [apply fmt_0|lra]|apply rn_le_fmt; [apply (fmt_Z 1); lia|lra]]).
    assert (R6 : 0 <= rn (622 / 1000) <= 1) by (split; [apply rn_ge_fmt; [apply fmt_0|lra]|apply rn_le_fmt; [apply (fmt_Z 1); lia|lra]]).
    assert (A1 : 0 <= rn (378 / 1000) * v <= 220000) by (split; [apply Rmult_le_pos; lra|replace 220000 with (1 * 220000) by lra; apply Rmult_le_compat; lra]).
    pose proof (mul_is _ _ _ _ C3 E ltac:(apply Rabs_big; lra)) as M3.
    assert (A2 : Rabs (rn (rn (378 / 1000) * v)) <= 220000) by (apply (fmt_small 220000); [lia|rewrite Rabs_pos_eq; lra]).
    assert (A3 : Rabs (p - rn (rn (378 / 1000) * v)) <= bpow radix2 501).
    { change 501%Z with (1 + 500)%Z. rewrite bpow_plus. change (bpow radix2 1) with 2. fold b500. pose proof b500_ge. apply Rabs_le_inv in A2, Hp. apply Rabs_le. lra. }
    pose proof (sub_is _ _ _ _ P M3 ltac:(eapply Rle_trans; [exact A3|apply pow_big; lia])) as S3.
    pose proof (rnp_le 501 _ ltac:(lia) A3) as A4.
    assert (A5 : Rabs (w * rn (p - rn (rn (378 / 1000) * v))) <= bpow radix2 1001).
    { rewrite Rabs_mult. change 1001%Z with (500 + 501)%Z. rewrite bpow_plus. apply Rmult_le_compat; try apply Rabs_pos; auto. }
    pose proof (mul_is _ _ _ _ W S3 ltac:(eapply Rle_trans; [exact A5|apply pow_big; lia])) as M4.
    pose proof (rnp_le 1001 _ ltac:(lia) A5) as A6.
    assert (A7 : 0 <= rn (622 / 1000) * v <= 220000) by (split; [apply Rmult_le_pos; lra|replace 220000 with (1 * 220000) by lra; apply Rmult_le_compat; lra]).
    pose proof (mul_is _ _ _ _ C6 E ltac:(apply Rabs_big; lra)) as M6. pose proof (b_range v Hv) as BR. set (B := rn (rn (622 / 1000) * v)) in *.
    assert (B0 : 0 < B) by (pose proof (bpow_gt_0 radix2 (-12)); lra).
    assert (A8 : Rabs (rn (w * rn (p - rn (rn (378 / 1000) * v))) / B) <= bpow radix2 1013).
    { unfold Rdiv. rewrite Rabs_mult. change 1013%Z with (1001 + 12)%Z. rewrite bpow_plus. apply Rmult_le_compat; try apply Rabs_pos; auto.
      rewrite Rabs_pos_eq by (left; apply Rinv_0_lt_compat; lra). change (bpow radix2 12) with 4096. replace 4096 with (/ (/ 4096)) by lra. apply Rinv_le; [lra|]. change (bpow radix2 (-12)) with (/ 4096) in BR. lra. }
    pose proof (div_is _ _ _ _ M4 M6 ltac:(lra) ltac:(eapply Rle_trans; [exact A8|apply pow_big; lia])) as D.
    pose proof (rnp_le 1013 _ ltac:(lia) A8) as A9.
    assert (A10 : Rabs (rn (rn (w * rn (p - rn (rn (378 / 1000) * v))) / B) * 100) <= bpow radix2 1020).
    { rewrite Rabs_mult. change 1020%Z with (1013 + 7)%Z. rewrite bpow_plus. apply Rmult_le_compat; try apply Rabs_pos; auto. change (bpow radix2 7) with 128. rewrite Rabs_pos_eq; lra. }
    exact (mul_is _ _ _ _ D C100 ltac:(eapply Rle_trans; [exact A10|apply pow_big; lia])).
  Qed.
  Lemma Esat_lo r : 1 / 1000 <= Esat r.
  Proof.
    pose proof (clipT_range r) as B. unfold Esat. destruct (floor_nat (clipT r - 173.16) ltac:(lra)) as (k & _ & Bk).
    assert (Hk : (k < 203)%nat) by (apply INR_lt; rewrite INR203; lra).
    pose proof (pl_between tab k _ 203 (fun j H => proj1 (tab_steps j H)) Hk Bk). pose proof (tab_lo k ltac:(lia)). lra.
  Qed.
  Lemma tiny_le : tiny <= ulp1 / 1000000000000000.
  Proof. pose proof u_le. apply Rle_trans with (ulp1 * ulp1); [unfold tiny, ulp1; rewrite <- bpow_plus; apply bpow_le; lia|]. unfold Rdiv. apply Rmult_le_compat_l; [pose proof u_pos; lra|auto]. Qed.
  Lemma near_exact X : near 0 0 X X. Proof. unfold near. replace (X - X) with 0 by ring. rewrite Rabs_R0. lra. Qed.
  Lemma near_le k s k' s' x X : near k s x X -> 0 <= X -> k * ulp1 * X + s <= k' * ulp1 * X + s' -> near k' s' x X.
  Proof. unfold near. intros. lra. Qed.
  Lemma near_lit X : / 1000000 <= X -> near 1 0 (rn X) X.
  Proof. intros H. unfold near. pose proof (rn_rel X) as R. rewrite (Rabs_pos_eq X) in R by lra. assert (bpow radix2 (-1022) <= X) by (rewrite <- (Rabs_pos_eq X) by lra; apply normal_lo; rewrite Rabs_pos_eq; lra). specialize (R H0). lra. Qed.
  Lemma rh_err w p v E : 0 <= w <= b500 -> E <= p -> fmt p -> 1 / 1000 <= E -> near 1600 0 v E -> 
    Rabs (Rmax (rh_r w p v) (rn (1 / 10000)) - humidity E w p) <= bpow radix2 (-41) * humidity E w p.
  Proof.
    intros Hw HE Fp E0 V. pose proof u_pos as U0. pose proof u_le as U. pose proof tiny_le as Ti. assert (T0 : 0 <= tiny) by (left; apply bpow_gt_0).
    assert (N3 : near 1 0 (rn (378 / 1000)) 0.378) by (replace 0.378 with (378 / 1000) by lra; apply near_lit; lra).
    assert (N6 : near 1 0 (rn (622 / 1000)) 0.622) by (replace 0.622 with (622 / 1000) by lra; apply near_lit; lra).
    assert (UE : ulp1 * (1 / 1000) <= ulp1 * E) by (apply Rmult_le_compat_l; lra).
    assert (NA := near_mul 1 1600 0 _ 0.378 _ E ltac:(lra) ltac:(lra) ltac:(lra) ltac:(lra) ltac:(lra) N3 V).
    assert (NB_ := near_mul 1 1600 0 _ 0.622 _ E ltac:(lra) ltac:(lra) ltac:(lra) ltac:(lra) ltac:(lra) N6 V).
    apply (near_le _ _ 1604 0) in NA; [|lra|lra]. apply (near_le _ _ 1604 0) in NB_; [|lra|lra].
    set (a := rn (rn (378 / 1000) * v)) in *. set (b := rn (rn (622 / 1000) * v)) in *.
    set (D := p - 0.378 * E). assert (HD : 0.622 * E <= D /\ 0 <= D) by (unfold D; lra).
    assert (UD : 0 <= ulp1 * D) by (apply Rmult_le_pos; lra). assert (UED : ulp1 * (0.622 * E) <= ulp1 * D) by (apply Rmult_le_compat_l; lra).
    assert (ND : near 977 0 (rn (p - a)) D).
    { pose proof (rn_sub p a Fp (fmt_rn _)) as R. unfold near in NA |- *. apply Rabs_le_inv in NA.
      assert (Q : Rabs (p - a) <= 1.01 * D). { unfold D in *. assert (ulp1 * E <= / 1000000000000000 * E) by (apply Rmult_le_compat_r; lra). apply Rabs_le. lra. }
      assert (ulp1 * Rabs (p - a) <= ulp1 * (1.01 * D)) by (apply Rmult_le_compat_l; lra). apply Rabs_le_inv in R. apply Rabs_le. unfold D in *. lra. }
    assert (WD : 0 <= w * D) by (apply Rmult_le_pos; lra).
    assert (NN := near_mul 0 977 0 _ w _ D ltac:(lra) ltac:(lra) ltac:(lra) ltac:(lra) ltac:(lra) (near_exact w) ND).
    apply (near_le _ _ 979 tiny) in NN; [|lra|lra].
    set (n := rn (w * rn (p - a))) in *. set (q := w * D / (0.622 * E)).
    assert (Eq : 0 < / (0.622 * E) <= 1608) by (split; [apply Rinv_0_lt_compat; lra|apply Rle_trans with (/ (0.622 / 1000)); [apply Rinv_le; lra|lra]]).
    assert (Q0 : 0 <= q) by (unfold q, Rdiv; apply Rmult_le_pos; lra).
    assert (NQ := near_div 979 1604 tiny _ (w * D) _ (0.622 * E) ltac:(lra) ltac:(lra) ltac:(lra) WD ltac:(lra) NN NB_). fold q in NQ.
    assert (TE : 3 * tiny / (0.622 * E) <= 3 * tiny * 1608) by (unfold Rdiv; apply Rmult_le_compat_l; lra).
    apply (near_le _ _ 2585 (10000 * tiny)) in NQ; [|lra|lra].
    assert (NH := near_mul 2585 0 (10000 * tiny) _ q _ 100 ltac:(lra) ltac:(lra) ltac:(lra) ltac:(lra) ltac:(lra) NQ (near_exact 100)).
    apply (near_le _ _ 2587 (4000000 * tiny)) in NH; [|lra|lra].
    assert (NC : near 1 0 (rn (1 / 10000)) (1 / 10000)) by (apply near_lit; lra).
    change (rn (rn (n / b) * 100)) with (rh_r w p v) in NH.
    set (h := rh_r w p v) in *. set (c := rn (1 / 10000)) in *. unfold humidity. replace 0.0001 with (1 / 10000) by lra. fold D q. rewrite (Rmult_comm 100 q). set (X := q * 100) in *.
    assert (X0 : 0 <= X) by (unfold X; lra). assert (UX : 0 <= ulp1 * X) by (apply Rmult_le_pos; lra).
    replace (bpow radix2 (-41)) with (4096 * ulp1) by (unfold ulp1; change (-41)%Z with (12 + -53)%Z; rewrite bpow_plus; reflexivity).
    unfold near in NH, NC. apply Rabs_le_inv in NH, NC.
    unfold Rmax at 2 3. destruct (Rle_dec (1 / 10000) X) as [L|G].
    - assert (ulp1 * (1 / 10000) <= ulp1 * X) by (apply Rmult_le_compat_l; lra). apply Rabs_le. unfold Rmax. destruct (Rle_dec h c); lra.
    - assert (ulp1 * X <= ulp1 * (1 / 10000)) by (apply Rmult_le_compat_l; lra). apply Rabs_le. unfold Rmax. destruct (Rle_dec h c); lra.
  Qed.
  Lemma Esat_hi r : 375.16 <= r -> Esat r = Esat 400. Proof. intros H. unfold Esat, clipT. rewrite !Rmax_left, !Rmin_right by lra. reflexivity. Qed.
  Lemma Esat_low r : r <= 173.16 -> Esat r = Esat 0. Proof. intros H. unfold Esat, clipT. rewrite !Rmax_right by lra. reflexivity. Qed.
  Lemma realt_ok x r : temperature_is x r -> is_nan x = false /\ Esat r = Esat (realt x).
  Proof.
    intros [I|[[-> H]|[-> H]]]; [|split; [reflexivity|apply Esat_hi; auto]|split; [reflexivity|apply Esat_low; auto]].
    split; [eapply nan_is; eauto|]. destruct I as [F <-]. destruct x; try discriminate; reflexivity.
  Qed.
  Lemma rh_r_mono w w' p p' v : 1 / 2000 <= v <= 220000 -> 0 <= w <= w' -> p <= p' ->
    Rmax (rh_r w p v) (rn (1 / 10000)) <= Rmax (rh_r w' p' v) (rn (1 / 10000)).
  Proof.
    intros Hv Hw Hp. unfold rh_r. set (a := rn (rn (378 / 1000) * v)). pose proof (b_range v Hv) as B. set (b := rn (rn (622 / 1000) * v)) in *.
    assert (B0 : 0 < / b) by (apply Rinv_0_lt_compat; pose proof (bpow_gt_0 radix2 (-12)); lra).
    pose proof (rn_le (p - a) (p' - a) ltac:(lra)) as D. set (d := rn (p - a)) in *. set (d' := rn (p' - a)) in *.
    assert (C : 0 <= rn (1 / 10000)) by (apply rn_ge_fmt; [apply fmt_0|lra]).
    destruct (Rle_dec 0 d') as [P|P].
    - apply Rle_max_compat_r. apply rn_le. apply Rmult_le_compat_r; [lra|]. apply rn_le. unfold Rdiv. apply Rmult_le_compat_r; [lra|]. apply rn_le.
      apply Rle_trans with (w * d'); [apply Rmult_le_compat_l; lra|apply Rmult_le_compat_r; lra].
    - assert (N : rn (rn (rn (w * d) / b) * 100) <= 0).
      { apply rn_le_fmt; [apply fmt_0|]. assert (rn (rn (w * d) / b) <= 0); [|lra]. apply rn_le_fmt; [apply fmt_0|].
        assert (rn (w * d) <= 0). { apply rn_le_fmt; [apply fmt_0|]. pose proof (Rmult_le_pos w (- d) ltac:(lra) ltac:(lra)). lra. }
        unfold Rdiv. pose proof (Rmult_le_pos (- rn (w * d)) (/ b) ltac:(lra) ltac:(lra)). lra. }
      rewrite (Rmax_right (rn (rn (rn (w * d) / b) * 100))) by lra. apply Rmax_r.
  Qed.
  Definition es_of (x : b64) : b64 := match es_cell x with Ok e => e | Err _ => nnan end.
  Lemma es_of_ok (x : b64) : is_nan x = false -> es_cell x = Ok (es_of x) /\ exists v, is (es_of x) v /\ near 1600 0 v (Esat (realt x)) /\ 1 / 2000 <= v <= 220000.
  Proof. intros H. destruct (es_near x H) as (e & v & E & R). unfold es_of. rewrite E. split; auto. exists v. exact R. Qed.
  Lemma b64_relhum E t w p r : table_function E -> relhum_call t w p r -> (forall i, inb (shp t) i -> is_nan (get t i) = false) ->
    exists out, r = Ok out /\ shp out = shp t /\ forall i a b, inb (shp t) i -> is (get w i) a -> is (get p i) b -> Rabs a <= bpow radix2 500 -> Rabs b <= bpow radix2 500 ->
      exists v, is (get out i) v /\ rn 0.0001 <= v /\
        forall x, temperature_is (get t i) x -> 0 <= a -> E x <= b -> Rabs (v - humidity (E x) a b) <= bpow radix2 (-41) * humidity (E x) a b.
  Proof.
    intros HE C Nn. pose proof (table_function_unique E HE) as U.
    destruct (relhum_call_gen t w p r (fun i => es_of (get t i)) C) as (out & Eo & So & Go); [intros i Hi; apply es_of_ok; auto|].
    exists out. split; auto. split; auto. intros i a b Hi Ia Ib Ha Hb. destruct (es_of_ok (get t i) (Nn i Hi)) as (_ & v & Iv & Nv & Rv).
    rewrite (Go i Hi). pose proof (rh_is _ _ _ _ _ _ Ia Ib Iv Rv Ha Hb) as I. eexists. split; [exact I|]. replace 0.0001 with (1 / 10000) by lra. split; [apply Rmax_r|].
    intros x Tx H0 Hp. rewrite U in *. destruct (realt_ok _ _ Tx) as [_ Ex]. rewrite Ex in *. apply rh_err; auto; [split; [auto|apply Rabs_le_inv in Ha; unfold b500; lra]|eapply is_fmt; eauto|apply Esat_lo].
  Qed.
  Lemma b64_relhum_mono t t' w w' p p' r r' : relhum_call t w p r -> relhum_call t' w' p' r' -> shp t' = shp t -> (forall i, inb (shp t) i -> get t' i = get t i /\ is_nan (get t i) = false) ->
    exists out out', r = Ok out /\ r' = Ok out' /\ forall i a a' b b', inb (shp t) i -> is (get w i) a -> is (get w' i) a' -> is (get p i) b -> is (get p' i) b' ->
      0 <= a <= a' -> a' <= bpow radix2 500 -> - bpow radix2 500 <= b <= b' -> b' <= bpow radix2 500 ->
      exists v v', is (get out i) v /\ is (get out' i) v' /\ v <= v'.
  Proof.
    intros C C' S Nn. destruct (relhum_call_gen t w p r (fun i => es_of (get t i)) C) as (out & Eo & So & Go); [intros i Hi; apply es_of_ok, Nn; auto|].
    destruct (relhum_call_gen t' w' p' r' (fun i => es_of (get t' i)) C') as (out' & Eo' & So' & Go'); [intros i Hi; rewrite S in Hi; destruct (Nn i Hi) as [-> Q]; apply es_of_ok; auto|].
    exists out, out'. split; auto. split; auto. intros i a a' b b' Hi Ia Ia' Ib Ib' Ha Ha' Hb Hb'. destruct (Nn i Hi) as [Et Nt]. destruct (es_of_ok (get t i) Nt) as (_ & v & Iv & Nv & Rv).
    rewrite (Go i Hi), (Go' i) by (rewrite S; auto). rewrite Et.
    pose proof (rh_is _ _ _ _ _ _ Ia Ib Iv Rv ltac:(apply Rabs_le; unfold b500; lra) ltac:(apply Rabs_le; unfold b500; lra)) as I.
    pose proof (rh_is _ _ _ _ _ _ Ia' Ib' Iv Rv ltac:(apply Rabs_le; unfold b500; lra) ltac:(apply Rabs_le; unfold b500; lra)) as I'.
    do 2 eexists. split; [exact I|]. split; [exact I'|]. apply rh_r_mono; auto; lra.
  Qed.
  Lemma b64_relhum_nan (t w p : arr b64) i : inb (shp t) i -> is_nan (get t i) = true -> relhum_np t w p = Err IndexError.
  Proof.
    intros Hi Hn. unfold relhum_np, arr_mapM.
    assert (Nan : forall x : b64, is_nan x = true -> es_cell x = Err IndexError) by (intros x Hx; destruct x; try discriminate; reflexivity).
    assert (G : forall l, (forall j, In j l -> inb (shp t) j) -> In i l -> mapM (fun i => es_cell (get t i)) l = Err IndexError).
    { induction l as [|j l IH]; intros Hl Hin; [destruct Hin|]. destruct Hin as [->|Hin].
      - cbn [mapM]. rewrite (Nan _ Hn). reflexivity.
      - cbn [mapM]. destruct (is_nan (get t j)) eqn:E; [rewrite (Nan _ E); reflexivity|]. destruct (es_of_ok _ E) as [-> _]. cbn [bind].
        rewrite IH; auto. intros k Hk. apply Hl. right. auto. }
    rewrite G; [reflexivity| |]; [intros j Hj; apply all_idx_inb; auto|apply all_idx_inb; auto].
  Qed.
End B.
