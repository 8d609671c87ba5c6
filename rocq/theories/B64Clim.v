(** Sums, means and day-weighted means in binary64: errors and monotonicity. *)
From Coq Require Import Reals List Bool Arith ZArith Lia Lra.
From Flocq Require Import Core BinarySingleNaN.
From Verif Require Import PyBase Num NumFacts NumB64 SpecB64 B64Facts B64Interp Calendar Climat SpecUnits SpecClimB64 ClimRel.
Import ListNotations.
Local Open Scope R_scope.

Definition rfold (a : R) (l : list R) : R := fold_left (fun a r => rn (a + r)) l a.
Definition asum (l : list R) : R := rsum (map Rabs l).
Lemma asum_pos l : 0 <= asum l.
Proof. induction l as [|r l IH]; unfold asum in *; cbn [map rsum]; [lra|]. pose proof (Rabs_pos r). lra. Qed.
Lemma rsum_asum l : Rabs (rsum l) <= asum l.
Proof. induction l as [|r l IH]; unfold asum in *; cbn [map rsum]; [rewrite Rabs_R0; lra|]. eapply Rle_trans; [apply Rabs_triang|]. lra. Qed.
Lemma asum_le l M : Forall (fun r => Rabs r <= M) l -> asum l <= INR (length l) * M.
Proof. induction 1 as [|r l H _ IH]; unfold asum in *; cbn [map rsum length]; [cbn; lra|]. rewrite S_INR. lra. Qed.

Lemma fold_is (l : list b64) rs : Forall2 is l rs -> forall acc a e A0 j n A,
  is acc a -> Rabs e <= A0 -> A0 + asum rs <= A -> (j + length rs <= n)%nat -> Rabs (a - e) <= 2 * INR j * ulp1 * A -> 2 * INR n * ulp1 <= 1 -> 2 * A <= big ->
  is (fold_left (Bplus mode_NE) l acc) (rfold a rs) /\ Rabs (rfold a rs - (e + rsum rs)) <= 2 * INR (j + length rs) * ulp1 * A.
Proof.
  pose proof ulp1_pos as U. induction 1 as [|x r l rs Hx _ IH]; intros acc a e A0 j n A Ha He HA Hn HE Hnu Hbig.
  - cbn [fold_left rfold rsum length]. unfold rfold. cbn [fold_left]. rewrite Nat.add_0_r, Rplus_0_r. auto.
  - unfold asum in HA. cbn [map rsum] in HA. fold (asum rs) in HA. pose proof (asum_pos rs) as P. pose proof (Rabs_pos r) as Pr. pose proof (Rabs_pos e) as Pe. cbn [length] in Hn.
    assert (HA0 : 0 <= A) by lra.
    assert (J : 2 * INR j * ulp1 <= 1). { eapply Rle_trans; [|exact Hnu]. apply Rmult_le_compat_r; [lra|]. apply Rmult_le_compat_l; [lra|]. apply le_INR. lia. }
    assert (EA : Rabs (a - e) <= A). { eapply Rle_trans; [exact HE|]. rewrite <- (Rmult_1_l A) at 2. apply Rmult_le_compat_r; lra. }
    assert (Hs : Rabs (e + r) <= A0 + Rabs r). { eapply Rle_trans; [apply Rabs_triang|]. lra. }
    assert (Hr : Rabs (a + r) <= 2 * A). { replace (a + r) with ((a - e) + (e + r)) by lra. eapply Rle_trans; [apply Rabs_triang|]. lra. }
    pose proof (add_is acc x a r Ha Hx ltac:(lra)) as Hq.
    pose proof (rn_add a r (is_fmt _ _ Ha) (is_fmt _ _ Hx)) as Hrn.
    destruct (IH _ _ (e + r) (A0 + Rabs r) (S j) n A Hq Hs ltac:(lra) ltac:(lia)) as [I1 I2]; auto.
    { replace (rn (a + r) - (e + r)) with ((rn (a + r) - (a + r)) + (a - e)) by lra. eapply Rle_trans; [apply Rabs_triang|]. rewrite S_INR.
      assert (ulp1 * Rabs (a + r) <= ulp1 * (2 * A)) by (apply Rmult_le_compat_l; lra). lra. }
    split; [exact I1|]. cbn [rsum length]. replace (j + S (length rs))%nat with (S j + length rs)%nat by lia. replace (e + (r + rsum rs)) with (e + r + rsum rs) by lra. exact I2.
Qed.
Lemma sum_is L (l : list b64) rs A n : Forall2 is l rs -> asum rs <= A -> (length rs <= n)%nat -> 2 * INR n * ulp1 <= 1 -> 2 * A <= big ->
  is (@nsum _ (NumB L) l) (rfold 0 rs) /\ Rabs (rfold 0 rs - rsum rs) <= 2 * INR (length rs) * ulp1 * A /\ Rabs (rfold 0 rs) <= 2 * A.
Proof.
  intros H HA Hn Hu Hb. pose proof (asum_pos rs) as P. pose proof ulp1_pos as U.
  destruct (fold_is l rs H (b64_ofZ 0) 0 0 0 0%nat n A) as [I1 I2]; auto.
  - apply (ofZ_exact 0). lia.
  - rewrite Rabs_R0. lra.
  - lra.
  - rewrite Rminus_0_r, Rabs_R0. cbn. lra.
  - split; [exact I1|]. rewrite Rplus_0_l in I2. cbn [Nat.add] in I2. split; [exact I2|].
    replace (rfold 0 rs) with ((rfold 0 rs - rsum rs) + rsum rs) by lra. eapply Rle_trans; [apply Rabs_triang|]. pose proof (rsum_asum rs).
    assert (2 * INR (length rs) * ulp1 * A <= 1 * A). { apply Rmult_le_compat_r; [lra|]. eapply Rle_trans; [|exact Hu]. apply Rmult_le_compat_r; [lra|]. apply Rmult_le_compat_l; [lra|]. apply le_INR; auto. }
    lra.
Qed.
Lemma rfold_mono rs ss : Forall2 Rle rs ss -> forall a b, a <= b -> rfold a rs <= rfold b ss.
Proof. induction 1 as [|r s rs ss H _ IH]; intros a b Hab; unfold rfold in *; cbn [fold_left]; auto. apply IH. apply rn_le. lra. Qed.

(** ** the bounds of [moderate] *)
Lemma tiny_pos : 0 < tiny. Proof. apply bpow_gt_0. Qed.
Lemma tiny_le : tiny <= ulp1. Proof. apply bpow_le. lia. Qed.
Lemma ulp1_small : 64 * ulp1 <= 1. Proof. unfold ulp1. replace 64 with (bpow radix2 6) by (cbn; lra). rewrite <- bpow_plus. change 1 with (bpow radix2 0). apply bpow_le. lia. Qed.
Lemma ulp1_inv : ulp1 * bpow radix2 53 = 1. Proof. unfold ulp1. rewrite <- bpow_plus. reflexivity. Qed.
Section Bounds.
  Variables (n : nat) (M : R).
  Hypothesis H : moderate n M.
  Lemma mod_M : 0 <= M. Proof. apply H. Qed.
  Lemma mod_n : 2 * INR n * ulp1 <= 1.
  Proof. destruct H as (_ & U & _). pose proof ulp1_pos. pose proof (pos_INR n). assert (0 <= INR n * ulp1) by (apply Rmult_le_pos; lra). nra. Qed.
  Lemma mod_n1 : 2 * (INR n + 1) * ulp1 <= / 31.
  Proof. destruct H as (_ & U & _). lra. Qed.
  Lemma mod_z z : (0 <= z <= 31 * Z.of_nat n)%Z -> (Z.abs z <= 2 ^ 53)%Z.
  Proof.
    intros Hz. destruct H as (_ & U & _). rewrite Z.abs_eq by lia. apply le_IZR. change (IZR (2 ^ 53)) with (bpow radix2 53). pose proof ulp1_inv as E. pose proof ulp1_pos as P.
    assert (A : IZR z <= 31 * (INR n + 1)). { rewrite INR_IZR_INZ. replace (31 * (IZR (Z.of_nat n) + 1)) with (IZR (31 * (Z.of_nat n + 1))) by (rewrite mult_IZR, plus_IZR; reflexivity). apply IZR_le. lia. }
    apply (Rmult_le_reg_l ulp1); [exact P|]. rewrite E. apply Rle_trans with (ulp1 * (31 * (INR n + 1))); [apply Rmult_le_compat_l; lra|]. lra.
  Qed.
  Lemma mod_big k : (k <= n)%nat -> 32 * (INR k * M) + 32 * M + 32 <= big.
  Proof.
    intros Hk. destruct H as (HM & _ & B). unfold big. apply le_INR in Hk. pose proof (pos_INR k). assert (INR k * M <= INR n * M) by (apply Rmult_le_compat_r; lra). pose proof (pos_INR n).
    assert (0 <= INR n * M) by (apply Rmult_le_pos; lra). lra.
  Qed.
  Lemma mod_e1 : 0 <= mean_error n M <= M / 31 + / 31.
  Proof.
    unfold mean_error. pose proof ulp1_pos. pose proof tiny_pos. pose proof tiny_le. pose proof ulp1_small. pose proof (pos_INR n). pose proof mod_M. pose proof mod_n1 as K.
    assert (0 <= 2 * (INR n + 1) * ulp1) by (apply Rmult_le_pos; lra). assert (0 <= 2 * (INR n + 1) * ulp1 * M) by (apply Rmult_le_pos; lra).
    assert (2 * (INR n + 1) * ulp1 * M <= / 31 * M) by (apply Rmult_le_compat_r; lra). split; [lra|]. lra.
  Qed.
End Bounds.

Lemma sum_abs_b M rs : Forall (fun r => Rabs r <= M) rs -> Rabs (rsum rs) <= INR (length rs) * M.
Proof. intros. eapply Rle_trans; [apply rsum_asum|apply asum_le; auto]. Qed.

(** ** the mean *)
Section Mean.
  Variables (L : libm) (n : nat) (M : R).
  Hypothesis HM : moderate n M.
  Definition rmean (rs : list R) : R := rn (rfold 0 rs / INR (length rs)).
  Lemma mean_is (v : list b64) rs : v <> [] -> Forall2 is v rs -> Forall (fun r => Rabs r <= M) rs -> (length rs <= n)%nat ->
    is (@ndiv _ (NumB L) (@nsum _ (NumB L) v) (@ofZ _ (NumB L) (Z.of_nat (length v)))) (rmean rs) /\ Rabs (rmean rs - rsum rs / INR (length rs)) <= mean_error n M.
  Proof.
    intros Hv Hr HB Hn. pose proof (F2_len _ _ _ Hr) as HL. pose proof (mod_M _ _ HM) as M0. pose proof ulp1_pos as U. pose proof tiny_pos as T. pose proof (mod_n _ _ HM) as N2.
    pose proof (mod_big _ _ HM _ Hn) as B. assert (Pk : 1 <= INR (length rs)). { apply (le_INR 1). rewrite <- HL. destruct v; [congruence|cbn; lia]. }
    assert (Mk : 0 <= INR (length rs) * M) by (apply Rmult_le_pos; lra).
    destruct (sum_is L v rs (INR (length rs) * M) n Hr (asum_le _ _ HB) Hn N2 ltac:(lra)) as (I1 & I2 & I3).
    set (k := INR (length rs)) in *. set (s := rfold 0 rs) in *. set (t := rsum rs) in *.
    assert (Hk : 0 < / k) by (apply Rinv_0_lt_compat; lra).
    assert (Q1 : Rabs (s / k - t / k) <= 2 * k * ulp1 * M).
    { replace (s / k - t / k) with ((s - t) * / k) by (field; lra). rewrite Rabs_mult, (Rabs_right (/ k)) by lra. apply (Rmult_le_reg_r k); [lra|]. rewrite Rmult_assoc, Rinv_l, Rmult_1_r by lra. lra. }
    assert (Q2 : Rabs (s / k) <= 2 * M).
    { unfold Rdiv. rewrite Rabs_mult, (Rabs_right (/ k)) by lra. apply (Rmult_le_reg_r k); [lra|]. rewrite Rmult_assoc, Rinv_l, Rmult_1_r by lra. lra. }
    assert (Z : is (b64_ofZ (Z.of_nat (length v))) k). { unfold k. rewrite INR_IZR_INZ, <- HL. apply ofZ_exact. apply (mod_z _ _ HM). lia. }
    split.
    - assert (K0 : k <> 0) by (apply Rgt_not_eq; lra). assert (KB : Rabs (s / k) <= big) by lra. exact (div_is _ _ s k I1 Z K0 KB).
    - unfold rmean. fold k s. pose proof (rn_abs (s / k)) as E. fold tiny in E.
      assert (E2 : ulp1 * Rabs (s / k) <= ulp1 * (2 * M)) by (apply Rmult_le_compat_l; lra).
      assert (K : k <= INR n) by (apply le_INR; auto). assert (W : 0 <= 2 * ulp1 * M) by (apply Rmult_le_pos; lra).
      assert (W2 : k * (2 * ulp1 * M) <= INR n * (2 * ulp1 * M)) by (apply Rmult_le_compat_r; auto).
      replace (rn (s / k) - t / k) with ((rn (s / k) - s / k) + (s / k - t / k)) by lra. eapply Rle_trans; [apply Rabs_triang|]. unfold mean_error. nra.
  Qed.
  Lemma mean_abs rs : rs <> [] -> Forall (fun r => Rabs r <= M) rs -> Rabs (rsum rs / INR (length rs)) <= M.
  Proof.
    intros Hv HB. assert (Pk : 1 <= INR (length rs)) by (apply (le_INR 1); destruct rs; [congruence|cbn; lia]). pose proof (sum_abs_b _ _ HB) as S.
    assert (Hk : 0 < / INR (length rs)) by (apply Rinv_0_lt_compat; lra). unfold Rdiv. rewrite Rabs_mult, (Rabs_right (/ _)) by lra. apply (Rmult_le_reg_r (INR (length rs))); [lra|]. rewrite Rmult_assoc, Rinv_l, Rmult_1_r by lra. lra.
  Qed.
  Lemma rmean_mono rs ss : Forall2 Rle rs ss -> rmean rs <= rmean ss.
  Proof.
    intros H. unfold rmean. rewrite <- (F2_len _ _ _ H). apply rn_le. unfold Rdiv. destruct rs as [|r rs].
    - inversion H. cbn. lra.
    - apply Rmult_le_compat_r; [left; apply Rinv_0_lt_compat, lt_0_INR; cbn; lia|]. apply rfold_mono; [exact H|lra].
  Qed.
  (** present values *)
  Lemma present_sized l l' : Forall2 (sized M) l l' -> exists rs, Forall2 is (filter (fun x => negb (is_nan x)) l) rs /\ filter (fun x => negb (isnan x)) l' = map Fin rs /\ Forall (fun r => Rabs r <= M) rs.
  Proof.
    induction 1 as [|a v l l' H _ (rs & I1 & I2 & I3)]; [exists []; repeat split; constructor|]. destruct H as [[H ->]|(r & H & -> & B)].
    - exists rs. cbn [filter]. rewrite H. cbn. auto.
    - exists (r :: rs). cbn [filter]. rewrite (nan_is _ _ H). cbn [negb]. split; [constructor; auto|]. split; [cbn; f_equal; exact I2|constructor; auto].
  Qed.
  Lemma filter_len {X} (p : X -> bool) l : (length (filter p l) <= length l)%nat.
  Proof. induction l as [|a l IH]; cbn; [lia|]. destruct (p a); cbn; lia. Qed.
  Definition avg64 (v : list b64) : b64 := match v with [] => B754_nan | _ => @ndiv _ (NumB L) (@nsum _ (NumB L) v) (@ofZ _ (NumB L) (Z.of_nat (length v))) end.
  Lemma nanmean_64 (l : list b64) : @nanmean _ (NumB L) l = avg64 (filter (fun x => negb (is_nan x)) l).
  Proof. reflexivity. Qed.
  Lemma mean_off l l' : Forall2 (sized M) l l' -> (length l <= n)%nat -> off (mean_error n M) M (@nanmean _ (NumB L) l) (nanmean l').
  Proof.
    intros H Hn. destruct (present_sized l l' H) as (rs & I1 & I2 & I3). rewrite nanmean_64. unfold nanmean. rewrite I2. pose proof (@filter_len b64 (fun x => negb (is_nan x)) l) as FL. unfold b64 in *.
    destruct (filter (fun x => negb (is_nan x)) l) as [|a v] eqn:E.
    - inversion I1. subst. left. split; reflexivity.
    - right. pose proof (F2_len _ _ _ I1) as HL. assert (rs <> []) by (intros ->; discriminate).
      destruct (mean_is (a :: v) rs ltac:(congruence) I1 I3 ltac:(lia)) as [J1 J2]. exists (rmean rs), (rsum rs / INR (length rs)). split; [exact J1|]. split; [|split; [exact J2|apply mean_abs; auto]].
      destruct rs as [|r rs]; [congruence|]. change (map Fin (r :: rs)) with (Fin r :: map Fin rs). cbv iota. change (Fin r :: map Fin rs) with (map Fin (r :: rs)). rewrite nsum_fin, map_length. cbn [ndiv ofZ NumFl fl_div].
      destruct (Req_EM_T _ 0) as [Q|Q]; [exfalso; apply eq_IZR in Q; cbn [length] in Q; lia|]. rewrite INR_IZR_INZ. reflexivity.
  Qed.
  Lemma present_under l l' : Forall2 (under M) l l' -> exists rs ss, Forall2 is (filter (fun x => negb (is_nan x)) l) rs /\ Forall2 is (filter (fun x => negb (is_nan x)) l') ss /\ Forall2 Rle rs ss /\ Forall (fun r => Rabs r <= M) rs /\ Forall (fun r => Rabs r <= M) ss.
  Proof.
    induction 1 as [|a b l l' H _ (rs & ss & I1 & I2 & I3 & I4 & I5)]; [exists [], []; repeat split; constructor|]. destruct H as [[H H']|(r & s & H & H' & O & B & B')].
    - exists rs, ss. cbn [filter]. rewrite H, H'. cbn [negb]. auto.
    - exists (r :: rs), (s :: ss). cbn [filter]. rewrite (nan_is _ _ H), (nan_is _ _ H'). cbn [negb]. repeat split; constructor; auto.
  Qed.
  Lemma mean_under l l' : Forall2 (under M) l l' -> (length l <= n)%nat -> under (M + mean_error n M) (@nanmean _ (NumB L) l) (@nanmean _ (NumB L) l').
  Proof.
    intros H Hn. destruct (present_under l l' H) as (rs & ss & I1 & I2 & I3 & I4 & I5). rewrite !nanmean_64. pose proof (@filter_len b64 (fun x => negb (is_nan x)) l) as FL. unfold b64 in *.
    pose proof (F2_len _ _ _ I1) as L1. pose proof (F2_len _ _ _ I2) as L2. pose proof (F2_len _ _ _ I3) as L3.
    destruct (filter (fun x => negb (is_nan x)) l) as [|a v] eqn:E.
    - destruct rs; [|discriminate]. destruct ss; [|discriminate]. destruct (filter (fun x => negb (is_nan x)) l'); [|discriminate]. left. split; reflexivity.
    - destruct (filter (fun x => negb (is_nan x)) l') as [|b v'] eqn:E'; [cbn [length] in *; lia|]. right.
      destruct (mean_is (a :: v) rs ltac:(congruence) I1 I4 ltac:(lia)) as [J1 J2]. destruct (mean_is (b :: v') ss ltac:(congruence) I2 I5 ltac:(lia)) as [J3 J4].
      exists (rmean rs), (rmean ss). split; [exact J1|]. split; [exact J3|]. split; [apply rmean_mono; exact I3|].
      assert (G : forall us, us <> [] -> Forall (fun r => Rabs r <= M) us -> Rabs (rmean us - rsum us / INR (length us)) <= mean_error n M -> Rabs (rmean us) <= M + mean_error n M).
      { intros us Hu Hb Hd. pose proof (mean_abs us Hu Hb). replace (rmean us) with ((rmean us - rsum us / INR (length us)) + rsum us / INR (length us)) by lra. eapply Rle_trans; [apply Rabs_triang|]. lra. }
      split; apply G; auto; intros ->; cbn [length] in *; lia.
  Qed.
End Mean.

(** ** the mean weighted by days *)
Section Days.
  Variables (L : libm) (n : nat) (M D : R).
  Hypothesis HM : moderate n M.
  Hypothesis HD : 0 <= D <= 2 * M + 1.
  Local Notation fits := (fun m => (1 <= m <= 31)%Z).
  (** the weighted values and their sum, rounded *)
  Fixpoint terms (tot : Z) (ms : list Z) (rs : list R) : list R :=
    match ms, rs with m :: ms, r :: rs => rn (r * rn (IZR m / IZR tot)) :: terms tot ms rs | _, _ => [] end.
  Fixpoint exact_terms (tot : Z) (ms : list Z) (ss : list R) : list R :=
    match ms, ss with m :: ms, s :: ss => s * (IZR m / IZR tot) :: exact_terms tot ms ss | _, _ => [] end.
  Definition weight (tot : Z) (ms : list Z) : R := rsum (map (fun m => IZR m / IZR tot) ms).
  Lemma terms_len tot ms : forall rs, length ms = length rs -> length (terms tot ms rs) = length rs.
  Proof. induction ms as [|m ms IH]; intros [|r rs] H; try discriminate; [reflexivity|]. cbn. f_equal. apply IH. cbn in H. lia. Qed.
  Lemma zsum_cons m ms : zsum (m :: ms) = (m + zsum ms)%Z.
  Proof. unfold zsum. cbn [fold_left]. assert (G : forall l a, fold_left Z.add l a = (a + fold_left Z.add l 0)%Z) by (induction l as [|b l IH]; intros a; cbn [fold_left]; [lia|]; rewrite (IH (a + b)%Z), (IH (0 + b)%Z); lia). rewrite G. lia. Qed.
  Lemma zsum_range ms : Forall fits ms -> (Z.of_nat (length ms) <= zsum ms <= 31 * Z.of_nat (length ms))%Z.
  Proof. induction 1 as [|m ms H _ IH]; [cbn; lia|]. rewrite zsum_cons. cbn [length]. lia. Qed.
  Lemma weight_zsum tot ms : weight tot ms = IZR (zsum ms) / IZR tot.
  Proof. unfold weight. induction ms as [|m ms IH]; [cbn; unfold Rdiv; rewrite Rmult_0_l; reflexivity|]. cbn [map rsum]. rewrite IH. rewrite zsum_cons, plus_IZR. unfold Rdiv. ring. Qed.
  Lemma weight_all ms : Forall fits ms -> 0 <= weight (zsum ms) ms <= 1.
  Proof.
    intros H. rewrite weight_zsum. destruct ms as [|m ms]; [cbn; unfold Rdiv; rewrite Rmult_0_l; lra|]. pose proof (zsum_range _ H) as K. cbn [length] in K.
    assert (0 < IZR (zsum (m :: ms))) by (apply (IZR_lt 0); lia). unfold Rdiv. rewrite Rinv_r by lra. lra.
  Qed.
  Lemma weight_pos tot ms : (0 < tot)%Z -> Forall fits ms -> 0 <= weight tot ms.
  Proof. intros Ht H. rewrite weight_zsum. pose proof (zsum_range _ H). apply Rmult_le_pos; [apply (IZR_le 0); lia|]. left. apply Rinv_0_lt_compat, (IZR_lt 0). lia. Qed.

  Lemma w_facts tot m : (1 <= m <= 31)%Z -> (m <= tot <= 31 * Z.of_nat n)%Z -> let w := IZR m / IZR tot in
    is (Bdiv mode_NE (b64_ofZ m) (b64_ofZ tot)) (rn w) /\ 0 < w <= 1 /\ 0 <= rn w /\ Rabs (rn w - w) <= ulp1 * w.
  Proof.
    intros Hm Ht w. pose proof ulp1_pos as U. assert (T0 : 0 < IZR tot) by (apply (IZR_lt 0); lia). assert (M0 : 1 <= IZR m) by (apply (IZR_le 1); lia). assert (MT : IZR m <= IZR tot) by (apply IZR_le; lia).
    assert (Hi : 0 < / IZR tot) by (apply Rinv_0_lt_compat; auto).
    assert (W : 0 < w) by (apply Rmult_lt_0_compat; lra). assert (W1 : w <= 1) by (unfold w; apply (Rmult_le_reg_r (IZR tot)); [auto|]; unfold Rdiv; rewrite Rmult_assoc, Rinv_l, Rmult_1_r by lra; lra).
    assert (E1 : is (b64_ofZ m) (IZR m)) by (apply ofZ_exact, (mod_z _ _ HM); lia). assert (E2 : is (b64_ofZ tot) (IZR tot)) by (apply ofZ_exact, (mod_z _ _ HM); lia).
    split; [|split; [auto|split]].
    - apply (div_is _ _ _ _ E1 E2); [lra|]. fold w. rewrite Rabs_right by lra. apply Rle_trans with 1; [auto|]. change 1 with (bpow radix2 0). apply bpow_le. lia.
    - apply rn_ge_fmt; [apply fmt_0|lra].
    - rewrite <- (Rabs_right w) at 3 by lra. apply rn_rel. rewrite Rabs_right by lra.
      assert (TB : IZR tot <= bpow radix2 53). { change (bpow radix2 53) with (IZR (2 ^ 53)). apply IZR_le. pose proof (mod_z _ _ HM tot ltac:(lia)). lia. }
      apply Rle_trans with (bpow radix2 (-53)); [apply bpow_le; lia|]. pose proof ulp1_inv as I. fold ulp1. unfold w.
      apply (Rmult_le_reg_r (IZR tot)); [auto|]. unfold Rdiv. rewrite Rmult_assoc, Rinv_l, Rmult_1_r by lra. apply Rle_trans with (ulp1 * bpow radix2 53); [apply Rmult_le_compat_l; lra|]. lra.
  Qed.

  Lemma mult_facts r w w' : Rabs r <= D -> 0 < w <= 1 -> Rabs (w' - w) <= ulp1 * w ->
    Rabs (r * w') <= big /\ Rabs (rn (r * w') - r * w) <= 3 * ulp1 * D * w + tiny.
  Proof.
    intros Hr Hw Hd. pose proof ulp1_pos as U. pose proof ulp1_small as US. pose proof (mod_big _ _ HM 0%nat ltac:(lia)) as B. cbn [INR] in B. pose proof (mod_M _ _ HM) as M0.
    assert (A1 : Rabs (r * w' - r * w) <= D * (ulp1 * w)). { replace (r * w' - r * w) with (r * (w' - w)) by ring. rewrite Rabs_mult. apply Rmult_le_compat; auto using Rabs_pos. }
    assert (A2 : Rabs (r * w) <= D * w). { rewrite Rabs_mult, (Rabs_right w) by lra. apply Rmult_le_compat_r; lra. }
    assert (DW : 0 <= D * w) by (apply Rmult_le_pos; lra). assert (DU : D * (ulp1 * w) <= D * w). { replace (D * (ulp1 * w)) with (ulp1 * (D * w)) by ring. nra. }
    assert (A3 : Rabs (r * w') <= 2 * (D * w)). { replace (r * w') with ((r * w' - r * w) + r * w) by ring. eapply Rle_trans; [apply Rabs_triang|]. lra. }
    assert (DD : D * w <= D * 1) by (apply Rmult_le_compat_l; lra).
    split; [lra|]. pose proof (rn_abs (r * w')) as E. fold tiny in E. assert (E2 : ulp1 * Rabs (r * w') <= ulp1 * (2 * (D * w))) by (apply Rmult_le_compat_l; lra).
    replace (rn (r * w') - r * w) with ((rn (r * w') - r * w') + (r * w' - r * w)) by ring. eapply Rle_trans; [apply Rabs_triang|].
    replace (3 * ulp1 * D * w) with (ulp1 * (2 * (D * w)) + D * (ulp1 * w)) by ring. lra.
  Qed.

  Lemma terms_ok tot (ms : list Z) : Forall fits ms -> (zsum ms <= tot <= 31 * Z.of_nat n)%Z -> forall (l : list b64) rs, length ms = length l -> Forall2 is l rs -> Forall (fun r => Rabs r <= D) rs ->
    Forall2 is (map (fun p => @nmul _ (NumB L) (snd p) (@ndiv _ (NumB L) (@ofZ _ (NumB L) (fst p)) (@ofZ _ (NumB L) tot))) (combine ms l)) (terms tot ms rs) /\
    Rabs (rsum (terms tot ms rs) - rsum (exact_terms tot ms rs)) <= 3 * ulp1 * D * weight tot ms + INR (length ms) * tiny /\
    asum (terms tot ms rs) <= 2 * D * weight tot ms + INR (length ms) * tiny.
  Proof.
    intros Hf. induction Hf as [|m ms Hm Hf IH]; intros Ht l rs Hl Hr HB.
    - destruct l; [|discriminate]. inversion Hr; subst. cbn. split; [constructor|]. rewrite Rminus_0_r, Rabs_R0. unfold asum, weight. cbn. lra.
    - destruct l as [|x l]; [discriminate|]. inversion Hr as [|? r ? rs' Hx Hrs]; subst. apply Forall_cons_iff in HB. destruct HB as [Hb HB].
      pose proof (zsum_range _ Hf) as ZR. rewrite zsum_cons in Ht.
      destruct (IH ltac:(lia) l rs' ltac:(cbn in Hl; lia) Hrs HB) as (I1 & I2 & I3). clear IH.
      destruct (w_facts tot m Hm ltac:(lia)) as (W1 & W2 & W3 & W4). cbv zeta in *. set (w := IZR m / IZR tot) in *.
      destruct (mult_facts r w (rn w) Hb W2 W4) as [P1 P2]. pose proof ulp1_pos as U. pose proof ulp1_small as US. pose proof tiny_pos as T.
      assert (Wt : weight tot (m :: ms) = w + weight tot ms) by reflexivity. rewrite Wt. cbn [length]. rewrite S_INR.
      cbn [combine map terms exact_terms rsum]. fold w. unfold asum in I3 |- *. cbn [map rsum].
      assert (DW : 0 <= D * w) by (apply Rmult_le_pos; lra).
      assert (A2 : Rabs (r * w) <= D * w). { rewrite Rabs_mult, (Rabs_right w) by lra. apply Rmult_le_compat_r; lra. }
      split; [constructor; [cbn [snd fst]; apply mul_is; auto|exact I1]|]. split.
      + replace (rn (r * rn w) + rsum (terms tot ms rs') - (r * w + rsum (exact_terms tot ms rs'))) with ((rn (r * rn w) - r * w) + (rsum (terms tot ms rs') - rsum (exact_terms tot ms rs'))) by ring.
        eapply Rle_trans; [apply Rabs_triang|]. lra.
      + assert (K : Rabs (rn (r * rn w)) <= 2 * (D * w) + tiny).
        { replace (rn (r * rn w)) with ((rn (r * rn w) - r * w) + r * w) by ring. eapply Rle_trans; [apply Rabs_triang|]. replace (3 * ulp1 * D * w) with (3 * ulp1 * (D * w)) in P2 by ring. nra. }
        lra.
  Qed.
  Lemma exact_close tot e (ms : list Z) : Forall fits ms -> (0 < tot)%Z -> forall rs ss, length ms = length rs -> Forall2 (fun r s => Rabs (r - s) <= e) rs ss ->
    Rabs (rsum (exact_terms tot ms rs) - rsum (exact_terms tot ms ss)) <= e * weight tot ms.
  Proof.
    intros Hf Ht. induction Hf as [|m ms Hm Hf IH]; intros rs ss Hl HR.
    - destruct rs; [|discriminate]. inversion HR; subst. cbn. rewrite Rminus_0_r, Rabs_R0. unfold weight. cbn. lra.
    - destruct rs as [|r rs]; [discriminate|]. inversion HR as [|? s ? ss' Hd HR']; subst. specialize (IH rs ss' ltac:(cbn in Hl; lia) HR'). cbn [exact_terms rsum]. change (weight tot (m :: ms)) with (IZR m / IZR tot + weight tot ms). set (w := IZR m / IZR tot) in *.
      assert (W : 0 <= w). { apply Rmult_le_pos; [apply (IZR_le 0); lia|]. left. apply Rinv_0_lt_compat, (IZR_lt 0). lia. }
      replace (r * w + rsum (exact_terms tot ms rs) - (s * w + rsum (exact_terms tot ms ss'))) with ((r - s) * w + (rsum (exact_terms tot ms rs) - rsum (exact_terms tot ms ss'))) by ring.
      eapply Rle_trans; [apply Rabs_triang|]. rewrite Rabs_mult, (Rabs_right w) by lra. assert (Rabs (r - s) * w <= e * w) by (apply Rmult_le_compat_r; lra). lra.
  Qed.
  Lemma exact_size tot B (ms : list Z) : Forall fits ms -> (0 < tot)%Z -> forall ss, length ms = length ss -> Forall (fun s => Rabs s <= B) ss -> Rabs (rsum (exact_terms tot ms ss)) <= B * weight tot ms.
  Proof.
    intros Hf Ht. induction Hf as [|m ms Hm Hf IH]; intros ss Hl HB.
    - destruct ss; [|discriminate]. cbn. rewrite Rabs_R0. unfold weight. cbn. lra.
    - destruct ss as [|s ss]; [discriminate|]. apply Forall_cons_iff in HB. destruct HB as [Hb HB]. specialize (IH ss ltac:(cbn in Hl; lia) HB). cbn [exact_terms rsum]. change (weight tot (m :: ms)) with (IZR m / IZR tot + weight tot ms). set (w := IZR m / IZR tot) in *.
      assert (W : 0 <= w). { apply Rmult_le_pos; [apply (IZR_le 0); lia|]. left. apply Rinv_0_lt_compat, (IZR_lt 0). lia. }
      eapply Rle_trans; [apply Rabs_triang|]. rewrite Rabs_mult, (Rabs_right w) by lra. assert (Rabs s * w <= B * w) by (apply Rmult_le_compat_r; lra). lra.
  Qed.
  Lemma terms_mono tot (ms : list Z) : Forall fits ms -> (0 < tot)%Z -> forall rs ss, length ms = length rs -> Forall2 Rle rs ss -> Forall2 Rle (terms tot ms rs) (terms tot ms ss).
  Proof.
    intros Hf Ht. induction Hf as [|m ms Hm Hf IH]; intros rs ss Hl HR; [destruct rs; [|discriminate]; inversion HR; constructor|].
    destruct rs as [|r rs]; [discriminate|]. inversion HR as [|? s ? ss' Hd HR']; subst. cbn [terms]. constructor; [|apply IH; [cbn in Hl; lia|exact HR']].
    apply rn_le. apply Rmult_le_compat_r; [|exact Hd]. apply rn_ge_fmt; [apply fmt_0|]. apply Rmult_le_pos; [apply (IZR_le 0); lia|]. left. apply Rinv_0_lt_compat, (IZR_lt 0). lia.
  Qed.
  Lemma nansum_64 (l : list b64) rs : Forall2 is l rs -> @nansum _ (NumB L) l = @nsum _ (NumB L) l.
  Proof. intros H. unfold nansum. f_equal. induction H as [|x r l rs Hx _ IH]; [reflexivity|]. cbn [map]. change (@isnan _ (NumB L) x) with (is_nan x). rewrite (nan_is _ _ Hx), IH. reflexivity. Qed.
  Lemma nansum_fl rs : nansum (map Fin rs) = Fin (rsum rs).
  Proof. rewrite <- nsum_fin. unfold nansum. f_equal. rewrite map_map. apply map_ext. reflexivity. Qed.
  Lemma exact_fl tot ms : (0 < tot)%Z -> forall ss, length ms = length ss -> map (fun p => (snd p * (ofZ (fst p) / ofZ tot))%num) (combine ms (map Fin ss)) = map Fin (exact_terms tot ms ss).
  Proof.
    intros Ht. induction ms as [|m ms IH]; intros [|s ss] Hl; try discriminate; [reflexivity|]. cbn [map combine exact_terms]. rewrite IH by (cbn in Hl; lia). f_equal. cbn [fst snd nmul ndiv ofZ NumFl fl_div fl_mul].
    destruct (Req_EM_T (IZR tot) 0) as [Q|Q]; [apply eq_IZR in Q; lia|]. reflexivity.
  Qed.
  (** the sum of the rounded terms *)
  Lemma days_sum (ms : list Z) (l : list b64) rs : Forall fits ms -> length ms = length l -> (length l <= n)%nat -> Forall2 is l rs -> Forall (fun r => Rabs r <= D) rs ->
    is (@nansum _ (NumB L) (map (fun p => @nmul _ (NumB L) (snd p) (@ndiv _ (NumB L) (@ofZ _ (NumB L) (fst p)) (@ofZ _ (NumB L) (zsum ms)))) (combine ms l))) (rfold 0 (terms (zsum ms) ms rs)) /\
    Rabs (rfold 0 (terms (zsum ms) ms rs) - rsum (exact_terms (zsum ms) ms rs)) <= 4 * (INR n + 1) * ulp1 * D + 2 * INR n * tiny /\
    Rabs (rfold 0 (terms (zsum ms) ms rs)) <= 4 * D + 2 * INR n * tiny.
  Proof.
    intros Hf Hl Hn Hr HB. pose proof (zsum_range _ Hf) as ZR. pose proof (F2_len _ _ _ Hr) as HL. pose proof ulp1_pos as U. pose proof tiny_pos as T. pose proof tiny_le as TU. pose proof (mod_n _ _ HM) as N2. pose proof (mod_M _ _ HM) as M0. pose proof (pos_INR n) as Pn.
    destruct (terms_ok (zsum ms) ms Hf ltac:(lia) l rs Hl Hr HB) as (T1 & T2 & T3). pose proof (weight_all ms Hf) as W.
    assert (K : INR (length ms) <= INR n) by (apply le_INR; lia). pose proof (pos_INR (length ms)) as K0. assert (KT : INR (length ms) * tiny <= INR n * tiny) by (apply Rmult_le_compat_r; lra).
    assert (DW : D * weight (zsum ms) ms <= D * 1) by (apply Rmult_le_compat_l; lra). assert (DW0 : 0 <= D * weight (zsum ms) ms) by (apply Rmult_le_pos; lra).
    assert (NT : 0 <= INR n * tiny <= INR n * ulp1) by (split; [apply Rmult_le_pos; lra|apply Rmult_le_compat_l; lra]).
    pose proof (mod_big _ _ HM 0%nat ltac:(lia)) as B. cbn [INR] in B.
    assert (Lt : length (terms (zsum ms) ms rs) = length ms) by (rewrite terms_len; lia).
    destruct (sum_is L _ _ (2 * D + INR n * tiny) n T1 ltac:(lra) ltac:(lia) N2 ltac:(lra)) as (S1 & S2 & S3).
    split; [rewrite (nansum_64 _ _ T1); exact S1|]. split; [|lra].
    rewrite Lt in S2. set (f := rfold 0 _) in *. set (g := rsum (terms _ _ _)) in *. set (h := rsum (exact_terms _ _ _)) in *.
    replace (f - h) with ((f - g) + (g - h)) by ring. eapply Rle_trans; [apply Rabs_triang|].
    assert (S4 : 2 * INR (length ms) * ulp1 * (2 * D + INR n * tiny) <= 2 * INR n * ulp1 * (2 * D + INR n * tiny)).
    { apply Rmult_le_compat_r; [lra|]. apply Rmult_le_compat_r; [lra|]. lra. }
    assert (S5 : 2 * INR n * ulp1 * (INR n * tiny) <= 1 * (INR n * tiny)) by (apply Rmult_le_compat_r; lra).
    assert (S6 : ulp1 * (D * weight (zsum ms) ms) <= ulp1 * D) by (apply Rmult_le_compat_l; lra).
    assert (0 <= ulp1 * D) by (apply Rmult_le_pos; lra).
    replace (4 * (INR n + 1) * ulp1 * D) with (2 * INR n * ulp1 * (2 * D) + 4 * (ulp1 * D)) by ring.
    replace (2 * INR n * ulp1 * (2 * D + INR n * tiny)) with (2 * INR n * ulp1 * (2 * D) + 2 * INR n * ulp1 * (INR n * tiny)) in S4 by ring.
    replace (3 * ulp1 * D * weight (zsum ms) ms) with (3 * (ulp1 * (D * weight (zsum ms) ms))) in T2 by ring. lra.
  Qed.
End Days.

Section Instances.
  Variables (L : libm) (n : nat) (M : R).
  Hypothesis HM : moderate n M.
  Lemma D_ok : 0 <= M + mean_error n M <= 2 * M + 1.
  Proof. pose proof (mod_e1 _ _ HM). pose proof (mod_M _ _ HM). lra. Qed.
  Lemma off_split e B (l : list b64) l' : Forall2 (off e B) l l' -> Forall (fun a => is_nan a = false) l ->
    exists rs ss, Forall2 is l rs /\ l' = map Fin ss /\ Forall2 (fun r s => Rabs (r - s) <= e) rs ss /\ Forall (fun s => Rabs s <= B) ss /\ Forall (fun r => Rabs r <= B + e) rs.
  Proof.
    intros H. induction H as [|a v l l' H _ IH]; intros Hn; [exists [], []; repeat split; constructor|]. apply Forall_cons_iff in Hn. destruct Hn as [Ha Hn]. destruct (IH Hn) as (rs & ss & I1 & -> & I3 & I4 & I5).
    destruct H as [[H _]|(r & s & H & -> & E & Bd)]; [congruence|]. exists (r :: rs), (s :: ss). split; [constructor; auto|]. split; [reflexivity|]. split; [constructor; auto|]. split; [constructor; auto|]. constructor; auto.
    replace r with ((r - s) + s) by ring. eapply Rle_trans; [apply Rabs_triang|]. lra.
  Qed.
  Lemma days_off (ms : list Z) (l : list b64) l' : length ms = length l -> (length l <= n)%nat -> Forall (fun m => (1 <= m <= 31)%Z) ms -> Forall2 (off (mean_error n M) M) l l' -> Forall (fun a => @isnan _ (NumB L) a = false) l ->
    off (season_error n M) M (@nansum _ (NumB L) (map (fun p => @nmul _ (NumB L) (snd p) (@ndiv _ (NumB L) (@ofZ _ (NumB L) (fst p)) (@ofZ _ (NumB L) (zsum ms)))) (combine ms l)))
      (nansum (map (fun p => (snd p * (ofZ (fst p) / ofZ (zsum ms)))%num) (combine ms l'))).
  Proof.
    intros Hl Hn Hf Ho Hnan. destruct (off_split _ _ l l' Ho Hnan) as (rs & ss & I1 & -> & I3 & I4 & I5). right. pose proof D_ok as HD. pose proof (mod_e1 _ _ HM) as E1. pose proof (mod_M _ _ HM) as M0.
    destruct (days_sum L n M (M + mean_error n M) HM HD ms l rs Hf Hl Hn I1 I5) as (S1 & S2 & _). pose proof (F2_len _ _ _ I1) as L1. pose proof (F2_len _ _ _ I3) as L2. pose proof (weight_all ms Hf) as W.
    exists (rfold 0 (terms (zsum ms) ms rs)), (rsum (exact_terms (zsum ms) ms ss)). split; [exact S1|].
    destruct ms as [|m ms].
    - destruct l; [|discriminate]. destruct rs; [|discriminate]. destruct ss; [|discriminate]. cbn [combine map exact_terms rsum] in *. split; [apply (nansum_fl [])|]. rewrite Rabs_R0. split; [|lra]. eapply Rle_trans; [exact S2|]. unfold season_error. lra.
    - pose proof (zsum_range _ Hf) as ZR. cbn [length] in ZR. assert (Tp : (0 < zsum (m :: ms))%Z) by lia. set (ms' := m :: ms) in *.
      split; [rewrite exact_fl by (auto; lia); apply nansum_fl|].
      pose proof (exact_close (zsum ms') (mean_error n M) ms' Hf Tp rs ss ltac:(lia) I3) as C. pose proof (exact_size (zsum ms') M ms' Hf Tp ss ltac:(lia) I4) as Z.
      assert (mean_error n M * weight (zsum ms') ms' <= mean_error n M * 1) by (apply Rmult_le_compat_l; lra). assert (M * weight (zsum ms') ms' <= M * 1) by (apply Rmult_le_compat_l; lra).
      split; [|lra]. set (f := rfold 0 _) in *. set (g := rsum (exact_terms _ _ rs)) in *. set (h := rsum (exact_terms _ _ ss)) in *.
      replace (f - h) with ((f - g) + (g - h)) by ring. eapply Rle_trans; [apply Rabs_triang|]. unfold season_error. lra.
  Qed.
  Lemma under_split B (l l' : list b64) : Forall2 (under B) l l' -> Forall (fun a => is_nan a = false) l ->
    exists rs ss, Forall2 is l rs /\ Forall2 is l' ss /\ Forall2 Rle rs ss /\ Forall (fun s => Rabs s <= B) rs /\ Forall (fun r => Rabs r <= B) ss.
  Proof.
    intros H. induction H as [|a b l l' H _ IH]; intros Hn; [exists [], []; repeat split; constructor|]. apply Forall_cons_iff in Hn. destruct Hn as [Ha Hn]. destruct (IH Hn) as (rs & ss & I1 & I2 & I3 & I4 & I5).
    destruct H as [[H _]|(r & s & H & H' & O & Bd & Bd')]; [congruence|]. exists (r :: rs), (s :: ss). repeat split; constructor; auto.
  Qed.
  Lemma days_under (ms : list Z) (l l' : list b64) : length ms = length l -> (length l <= n)%nat -> Forall (fun m => (1 <= m <= 31)%Z) ms -> Forall2 (under (M + mean_error n M)) l l' -> Forall (fun a => @isnan _ (NumB L) a = false) l ->
    under (M + season_error n M) (@nansum _ (NumB L) (map (fun p => @nmul _ (NumB L) (snd p) (@ndiv _ (NumB L) (@ofZ _ (NumB L) (fst p)) (@ofZ _ (NumB L) (zsum ms)))) (combine ms l)))
      (@nansum _ (NumB L) (map (fun p => @nmul _ (NumB L) (snd p) (@ndiv _ (NumB L) (@ofZ _ (NumB L) (fst p)) (@ofZ _ (NumB L) (zsum ms)))) (combine ms l'))).
  Proof.
    intros Hl Hn Hf Ho Hnan. destruct (under_split _ l l' Ho Hnan) as (rs & ss & I1 & I2 & I3 & I4 & I5). right. pose proof D_ok as HD. pose proof (mod_e1 _ _ HM) as E1. pose proof (mod_M _ _ HM) as M0.
    pose proof (F2_len _ _ _ I1) as L1. pose proof (F2_len _ _ _ I3) as L2. pose proof (F2_len _ _ _ I2) as L3.
    destruct (days_sum L n M (M + mean_error n M) HM HD ms l rs Hf Hl Hn I1 I4) as (S1 & S2 & _).
    destruct (days_sum L n M (M + mean_error n M) HM HD ms l' ss Hf ltac:(lia) ltac:(lia) I2 I5) as (S1' & S2' & _). pose proof (weight_all ms Hf) as W.
    exists (rfold 0 (terms (zsum ms) ms rs)), (rfold 0 (terms (zsum ms) ms ss)). split; [exact S1|]. split; [exact S1'|].
    assert (G : forall us, length us = length ms -> Forall (fun r => Rabs r <= M + mean_error n M) us -> Rabs (rfold 0 (terms (zsum ms) ms us) - rsum (exact_terms (zsum ms) ms us)) <= 4 * (INR n + 1) * ulp1 * (M + mean_error n M) + 2 * INR n * tiny -> Rabs (rfold 0 (terms (zsum ms) ms us)) <= M + season_error n M).
    { intros us Hu HB HE. assert (X : Rabs (rsum (exact_terms (zsum ms) ms us)) <= M + mean_error n M).
      { destruct ms as [|m ms]; [destruct us; [|discriminate]; cbn; rewrite Rabs_R0; lra|]. pose proof (zsum_range _ Hf) as ZR. cbn [length] in ZR.
        eapply Rle_trans; [apply (exact_size _ (M + mean_error n M)); auto; lia|]. apply Rle_trans with ((M + mean_error n M) * 1); [apply Rmult_le_compat_l; lra|lra]. }
      revert HE X. generalize (rfold 0 (terms (zsum ms) ms us)) (rsum (exact_terms (zsum ms) ms us)). intros f g HE X. pose proof (Rabs_triang (f - g) g) as Y. replace (f - g + g) with f in Y by ring. unfold season_error. lra. }
    split; [|split; apply G; auto; lia].
    destruct ms as [|m ms]; [cbn; lra|]. pose proof (zsum_range _ Hf) as ZR. cbn [length] in ZR. apply rfold_mono; [|lra]. apply terms_mono; auto; lia.
  Qed.
End Instances.
