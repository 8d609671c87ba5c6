(** delta_pressure in binary64: which layers exist, their sign, and the rounding error of their sum. *)
From Coq Require Import Reals List Bool Arith ZArith Lra Lia.
From Flocq Require Import Core BinarySingleNaN Plus_error.
From Verif Require Import PyBase Num NumFacts Arr ArrFacts PyFacts Spec SpecSum DeltaP DeltaPFacts DeltaPApi DeltaPGen NumB64 SpecB64 B64Facts.
Import ListNotations.
Local Open Scope R_scope.

Lemma hi_big : 4 * hi900 <= big.
Proof. change 4 with (bpow radix2 2). unfold hi900, big. rewrite <- bpow_plus. apply bpow_le. lia. Qed.
Lemma lo_pos : 0 < lo900. Proof. apply bpow_gt_0. Qed.
Lemma lo_tiny : bpow radix2 (-1021) <= lo900. Proof. apply bpow_le. lia. Qed.
Lemma ulp1_small : ulp1 <= / 1024.
Proof. change (/ 1024) with (bpow radix2 (-10)). apply bpow_le. lia. Qed.

(** the minimum of binary64 levels *)
Section Gen.
  Variable L : libm.
  Local Instance NB : Num b64 := NumB L.

  Lemma two_is : is (ofZ 2) 2. Proof. apply (ofZ_exact 2). apply Z.leb_le. reflexivity. Qed.
  Lemma zero_is : is (ofZ 0) 0. Proof. apply (ofZ_exact 0). apply Z.leb_le. reflexivity. Qed.
  Lemma half_is x r : is x r -> bpow radix2 (-1021) <= Rabs r -> Rabs r <= big -> is (ndiv x (ofZ 2)) (r / 2).
  Proof.
    intros H H1 H2. assert (F : fmt (r / 2)) by (apply fmt_half; auto; eapply is_fmt; eauto). rewrite <- (rn_fmt _ F).
    apply (div_is x (ofZ 2) r 2 H two_is); [lra|]. unfold Rdiv. rewrite Rabs_mult, (Rabs_pos_eq (/2)) by lra. pose proof (Rabs_pos r). lra.
  Qed.
  Lemma nmin_is x y a b : is x a -> is y b -> is (nmin x y) (Rmin a b).
  Proof.
    intros Hx Hy. unfold nmin. change (isnan x) with (is_nan x). change (isnan y) with (is_nan y).
    rewrite (nan_is _ _ Hx), (nan_is _ _ Hy). change (nle x y) with (Bleb x y). rewrite (le_is _ _ _ _ Hx Hy).
    destruct (Rle_bool_spec a b); [rewrite Rmin_left by auto; auto|rewrite Rmin_right by lra; auto].
  Qed.
  Lemma nminl_is l v : Forall2 is l v -> forall x r, is x r -> is (nminl x l) (rminl r v).
  Proof.
    unfold nminl. induction 1 as [|y s l v Hy H IH]; intros x r Hx; [exact Hx|]. cbn [fold_left rminl]. apply IH. apply nmin_is; auto.
  Qed.
  Lemma filter_is l v : Forall2 is l v -> filter (fun x : b64 => negb (isnan x)) l = l.
  Proof. induction 1 as [|x r l v H _ IH]; [reflexivity|]. cbn [filter]. change (isnan x) with (is_nan x). rewrite (nan_is _ _ H). cbn. f_equal. exact IH. Qed.

  Lemma lev_min_is isda l v at' m : Forall2 is l v -> (0 < List.length v)%nat -> In m v -> (forall y, In y v -> m <= y) ->
    exists x, lev_min (mkLevels isda l at') = Ok x /\ is x m.
  Proof.
    intros H Hn Hin Hle. unfold lev_min. cbn [lev_da lev_vals]. rewrite (filter_is _ _ H).
    assert (E : (if isda then l else l) = l) by (destruct isda; auto). rewrite E.
    destruct H as [|x r l v Hx H]; [cbn in Hn; lia|]. eexists. split; [reflexivity|].
    rewrite <- (rminl_unique r v m) by auto. apply nminl_is; auto.
  Qed.

  Lemma eff_top_is isda (l : list b64) v (down : bool) at' t tb top : Forall2 is l v -> increasing v -> (0 < List.length v)%nat -> top <= at_ v 0 ->
    t = Some tb /\ is tb top \/ t = None /\ top = at_ v 0 ->
    exists x, eff_top (mkLevels isda (if down then l else rev l) at') t = Ok x /\ is x top.
  Proof.
    intros H Hi Hn Ht Hc. unfold eff_top.
    assert (H' : Forall2 is (if down then l else rev l) (if down then v else rev v)).
    { destruct down; auto. clear -H. induction H; cbn; [constructor|]. apply Forall2_app; auto. }
    destruct (lev_min_is isda _ _ at' (at_ v 0) H') as (x & E & Hx).
    - destruct down; rewrite ?rev_length; auto.
    - destruct down; [|apply -> in_rev]; apply nth_In; auto.
    - intros y Hy. apply increasing_min; auto. destruct down; auto. apply in_rev; auto.
    - rewrite E. cbn [bind]. destruct Hc as [[-> Hb]|[-> ->]]; [|exists x; auto].
      exists tb. split; auto. unfold ngt. change (nlt x tb) with (Bltb x tb). rewrite (lt_is _ _ _ _ Hx Hb). rewrite Rlt_bool_false by lra. reflexivity.
  Qed.

  (** the caller's order of the levels does not matter *)
  Lemma delta_pressure1D_rev_gen (l : list b64) ps top : (2 <= List.length l)%nat ->
    nlt (nth 1 l nnan) (nth 0 l nnan) = false -> nlt (nth (List.length l - 2) l nnan) (nth (List.length l - 1) l nnan) = true ->
    delta_pressure1D (rev l) ps top = rmap (@rev b64) (delta_pressure1D l ps top).
  Proof.
    intros Hn E2 E1. unfold delta_pressure1D.
    destruct (nlt top (ofZ 0)); [reflexivity|]. destruct (ngt top ps); [reflexivity|].
    rewrite (pyget_Z l 1 nnan) by lia. rewrite (pyget_Z l 0 nnan) by lia.
    rewrite (pyget_Z (rev l) 1 nnan) by (rewrite rev_length; lia). rewrite (pyget_Z (rev l) 0 nnan) by (rewrite rev_length; lia).
    change (Z.to_nat 1) with 1%nat. change (Z.to_nat 0) with 0%nat. rewrite !rev_nth by lia. cbn [bind]. rewrite E1, E2, rev_involutive.
    destruct (nonzero _) as [|i0 rest]; [reflexivity|].
    repeat (match goal with |- context [bind (?x) _] => destruct x; cbn [bind rmap]; [|reflexivity] end).
    reflexivity.
  Qed.

  Section Column.
    Variables (l : list b64) (v : list R) (psb topb : b64) (ps top : R).
    Notation n := (List.length v).
    Hypotheses (Hl : Forall2 is l v) (Hinc : increasing v) (Hn : (2 <= n)%nat) (Hlo : lo900 <= at_ v 0) (Hhi : at_ v (n - 1) <= hi900)
               (Htb : is topb top) (Htop : 0 <= top <= at_ v 0) (Hpb : is psb ps) (Hps : rmid v 1 < ps) (Hpsh : ps <= hi900).

    Lemma len_l : List.length l = n. Proof. eapply Forall2_len; eauto. Qed.
    Lemma nth_is k : (k < n)%nat -> is (nth k l nnan) (at_ v k).
    Proof. intros H. unfold at_. apply (Forall2_nth' is l v k nnan 0 Hl). rewrite len_l. exact H. Qed.
    Lemma v_ge k : (k < n)%nat -> lo900 <= at_ v k.
    Proof. intros H. eapply Rle_trans; [exact Hlo|]. apply increasing_le; auto. lia. Qed.
    Lemma v_le k : (k < n)%nat -> at_ v k <= hi900.
    Proof. intros H. eapply Rle_trans; [|exact Hhi]. apply increasing_le; auto; lia. Qed.
    Lemma v_lt i j : (i < j < n)%nat -> at_ v i < at_ v j. Proof. intros H. apply Hinc; lia. Qed.
    Lemma v_fmt k : (k < n)%nat -> fmt (at_ v k). Proof. intros H. eapply is_fmt, nth_is; eauto. Qed.
    Lemma fmt_double x : fmt x -> fmt (2 * x).
    Proof.
      intros F. apply FLT_format_generic in F; [|typeclasses eauto]. destruct F as [[m e] E1 E2 E3]. cbn in E2, E3.
      apply generic_format_FLT. exists (Float radix2 m (e + 1)); [|exact E2|cbn; lia].
      rewrite E1. unfold F2R. cbn [Fnum Fexp]. rewrite bpow_plus. change (bpow radix2 1) with 2. lra.
    Qed.

    (** rounded midpoints lie between their levels *)
    Lemma rmid_between k : (1 <= k < n)%nat -> at_ v (k - 1) <= rmid v k <= at_ v k.
    Proof.
      intros Hk. unfold rmid. pose proof (v_lt (k - 1) k ltac:(lia)).
      assert (2 * at_ v (k - 1) <= rn (at_ v k + at_ v (k - 1))) by (apply rn_ge_fmt; [apply fmt_double, v_fmt; lia|lra]).
      assert (rn (at_ v k + at_ v (k - 1)) <= 2 * at_ v k) by (apply rn_le_fmt; [apply fmt_double, v_fmt; lia|lra]). lra.
    Qed.
    Lemma rmid_mono i j : (1 <= i <= j)%nat -> (j < n)%nat -> rmid v i <= rmid v j.
    Proof.
      intros H Hj. destruct (Nat.eq_dec i j) as [->|D]; [lra|]. pose proof (rmid_between i ltac:(lia)). pose proof (rmid_between j ltac:(lia)).
      pose proof (increasing_le v i (j - 1) Hinc ltac:(lia) ltac:(lia)). lra.
    Qed.
    Lemma mid_is k : (1 <= k < n)%nat -> is (mid l k) (rmid v k).
    Proof.
      intros Hk. unfold mid, rmid. pose proof (v_ge k ltac:(lia)). pose proof (v_ge (k - 1) ltac:(lia)). pose proof (v_le k ltac:(lia)). pose proof (v_le (k - 1) ltac:(lia)).
      pose proof lo_pos. pose proof hi_big. pose proof lo_tiny.
      pose proof (rmid_between k Hk) as [B1 B2]. unfold rmid in B1, B2. assert (0 < hi900) by apply bpow_gt_0.
      apply half_is.
      - apply add_is; [apply nth_is; lia|apply nth_is; lia|]. rewrite Rabs_pos_eq by lra. lra.
      - rewrite Rabs_pos_eq by lra. lra.
      - rewrite Rabs_pos_eq by lra. lra.
    Qed.
    Lemma mid0_is : is ((nth 0 l nnan + nth 1 l nnan) / ofZ 2)%num (rmid v 1).
    Proof.
      unfold rmid. cbn [Nat.sub]. pose proof (v_ge 0 ltac:(lia)). pose proof (v_ge 1 ltac:(lia)). pose proof (v_le 0 ltac:(lia)). pose proof (v_le 1 ltac:(lia)).
      pose proof lo_pos. pose proof hi_big. pose proof lo_tiny.
      pose proof (rmid_between 1 ltac:(lia)) as [B1 B2]. unfold rmid in B1, B2. cbn [Nat.sub] in B1, B2. assert (0 < hi900) by apply bpow_gt_0.
      apply half_is.
      - rewrite Rplus_comm. apply add_is; [apply nth_is; lia|apply nth_is; lia|]. rewrite Rabs_pos_eq by lra. lra.
      - rewrite Rabs_pos_eq by lra. lra.
      - rewrite Rabs_pos_eq by lra. lra.
    Qed.
    (** error of a rounded midpoint *)
    Lemma rmid_err k : (1 <= k < n)%nat -> Rabs (rmid v k - (at_ v (k - 1) + at_ v k) / 2) <= ulp1 * ((at_ v (k - 1) + at_ v k) / 2).
    Proof.
      intros Hk. pose proof (rn_add _ _ (v_fmt k ltac:(lia)) (v_fmt (k - 1) ltac:(lia))) as E. unfold rmid.
      pose proof (v_ge k ltac:(lia)). pose proof (v_ge (k - 1) ltac:(lia)). pose proof lo_pos.
      rewrite (Rabs_pos_eq (at_ v k + at_ v (k - 1))) in E by lra. apply Rabs_le_inv in E. apply Rabs_le. lra.
    Qed.

    Lemma ps_pos : 0 < ps.
    Proof. pose proof (rmid_between 1 ltac:(lia)). pose proof (v_ge 0 ltac:(lia)). pose proof lo_pos. cbn in *. lra. Qed.

    (** the last level above the surface *)
    Lemma last_above : exists e, (1 <= e < n)%nat /\ rmid v e < ps /\ forall k, (e < k < n)%nat -> ps <= rmid v k.
    Proof.
      assert (G : forall m, (1 <= m < n)%nat -> exists e, (1 <= e <= m)%nat /\ rmid v e < ps /\ forall k, (e < k <= m)%nat -> ps <= rmid v k).
      { induction m as [|m IH]; intros Hm; [lia|]. destruct (Nat.eq_dec m 0) as [->|D].
        - exists 1%nat. split; [lia|]. split; [exact Hps|]. intros; lia.
        - destruct (Rlt_le_dec (rmid v (S m)) ps) as [Q|Q].
          + exists (S m). split; [lia|]. split; auto. intros; lia.
          + destruct (IH ltac:(lia)) as (e & H1 & H2 & H3). exists e. split; [lia|]. split; auto.
            intros k Hk. destruct (Nat.eq_dec k (S m)) as [->|]; auto. apply H3. lia. }
      destruct (G (n - 1)%nat ltac:(lia)) as (e & H1 & H2 & H3). exists e. split; [lia|]. split; auto. intros k Hk. apply H3. lia.
    Qed.

    (** the real value of layer k *)
    Definition dval (e k : nat) : R :=
      if Nat.eqb k e then rn (ps - rmid v e)
      else if Nat.eqb k 0 then rn (rmid v 1 - top)
      else rn (at_ v (k + 1) - at_ v (k - 1)) / 2.

    Section E.
      Variable e : nat.
      Hypotheses (He : (1 <= e < n)%nat) (Hme : rmid v e < ps) (Hmk : forall k, (e < k < n)%nat -> ps <= rmid v k).

      Lemma column_eq : delta_pressure1D l psb topb = Ok (map (layer_gen l psb topb e) (seq 0 n)).
      Proof.
        rewrite <- len_l. pose proof len_l as Ll. pose proof ps_pos.
        assert (top <= ps). { pose proof (rmid_between 1 ltac:(lia)). cbn in *. lra. }
        apply delta_pressure1D_gen; try lia.
        - etransitivity; [exact (lt_is _ _ _ _ Htb zero_is)|]. apply Rlt_bool_false. lra.
        - etransitivity; [exact (lt_is _ _ _ _ Hpb Htb)|]. apply Rlt_bool_false. lra.
        - etransitivity; [exact (lt_is _ _ _ _ (nth_is 1 ltac:(lia)) (nth_is 0 ltac:(lia)))|].
          apply Rlt_bool_false. apply Rlt_le, v_lt. lia.
        - etransitivity; [exact (lt_is _ _ _ _ zero_is Hpb)|]. apply Rlt_bool_true. lra.
        - etransitivity; [exact (lt_is _ _ _ _ (mid_is e He) Hpb)|]. apply Rlt_bool_true. lra.
        - intros k Hk. etransitivity; [exact (lt_is _ _ _ _ (mid_is k ltac:(lia)) Hpb)|]. apply Rlt_bool_false. apply Hmk. lia.
      Qed.

      Lemma interior_ge k : (1 <= k)%nat -> (k + 1 < n)%nat -> bpow radix2 (-1021) <= rn (at_ v (k + 1) - at_ v (k - 1)).
      Proof.
        intros H1 H2. pose proof (rn_sub_pos _ _ (v_fmt (k + 1) ltac:(lia)) (v_fmt (k - 1) ltac:(lia)) (v_lt (k - 1) (k + 1) ltac:(lia))) as P.
        assert (Q : bpow radix2 (-953) <= Rabs (rn (at_ v (k + 1) + - at_ v (k - 1)))).
        { apply (round_FLT_plus_ge radix2 ZnearestE (-1074) 53); [apply v_fmt; lia|apply fmt_opp, v_fmt; lia| |].
          - change (-953 + 53)%Z with (-900)%Z. pose proof (v_ge (k + 1) ltac:(lia)). pose proof lo_pos. rewrite Rabs_pos_eq by lra. exact H.
          - change (rn (at_ v (k + 1) - at_ v (k - 1)) <> 0). lra. }
        change (at_ v (k + 1) + - at_ v (k - 1)) with (at_ v (k + 1) - at_ v (k - 1)) in Q. rewrite Rabs_pos_eq in Q by lra.
        eapply Rle_trans; [|exact Q]. apply bpow_le. lia.
      Qed.

      Lemma layer_is k : (k <= e)%nat -> is (layer_gen l psb topb e k) (dval e k).
      Proof.
        intros Hk. unfold layer_gen, dval. pose proof ps_pos. pose proof hi_big. assert (0 < hi900) by apply bpow_gt_0. pose proof lo_pos.
        destruct (Nat.eqb_spec k e) as [->|D].
        - pose proof (rmid_between e He). pose proof (v_ge (e - 1) ltac:(lia)).
          apply sub_is; [exact Hpb|apply mid_is; exact He|]. rewrite Rabs_pos_eq by lra. lra.
        - destruct (Nat.eqb_spec k 0) as [->|D0].
          + pose proof (rmid_between 1 ltac:(lia)) as [B1 B2]. cbn [Nat.sub] in B1. pose proof (v_le 1 ltac:(lia)). pose proof (v_ge 0 ltac:(lia)).
            apply sub_is; [apply mid0_is|exact Htb|]. rewrite Rabs_pos_eq by lra. lra.
          + rewrite (proj2 (Nat.ltb_lt k e)) by lia.
            pose proof (v_le (k + 1) ltac:(lia)). pose proof (v_ge (k - 1) ltac:(lia)). pose proof (v_lt (k - 1) (k + 1) ltac:(lia)).
            pose proof (interior_ge k ltac:(lia) ltac:(lia)) as G. pose proof (bpow_gt_0 radix2 (-1021)).
            assert (G2 : rn (at_ v (k + 1) - at_ v (k - 1)) <= big) by (apply rn_le_fmt; [apply fmt_big|lra]).
            apply half_is; [apply sub_is; [apply nth_is; lia|apply nth_is; lia|rewrite Rabs_pos_eq by lra; lra]|rewrite Rabs_pos_eq by lra; lra|rewrite Rabs_pos_eq by lra; lra].
      Qed.

      Lemma dval_nonneg k : (k <= e)%nat -> 0 <= dval e k.
      Proof.
        intros Hk. unfold dval. destruct (Nat.eqb_spec k e) as [->|D].
        - apply Rlt_le, rn_sub_pos; [eapply is_fmt; exact Hpb|eapply is_fmt, mid_is; exact He|exact Hme].
        - destruct (Nat.eqb_spec k 0) as [->|D0].
          + pose proof (rmid_between 1 ltac:(lia)) as [B1 _]. cbn [Nat.sub] in B1. rewrite <- rn_0. apply rn_le. lra.
          + pose proof (interior_ge k ltac:(lia) ltac:(lia)). pose proof (bpow_gt_0 radix2 (-1021)). lra.
      Qed.
      Lemma dval_pos k : (1 <= k <= e)%nat -> 0 < dval e k.
      Proof.
        intros Hk. unfold dval. destruct (Nat.eqb_spec k e) as [->|D].
        - apply rn_sub_pos; [eapply is_fmt; exact Hpb|eapply is_fmt, mid_is; exact He|exact Hme].
        - destruct (Nat.eqb_spec k 0) as [->|D0]; [lia|].
          pose proof (interior_ge k ltac:(lia) ltac:(lia)). pose proof (bpow_gt_0 radix2 (-1021)). lra.
      Qed.
      Lemma dval_top : top < at_ v 0 -> 0 < dval e 0.
      Proof.
        intros H. unfold dval. destruct (Nat.eqb_spec 0 e) as [D|D]; [lia|]. cbn [Nat.eqb].
        pose proof (rmid_between 1 ltac:(lia)) as [B1 _]. cbn [Nat.sub] in B1.
        apply rn_sub_pos; [eapply is_fmt, mid_is; lia|eapply is_fmt; exact Htb|lra].
      Qed.

      Notation mm k := ((at_ v (k - 1) + at_ v k) / 2).
      Lemma interior_err k : (1 <= k < e)%nat -> Rabs (dval e k - (mm (k + 1) - mm k)) <= ulp1 * (mm (k + 1) - mm k).
      Proof.
        intros Hk. unfold dval. destruct (Nat.eqb_spec k e); [lia|]. destruct (Nat.eqb_spec k 0); [lia|].
        pose proof (rn_sub _ _ (v_fmt (k + 1) ltac:(lia)) (v_fmt (k - 1) ltac:(lia))) as E.
        pose proof (v_lt (k - 1) (k + 1) ltac:(lia)). rewrite (Rabs_pos_eq (at_ v (k + 1) - at_ v (k - 1))) in E by lra.
        replace (k + 1 - 1)%nat with k by lia. apply Rabs_le_inv in E. apply Rabs_le. lra.
      Qed.
      (** the interior layers telescope *)
      Lemma interior_sum m : (1 <= m <= e)%nat ->
        Rabs (bigsum m (dval e) - dval e 0 - (mm m - mm 1)) <= ulp1 * (mm m - mm 1).
      Proof.
        induction m as [|m IH]; intros Hm; [lia|]. destruct (Nat.eq_dec m 0) as [->|D].
        - cbn [bigsum]. replace (0 + dval e 0 - dval e 0 - _) with 0 by lra. rewrite Rabs_R0. lra.
        - cbn [bigsum]. specialize (IH ltac:(lia)). pose proof (interior_err m ltac:(lia)) as E. replace (m + 1)%nat with (S m) in E by lia.
          replace (bigsum m (dval e) + dval e m - dval e 0 - (mm (S m) - mm 1))
            with ((bigsum m (dval e) - dval e 0 - (mm m - mm 1)) + (dval e m - (mm (S m) - mm m))) by lra.
          eapply Rle_trans; [apply Rabs_triang|]. lra.
      Qed.

      Lemma sum_err : Rabs (bigsum (S e) (dval e) - (ps - top)) <= 4 * ulp1 * ps.
      Proof.
        cbn [bigsum]. pose proof (interior_sum e ltac:(lia)) as EI.
        assert (E0 : Rabs (dval e 0 - (rmid v 1 - top)) <= ulp1 * (rmid v 1 - top)).
        { unfold dval. destruct (Nat.eqb_spec 0 e) as [Q|_]; [lia|]. cbn [Nat.eqb].
          pose proof (rmid_between 1 ltac:(lia)) as [B1 _]. cbn [Nat.sub] in B1.
          assert (Q : Rabs (rn (rmid v 1 - top) - (rmid v 1 - top)) <= ulp1 * Rabs (rmid v 1 - top)) by (apply rn_sub; [eapply is_fmt, mid_is; lia|eapply is_fmt; exact Htb]).
          rewrite (Rabs_pos_eq (rmid v 1 - top)) in Q by lra. exact Q. }
        assert (Ee : Rabs (dval e e - (ps - rmid v e)) <= ulp1 * (ps - rmid v e)).
        { unfold dval. rewrite Nat.eqb_refl. assert (Q : Rabs (rn (ps - rmid v e) - (ps - rmid v e)) <= ulp1 * Rabs (ps - rmid v e)) by (apply rn_sub; [eapply is_fmt; exact Hpb|eapply is_fmt, mid_is; exact He]).
          rewrite (Rabs_pos_eq (ps - rmid v e)) in Q by lra. exact Q. }
        pose proof (rmid_err 1 ltac:(lia)) as R1. pose proof (rmid_err e He) as Re.
        pose proof (rmid_mono 1 e ltac:(lia) ltac:(lia)) as Mo.
        pose proof ulp1_pos as U0. pose proof ulp1_small as U1. pose proof ps_pos as P.
        pose proof (v_ge 0 ltac:(lia)). pose proof (v_ge 1 ltac:(lia)). pose proof (v_ge e ltac:(lia)). pose proof (v_ge (e - 1) ltac:(lia)). pose proof lo_pos.
        set (m1 := mm 1) in *. set (me := mm e) in *. set (I1 := rmid v 1) in *. set (Ie := rmid v e) in *. set (B := bigsum e (dval e)) in *.
        set (d0 := dval e 0) in *. set (de := dval e e) in *.
        assert (0 < m1). { unfold m1. cbn [Nat.sub]. lra. }
        assert (0 < me) by (unfold me; lra).
        apply Rabs_le_inv in EI, E0, Ee, R1, Re.
        (* midpoints are at most 1.002 ps *)
        assert (Q1 : (1 - ulp1) * m1 <= ps) by lra. assert (Qe : (1 - ulp1) * me <= ps) by lra.
        assert (S1 : ulp1 * m1 <= 1.01 * (ulp1 * ps)).
        { apply Rle_trans with (ulp1 * (1.01 * ps)); [|lra]. apply Rmult_le_compat_l; [lra|].
          assert (ulp1 * m1 <= / 1024 * m1) by (apply Rmult_le_compat_r; lra). lra. }
        assert (Se : ulp1 * me <= 1.01 * (ulp1 * ps)).
        { apply Rle_trans with (ulp1 * (1.01 * ps)); [|lra]. apply Rmult_le_compat_l; [lra|].
          assert (ulp1 * me <= / 1024 * me) by (apply Rmult_le_compat_r; lra). lra. }
        assert (T1 : ulp1 * (I1 - m1) <= / 1024 * (ulp1 * m1)).
        { apply Rle_trans with (ulp1 * (ulp1 * m1)); [apply Rmult_le_compat_l; lra|]. apply Rmult_le_compat_r; [|lra]. apply Rmult_le_pos; lra. }
        assert (Te : ulp1 * (me - Ie) <= / 1024 * (ulp1 * me)).
        { apply Rle_trans with (ulp1 * (ulp1 * me)); [apply Rmult_le_compat_l; lra|]. apply Rmult_le_compat_r; [|lra]. apply Rmult_le_pos; lra. }
        assert (T3 : 0 <= ulp1 * top) by (apply Rmult_le_pos; lra).
        assert (T4 : 0 <= ulp1 * ps) by (apply Rmult_le_pos; lra).
        rewrite !Rmult_minus_distr_l in *. apply Rabs_le. lra.
      Qed.
      Lemma layer_err k : (k <= e)%nat -> Rabs (dval e k - xlayer v ps top e k) <= 3 * ulp1 * ps.
      Proof.
        intros Hk. pose proof (rmid_err e He) as Re. pose proof (rmid_err 1 ltac:(lia)) as R1.
        pose proof (rmid_mono 1 e ltac:(lia) ltac:(lia)) as Mo.
        pose proof ulp1_pos as U0. pose proof ulp1_small as U1. pose proof ps_pos as P. pose proof lo_pos.
        pose proof (v_ge 0 ltac:(lia)). pose proof (v_ge 1 ltac:(lia)). pose proof (v_ge e ltac:(lia)). pose proof (v_ge (e - 1) ltac:(lia)).
        assert (T4 : 0 < ulp1 * ps) by (apply Rmult_lt_0_compat; lra).
        assert (Me : 0 < mm e) by lra. assert (M1 : 0 < mm 1) by (cbn [Nat.sub]; lra).
        apply Rabs_le_inv in Re, R1.
        assert (Se : forall m, 0 < m -> (1 - ulp1) * m <= ps -> ulp1 * m <= 1.01 * (ulp1 * ps)).
        { intros m Hm Hq. apply Rle_trans with (ulp1 * (1.01 * ps)); [|lra]. apply Rmult_le_compat_l; [lra|].
          assert (ulp1 * m <= / 1024 * m) by (apply Rmult_le_compat_r; lra). lra. }
        pose proof (Se (mm e) Me ltac:(lra)) as Se'. pose proof (Se (mm 1) M1 ltac:(lra)) as S1'. unfold xlayer, xmid.
        destruct (Nat.eqb_spec k e) as [->|D].
        - destruct (Nat.eqb_spec e 0); [lia|]. unfold dval. rewrite Nat.eqb_refl.
          assert (Q : Rabs (rn (ps - rmid v e) - (ps - rmid v e)) <= ulp1 * Rabs (ps - rmid v e)) by (apply rn_sub; [eapply is_fmt; exact Hpb|eapply is_fmt, mid_is; exact He]).
          rewrite (Rabs_pos_eq (ps - rmid v e)) in Q by lra. apply Rabs_le_inv in Q.
          assert (G : ulp1 * (ps - rmid v e) <= ulp1 * ps). { apply Rmult_le_compat_l; [lra|]. pose proof (rmid_between e He). lra. }
          apply Rabs_le. lra.
        - destruct (Nat.eqb_spec k 0) as [->|D0].
          + cbn [Nat.add Nat.sub]. unfold dval. destruct (Nat.eqb_spec 0 e); [lia|]. cbn [Nat.eqb].
            pose proof (rmid_between 1 ltac:(lia)) as [B1 _]. cbn [Nat.sub] in B1, R1, S1'.
            assert (Q : Rabs (rn (rmid v 1 - top) - (rmid v 1 - top)) <= ulp1 * Rabs (rmid v 1 - top)) by (apply rn_sub; [eapply is_fmt, mid_is; lia|eapply is_fmt; exact Htb]).
            rewrite (Rabs_pos_eq (rmid v 1 - top)) in Q by lra. apply Rabs_le_inv in Q.
            assert (G : ulp1 * (rmid v 1 - top) <= ulp1 * ps) by (apply Rmult_le_compat_l; lra).
            apply Rabs_le. lra.
          + eapply Rle_trans; [apply (interior_err k ltac:(lia))|]. replace (k + 1 - 1)%nat with k by lia.
            pose proof (v_ge k ltac:(lia)). pose proof (v_ge (k - 1) ltac:(lia)).
            assert (at_ v k <= at_ v (e - 1)). { destruct (Nat.eq_dec k (e - 1)) as [->|]; [lra|]. apply Rlt_le, v_lt. lia. }
            assert (at_ v (k + 1) <= at_ v e). { destruct (Nat.eq_dec (k + 1) e) as [->|]; [lra|]. apply Rlt_le, v_lt. lia. }
            apply Rle_trans with (ulp1 * mm e); [|lra]. apply Rmult_le_compat_l; lra.
      Qed.
    End E.
    Lemma ordered_eq (down : bool) e : (1 <= e < n)%nat -> rmid v e < ps -> (forall k, (e < k < n)%nat -> ps <= rmid v k) ->
      delta_pressure1D (if down then l else rev l) psb topb = Ok (if down then map (layer_gen l psb topb e) (seq 0 n) else rev (map (layer_gen l psb topb e) (seq 0 n))).
    Proof.
      intros H1 H2 H3. destruct down; [apply column_eq; auto|].
      rewrite delta_pressure1D_rev_gen.
      - rewrite (column_eq e) by auto. reflexivity.
      - rewrite len_l. lia.
      - etransitivity; [exact (lt_is _ _ _ _ (nth_is 1 ltac:(lia)) (nth_is 0 ltac:(lia)))|]. apply Rlt_bool_false, Rlt_le, v_lt. lia.
      - rewrite len_l. etransitivity; [exact (lt_is _ _ _ _ (nth_is (n - 2) ltac:(lia)) (nth_is (n - 1) ltac:(lia)))|]. apply Rlt_bool_true, v_lt. lia.
    Qed.
  End Column.

  Lemma b64_delta_pressure isda at' (l : list b64) v (down : bool) s a t tb top ps0 :
    Forall2 is l v -> increasing v -> (2 <= List.length v)%nat -> lo900 <= at_ v 0 -> at_ v (List.length v - 1) <= hi900 -> 0 <= top <= at_ v 0 ->
    t = Some tb /\ is tb top \/ t = None /\ top = at_ v 0 ->
    surf_arr s = Some a ->
    (forall idx, inb (shp a) idx -> is (get a idx) (ps0 idx) /\ rmid v 1 < ps0 idx <= hi900) ->
    exists out, delta_pressure (mkLevels isda (if down then l else rev l) at') s t = Ok out /\
      shp (out_arr out) = shp a ++ [List.length v] /\
      forall idx, inb (shp a) idx -> exists e d,
        let layer k := get (out_arr out) (idx ++ [if down then k else (List.length v - 1 - k)%nat]) in
        (1 <= e < List.length v)%nat /\
        (forall k, (1 <= k < List.length v)%nat -> (k <= e)%nat <-> rmid v k < ps0 idx) /\
        (forall k, (k <= e)%nat -> is (layer k) (d k) /\ 0 <= d k /\ Rabs (d k - xlayer v (ps0 idx) top e k) <= 3 * ulp1 * ps0 idx) /\
        (forall k, (1 <= k <= e)%nat -> 0 < d k) /\ (top < at_ v 0 -> 0 < d 0%nat) /\
        (forall k, (e < k < List.length v)%nat -> layer k = B754_nan) /\
        Rabs (bigsum (S e) d - (ps0 idx - top)) <= 4 * ulp1 * ps0 idx.
  Proof.
    intros Hl Hi Hn Hlo Hhi Htop Ht Hs Hps. pose proof (Forall2_len _ _ _ Hl) as Ll.
    destruct (eff_top_is isda l v down at' t tb top Hl Hi ltac:(lia) ltac:(lra) Ht) as (topb & Et & Htb).
    assert (Lo : List.length (if down then l else rev l) = List.length v) by (destruct down; rewrite ?rev_length; auto).
    assert (C : forall idx, inb (shp a) idx -> exists e, (1 <= e < List.length v)%nat /\ rmid v e < ps0 idx /\ (forall k, (e < k < List.length v)%nat -> ps0 idx <= rmid v k) /\
      delta_pressure1D (if down then l else rev l) (get a idx) topb = Ok (if down then map (layer_gen l (get a idx) topb e) (seq 0 (List.length v)) else rev (map (layer_gen l (get a idx) topb e) (seq 0 (List.length v))))).
    { intros idx Hx. destruct (Hps idx Hx) as (P1 & P2 & P3).
      destruct (last_above v (ps0 idx)) as (e & E1 & E2 & E3); auto.
      exists e. repeat split; try lia; auto. apply (ordered_eq l v (get a idx) topb (ps0 idx) top); auto. }
    destruct (delta_pressure _ s t) as [out|ex] eqn:E.
    2:{ exfalso. destruct (delta_pressure_err _ _ _ _ _ Hs E) as [H|(top' & idx & H1 & H2 & H3)].
        - rewrite Et in H. discriminate.
        - rewrite Et in H1. injection H1 as <-. destruct (C idx H2) as (e & _ & _ & _ & Q). cbn [lev_vals] in H3. rewrite Q in H3. discriminate. }
    exists out. split; [reflexivity|]. destruct (delta_pressure_ok _ _ _ _ _ Hs E) as (top' & H1 & H2 & H3).
    rewrite Et in H1. injection H1 as <-. cbn [lev_vals] in H2, H3. rewrite Lo in H2, H3. split; [exact H2|].
    intros idx Hx. specialize (H3 idx Hx). destruct (C idx Hx) as (e & E1 & E2 & E3 & Q). rewrite Q in H3. destruct (Hps idx Hx) as (P1 & P2 & P3).
    exists e, (dval v (ps0 idx) top e). cbv zeta.
    assert (Lk : forall k, (k < List.length v)%nat -> get (out_arr out) (idx ++ [if down then k else (List.length v - 1 - k)%nat]) = layer_gen l (get a idx) topb e k).
    { intros k Hk. injection H3 as H3.
      assert (Lm : List.length (map (layer_gen l (get a idx) topb e) (seq 0 (List.length v))) = List.length v) by (rewrite map_length, seq_length; auto).
      assert (Nk : nth k (map (layer_gen l (get a idx) topb e) (seq 0 (List.length v))) nnan = layer_gen l (get a idx) topb e k).
      { rewrite (nth_map _ _ _ 0%nat) by (rewrite seq_length; auto). rewrite seq_nth by auto. reflexivity. }
      rewrite <- Nk. destruct down.
      - rewrite H3. rewrite column_nth by auto. reflexivity.
      - rewrite <- (column_nth (out_arr out) idx (List.length v) (List.length v - 1 - k) nnan) by lia. rewrite <- H3. rewrite rev_nth by (rewrite Lm; lia).
        f_equal. rewrite Lm. lia. }
    repeat match goal with |- _ /\ _ => split end.
    - lia.
    - lia.
    - intros k Hk. split; intros G.
      + pose proof (rmid_mono l v Hl Hi Hn k e ltac:(lia) ltac:(lia)). lra.
      + destruct (Nat.le_gt_cases k e); auto. specialize (E3 k ltac:(lia)). lra.
    - intros k Hk. rewrite Lk by lia. split; [eapply layer_is; eauto|split; [eapply dval_nonneg; eauto|eapply layer_err; eauto]].
    - intros k Hk. eapply dval_pos; eauto.
    - intros G. eapply dval_top; eauto.
    - intros k Hk. rewrite Lk by lia. unfold layer_gen. rewrite (proj2 (Nat.eqb_neq k e)) by lia. rewrite (proj2 (Nat.eqb_neq k 0)) by lia. rewrite (proj2 (Nat.ltb_ge k e)) by lia. reflexivity.
    - eapply sum_err; eauto.
  Qed.
End Gen.
