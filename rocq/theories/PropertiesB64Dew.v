(** C132: dewtemp in double precision. *)
From Coq Require Import Reals List Bool Arith ZArith Lra Lia String.
From Flocq Require Import Core BinarySingleNaN.
From Verif Require Import PyBase PyFacts Num NumFacts NumB64 Arr ArrFacts XrFacts Spec SpecMeteo SpecB64 SpecB64Dew B64Facts Hybrid Meteo CellFacts B64Relhum B64Dew.
Import ListNotations.
Local Open Scope R_scope.

(** C132.  With a logarithm good to about four units in the last place, temperatures between 100 and 500 K and humidities between
    2^-900 and 100 %: the dew point is a number within 41 * 2^-53 of the exact one (the d of C26), relatively, and exceeds the
    temperature by at most 3 * 2^-53 of it. *)
Theorem C132_binary64_dewtemp :
  forall (M : libm) (t rh : inp b64), ln_close M -> @compat b64 (NumB M) t rh ->
  exists out, @dewtemp b64 (NumB M) t rh = Ok out /\ shp (as_arr out) = shp (as_arr t) /\
    forall i tk h, inb (shp (as_arr t)) i -> is (get (as_arr t) i) tk -> is (get (as_arr rh) i) h -> 100 <= tk <= 500 -> bpow radix2 (-900) <= h <= 100 ->
      exists v d, is (get (as_arr out) i) v /\ / d = / tk - ln (h * 0.01) / lhv_over_gc tk /\ 0 < d <= tk /\
        Rabs (v - d) <= 41 * ulp1 * d /\ v <= tk + 3 * ulp1 * tk.
Proof. exact c132_lemma. Qed.
Print Assumptions C132_binary64_dewtemp.

(** C132.  At the same temperature moister air never has a lower dew point, to the last bit, if the logarithm does not decrease *)
Theorem C132_binary64_monotone :
  forall (M : libm) (t rh rh' out out' : inp b64), ln_close M -> ln_mono M -> @compat b64 (NumB M) t rh -> @compat b64 (NumB M) t rh' ->
  @dewtemp b64 (NumB M) t rh = Ok out -> @dewtemp b64 (NumB M) t rh' = Ok out' ->
  forall i tk h h', inb (shp (as_arr t)) i -> is (get (as_arr t) i) tk -> is (get (as_arr rh) i) h -> is (get (as_arr rh') i) h' -> 100 <= tk <= 500 ->
    bpow radix2 (-900) <= h <= h' -> h' <= 100 -> exists v v', is (get (as_arr out) i) v /\ is (get (as_arr out') i) v' /\ v <= v'.
Proof. exact c132_order. Qed.
Print Assumptions C132_binary64_monotone.

(** a call meeting the hypotheses: 210 K and 280 K at 100 % and 50 %, with the correctly rounded logarithm *)
Definition exd_t : inp b64 := INd (mkArr [2%nat] (fun i => b64_ofZ (nth (hd 0%nat i) [210; 280] 0)%Z)).
Definition exd_h : inp b64 := INd (mkArr [2%nat] (fun i => b64_ofZ (nth (hd 0%nat i) [100; 50] 0)%Z)).
Ltac lit := apply ofZ_exact; apply Z.leb_le; reflexivity.
Lemma one_pow : bpow radix2 (-900) <= 1. Proof. change 1 with (bpow radix2 0). apply bpow_le. lia. Qed.
Example C132_example :
  ln_close true_ln /\ ln_mono true_ln /\ @compat b64 (NumB true_ln) exd_t exd_h /\ inb (shp (as_arr exd_t)) [1%nat] /\
  is (get (as_arr exd_t) [1%nat]) 280 /\ is (get (as_arr exd_h) [1%nat]) 50 /\ 100 <= 280 <= 500 /\ bpow radix2 (-900) <= 50 <= 100.
Proof.
  pose proof one_pow. split; [apply true_ln_close|]. split; [apply true_ln_mono|]. split; [reflexivity|]. split; [repeat constructor|].
  split; [lit|]. split; [lit|]. lra.
Qed.

(** C132.  C26's bound does not hold to the last bit: at 210 K and 100 % the dew point in double precision is above 210 K (it is
    210.00000000000003), with any such library *)
Theorem C132_exceeds_temperature_refuted :
  forall M : libm, ln_close M -> exists out v, @dewtemp b64 (NumB M) exd_t exd_h = Ok out /\
    is (get (as_arr exd_t) [0%nat]) 210 /\ is (get (as_arr exd_h) [0%nat]) 100 /\ is (get (as_arr out) [0%nat]) v /\ 210 < v.
Proof.
  intros M HM. destruct (@dewtemp_cells b64 (NumB M) exd_t exd_h eq_refl) as (out & E & _ & G).
  assert (It : is (b64_ofZ 210) 210) by lit. assert (Ih : is (b64_ofZ 100) 100) by lit. pose proof one_pow as P.
  destruct (dew_cell_is M _ _ 210 100 HM It Ih ltac:(lra) ltac:(lra)) as (L & IL & Iy & _ & _ & Iv).
  assert (Y : yr 100 = 1) by exact (one_hundredth M). rewrite Y in Iy. destruct (HM _ _ Iy ltac:(lra)) as (v & Iv' & Ev).
  rewrite ln_1, Rabs_R0, Rmult_0_r in Ev. unfold Rminus in Ev. rewrite Ropp_0, Rplus_0_r in Ev.
  assert (V : v = 0) by (pose proof (Rabs_pos v); destruct (Req_dec v 0) as [|N]; auto; pose proof (Rabs_pos_lt v N); lra).
  assert (L = 0) by (destruct IL as [_ <-], Iv' as [_ <-]; exact V). subst L.
  exists out, (dewr 210 0). split; [exact E|]. split; [exact It|]. split; [exact Ih|].
  split. { rewrite (G [0%nat]) by (repeat constructor). exact Iv. }
  pose proof (dew_expr_is M (b64_ofZ 210) (b64_ofZ 0) 210 0 It ltac:(lit) ltac:(lra) ltac:(lra)) as Ix. cbv zeta in Ix.
  match type of Ix with is ?e _ => assert (Q : Bltb (b64_ofZ 210) e = true) by reflexivity end.
  rewrite (lt_is _ _ 210 _ It Ix) in Q. destruct (Rlt_bool_spec 210 (dewr 210 0)); [auto|discriminate].
Qed.
Print Assumptions C132_exceeds_temperature_refuted.
