(** nmse: algebra of the specification, value of the model, validation. *)
From Coq Require Import Reals List Bool Arith ZArith Lra Lia String FunctionalExtensionality.
From Verif Require Import PyBase Num NumFacts PyFacts ListFacts Arr ArrFacts XrFacts CellFacts Hybrid HybridFacts SpecSum SumFacts SpecStats PearsonFacts PearsonApi SphApi SphMore Nmse.
Import ListNotations.
Local Open Scope R_scope.

(** ** algebra *)
Lemma wmean_nonneg n w x : good_weights n w -> (forall k, (k < n)%nat -> 0 <= x k) -> 0 <= wmean n w x.
Proof.
  intros [G1 G2] H. unfold wmean. apply Rmult_le_pos; [|left; apply Rinv_0_lt_compat; auto].
  apply bigsum_nonneg. intros. apply Rmult_le_pos; auto.
Qed.
Lemma wmean_mask n w x y : (forall k, (k < n)%nat -> w k <> 0 -> x k = y k) -> wmean n w x = wmean n w y.
Proof. intros H. unfold wmean. f_equal. apply bigsum_ext. intros k Hk. destruct (Req_dec (w k) 0) as [->|E]; [ring|]. rewrite H by auto. auto. Qed.
Lemma wmean_zero n w x : good_weights n w -> (forall k, (k < n)%nat -> 0 <= x k) -> (wmean n w x = 0 <-> forall k, (k < n)%nat -> w k <> 0 -> x k = 0).
Proof.
  intros G H. split.
  - intros E k Hk Hw. unfold wmean in E. assert (B : bigsum n (fun k => w k * x k) = 0).
    { destruct G as [_ G]. apply Rmult_integral in E. destruct E as [E|E]; auto. exfalso. apply (Rinv_neq_0_compat (bigsum n w)); lra. }
    assert (Nn : forall k, (k < n)%nat -> 0 <= w k * x k) by (intros; apply Rmult_le_pos; [apply (gw_nonneg _ _ G)|]; auto).
    pose proof (bigsum_zero_inv n _ Nn B k Hk) as Q. cbn beta in Q. apply Rmult_integral in Q. tauto.
  - intros E. rewrite (wmean_mask n w x (fun _ => 0)) by auto. unfold wmean. rewrite (bigsum_ext n _ (fun _ => 0)) by (intros; ring). rewrite bigsum_0 by auto. unfold Rdiv. ring.
Qed.
Lemma wmean_const n w c : bigsum n w <> 0 -> wmean n w (fun _ => c) = c.
Proof. intros H. unfold wmean. rewrite bigsum_scal_r. field. auto. Qed.
Lemma wmean_scal n w x c : wmean n w (fun k => c * x k) = c * wmean n w x.
Proof. unfold wmean. rewrite (bigsum_ext n _ (fun k => c * (w k * x k))) by (intros; ring). rewrite bigsum_scal. unfold Rdiv. ring. Qed.

Lemma mse_nonneg n w x y : good_weights n w -> 0 <= mse n w x y.
Proof. intros G. apply wmean_nonneg; auto. intros. apply Rle_0_sqr. Qed.
Lemma variance_nonneg n w x : good_weights n w -> 0 <= variance n w x.
Proof. intros G. apply wmean_nonneg; auto. intros. apply Rle_0_sqr. Qed.
Lemma mse_zero n w x y : good_weights n w -> (mse n w x y = 0 <-> forall k, (k < n)%nat -> w k <> 0 -> y k = x k).
Proof.
  intros G. unfold mse. rewrite (wmean_zero n w _ G) by (intros; apply Rle_0_sqr). split; intros H k Hk Hw; specialize (H k Hk Hw).
  - apply Rmult_integral in H. destruct H; lra.
  - rewrite H. ring.
Qed.
Lemma nmse_nonneg n w x y : good_weights n w -> 0 < variance n w x -> 0 <= nmse_of n w x y.
Proof. intros G V. unfold nmse_of. apply Rmult_le_pos; [apply mse_nonneg; auto|left; apply Rinv_0_lt_compat; auto]. Qed.
Lemma nmse_zero_iff n w x y : good_weights n w -> 0 < variance n w x -> (nmse_of n w x y = 0 <-> forall k, (k < n)%nat -> w k <> 0 -> y k = x k).
Proof.
  intros G V. rewrite <- (mse_zero n w x y G). unfold nmse_of. split; intros H.
  - apply Rmult_integral in H. destruct H as [H|H]; auto. exfalso. apply (Rinv_neq_0_compat (variance n w x)); lra.
  - rewrite H. unfold Rdiv. ring.
Qed.
Lemma nmse_mean_is_one n w x y : good_weights n w -> 0 < variance n w x -> (forall k, (k < n)%nat -> w k <> 0 -> y k = wmean n w x) -> nmse_of n w x y = 1.
Proof.
  intros G V H. unfold nmse_of. replace (mse n w x y) with (variance n w x); [field; lra|].
  unfold mse, variance. apply wmean_mask. intros k Hk Hw. rewrite (H k Hk Hw). ring.
Qed.
Lemma nmse_affine n w x y c d : good_weights n w -> d <> 0 -> 0 < variance n w x -> nmse_of n w (fun k => c + d * x k) (fun k => c + d * y k) = nmse_of n w x y.
Proof.
  intros G Hd V. unfold nmse_of.
  assert (E1 : mse n w (fun k => c + d * x k) (fun k => c + d * y k) = d * d * mse n w x y).
  { unfold mse. rewrite <- wmean_scal. apply wmean_mask. intros. ring. }
  assert (E2 : variance n w (fun k => c + d * x k) = d * d * variance n w x).
  { unfold variance. rewrite <- wmean_scal. apply wmean_mask. intros. rewrite wmean_affine by (destruct G; lra). ring. }
  rewrite E1, E2. field. split; lra.
Qed.
Lemma nmse_mask n w x y x' y' : (forall k, (k < n)%nat -> w k <> 0 -> x k = x' k /\ y k = y' k) ->
  mse n w x y = mse n w x' y' /\ variance n w x = variance n w x'.
Proof.
  intros H. split.
  - apply wmean_mask. intros k Hk Hw. destruct (H k Hk Hw) as [-> ->]. auto.
  - unfold variance. rewrite (wmean_mask n w x x') by (intros; apply H; auto). apply wmean_mask. intros k Hk Hw. destruct (H k Hk Hw) as [-> _]. auto.
Qed.
(** adding a constant bias b costs b^2 / variance *)
Lemma nmse_bias n w x b : good_weights n w -> nmse_of n w x (fun k => x k + b) = b * b / variance n w x.
Proof.
  intros G. unfold nmse_of, mse. f_equal. rewrite (wmean_mask n w _ (fun _ => b * b)) by (intros; ring). apply wmean_const. destruct G; lra.
Qed.

(** ** points of the spatial grid *)
Section Value.
  Variables (sd : list string) (ssz : list nat).
  Definition npts : nat := List.length (all_idx ssz).
  Definition pt (e : env) (k : nat) : env := over sd (nth k (all_idx ssz) []) e.
  Lemma over_over i j e : over sd i (over sd j e) = over sd i e.
  Proof. apply functional_extensionality. intros d. unfold over. destruct (sindex d sd); reflexivity. Qed.
  Lemma pt_pt e j k : pt (pt e j) k = pt e k. Proof. apply over_over. Qed.
  Lemma sums_pts (f : env -> fl) e : sums sd ssz f e = nsum (map (fun k => f (pt e k)) (seq 0 npts)).
  Proof. unfold sums, npts, pt. f_equal. rewrite <- (map_nth_seq (@nil nat) (all_idx ssz)) at 1. rewrite map_map. reflexivity. Qed.
  Lemma xmean_value ww x e w g : (forall k, (k < npts)%nat -> ww (pt e k) = Fin (w k) /\ x (pt e k) = Fin (g k)) ->
    xmean sd ssz ww x e = if reqb (bigsum npts w) 0 then NaN else Fin (wmean npts w g).
  Proof.
    intros H. unfold xmean. rewrite !sums_pts.
    assert (N1 : nsum (map (fun k => nmul (if isnan (x (pt e k)) then ofZ 0 else x (pt e k)) (ww (pt e k))) (seq 0 npts)) = Fin (bigsum npts (fun k => w k * g k))).
    { apply nsum_opt. intros k Hk. destruct (H k Hk) as [-> ->]. cbn. f_equal. ring. }
    assert (N2 : nsum (map (fun k => nmul (if isnan (x (pt e k)) then ofZ 0 else ofZ 1) (ww (pt e k))) (seq 0 npts)) = Fin (bigsum npts w)).
    { apply nsum_opt. intros k Hk. destruct (H k Hk) as [-> ->]. cbn. f_equal. ring. }
    rewrite N1, N2.
    change (neqb (Fin (bigsum npts w)) (ofZ 0)) with (reqb (bigsum npts w) 0).
    destruct (reqb_spec (bigsum npts w) 0) as [E|E].
    - destruct (Fin _); reflexivity.
    - change (@ndiv fl NumFl) with fl_div. rewrite fdiv_fin by auto. reflexivity.
  Qed.

  Definition holds_at (lat : coordv fl) (o m : da fl) (e : env) (w x y : nat -> R) : Prop :=
    latitude_sample npts (fun k => getc lat (pt e k)) (fun k => getn o (pt e k)) (fun k => getn m (pt e k)) w x y.
  Lemma wgt_value lat o m e w x y k : holds_at lat o m e w x y -> (k < npts)%nat -> wgt lat o m (pt e k) = Fin (w k).
  Proof.
    intros H Hk. unfold wgt. specialize (H k Hk). cbn beta in H. destruct H as [(-> & -> & l & El & ->)|[[-> | ->] ->]].
    - cbn [isnan NumFl fl_isnan orb]. unfold wraw, deg2rad. rewrite El. change (@ndiv fl NumFl) with fl_div. change (@npi fl NumFl) with (Fin PI). change (ofZ 180) with (Fin 180). rewrite fdiv_fin by lra. reflexivity.
    - reflexivity.
    - rewrite orb_true_r. reflexivity.
  Qed.
  Lemma zeroed_obs lat o m e w x y k : holds_at lat o m e w x y -> (k < npts)%nat -> zeroed (wgt lat o m) (getn o) (pt e k) = Fin (shown w x k).
  Proof.
    intros H Hk. unfold zeroed. rewrite (wgt_value lat o m e w x y k H Hk). change (neqb (Fin (w k)) (ofZ 0)) with (reqb (w k) 0). unfold shown.
    destruct (reqb_spec (w k) 0) as [E|E]; [reflexivity|]. specialize (H k Hk); cbn beta in H; destruct H as [(-> & _)|[_ Q]]; [reflexivity|contradiction].
  Qed.
  Lemma zeroed_mod lat o m e w x y k : holds_at lat o m e w x y -> (k < npts)%nat -> zeroed (wgt lat o m) (getn m) (pt e k) = Fin (shown w y k).
  Proof.
    intros H Hk. unfold zeroed. rewrite (wgt_value lat o m e w x y k H Hk). change (neqb (Fin (w k)) (ofZ 0)) with (reqb (w k) 0). unfold shown.
    destruct (reqb_spec (w k) 0) as [E|E]; [reflexivity|]. specialize (H k Hk); cbn beta in H; destruct H as [(_ & -> & _)|[_ Q]]; [reflexivity|contradiction].
  Qed.

  (** fields masked by wz (values x, y shown at wz), averaged with weights v *)
  Lemma metric_gen wz ww (o m : da fl) e v X Y :
    (forall k, (k < npts)%nat -> ww (pt e k) = Fin (v k) /\ zeroed wz (getn o) (pt e k) = Fin (X k) /\ zeroed wz (getn m) (pt e k) = Fin (Y k)) ->
    metric sd ssz wz ww o m e = if reqb (bigsum npts v) 0 then NaN else ndiv (Fin (mse npts v X Y)) (Fin (variance npts v X)).
  Proof.
    intros H. unfold metric. cbv zeta.
    rewrite (xmean_value ww (fun e0 => sqr (nsub (zeroed wz (getn m) e0) (zeroed wz (getn o) e0))) e v (fun k => (Y k - X k) * (Y k - X k))).
    2:{ intros k Hk. destruct (H k Hk) as (-> & -> & ->). split; reflexivity. }
    assert (Ow : forall k, (k < npts)%nat -> xmean sd ssz ww (zeroed wz (getn o)) (pt e k) = if reqb (bigsum npts v) 0 then NaN else Fin (wmean npts v X)).
    { intros k Hk. apply xmean_value. intros j Hj. rewrite pt_pt. destruct (H j Hj) as (-> & -> & _). auto. }
    destruct (reqb_spec (bigsum npts v) 0) as [E|E].
    - destruct (xmean _ _ _ _ _); reflexivity.
    - rewrite (xmean_value ww _ e v (fun k => (X k - wmean npts v X) * (X k - wmean npts v X))).
      + rewrite (reqb_false _ _ E). reflexivity.
      + intros k Hk. rewrite Ow by auto. destruct (H k Hk) as (-> & -> & _). split; reflexivity.
  Qed.
  Lemma metric_value lat o m e w x y : holds_at lat o m e w x y -> good_weights npts w ->
    let W := wgt lat o m in nmse_result npts w x y (metric sd ssz W W o m e).
  Proof.
    intros H G W.
    assert (E : metric sd ssz W W o m e = ndiv (Fin (mse npts w x y)) (Fin (variance npts w x))).
    { unfold W. rewrite (metric_gen _ _ o m e w (shown w x) (shown w y)).
      - rewrite reqb_false by (destruct G; lra).
        destruct (nmse_mask npts w (shown w x) (shown w y) x y) as [-> ->]; auto.
        intros k Hk Hw. unfold shown. rewrite (reqb_false _ _ Hw). auto.
      - intros k Hk. rewrite (wgt_value lat o m e w x y k H Hk), (zeroed_obs lat o m e w x y k H Hk), (zeroed_mod lat o m e w x y k H Hk). auto. }
    unfold nmse_result. rewrite E. change (@ndiv fl NumFl) with fl_div. split; [|split].
    - intros V. rewrite fdiv_fin by lra. reflexivity.
    - intros V Ms. rewrite V. cbn [fl_div]. destruct (Req_EM_T 0 0); [|contradiction]. destruct (Req_EM_T (mse npts w x y) 0); [lra|]. destruct (Rlt_dec 0 (mse npts w x y)); [reflexivity|contradiction].
    - intros V Ms. rewrite V, Ms. cbn [fl_div]. destruct (Req_EM_T 0 0); [|contradiction]. reflexivity.
  Qed.
  (** no valid point *)
  Lemma metric_empty lat o m e w x y : holds_at lat o m e w x y -> bigsum npts w = 0 -> metric sd ssz (wgt lat o m) (wgt lat o m) o m e = NaN.
  Proof.
    intros H Z. rewrite (metric_gen _ _ o m e w (shown w x) (shown w y)).
    - rewrite Z, reqb_true by auto. reflexivity.
    - intros k Hk. rewrite (wgt_value lat o m e w x y k H Hk), (zeroed_obs lat o m e w x y k H Hk), (zeroed_mod lat o m e w x y k H Hk). auto.
  Qed.
End Value.
