(** The discrete Fourier transform of real sequences: orthogonality, inversion, masking. *)
From Coq Require Import Reals List Arith ZArith Lia Lra Bool.
From Verif Require Import SpecSum SumFacts SpecFourier.
Local Open Scope R_scope.

Lemma cos_period_Z x z : cos (x + 2 * PI * IZR z) = cos x /\ sin (x + 2 * PI * IZR z) = sin x.
Proof.
  destruct (Z.le_ge_cases 0 z) as [H|H].
  - replace (2 * PI * IZR z) with (2 * INR (Z.to_nat z) * PI) by (rewrite INR_IZR_INZ, Z2Nat.id by auto; ring).
    split; [apply cos_period|apply sin_period].
  - set (y := x + 2 * PI * IZR z). replace x with (y + 2 * INR (Z.to_nat (- z)) * PI).
    2:{ unfold y. rewrite INR_IZR_INZ, Z2Nat.id, opp_IZR by lia. ring. }
    rewrite cos_period, sin_period. auto.
Qed.

(** sums over multiples of an angle *)
Definition cosum (n : nat) (th : R) : R := bigsum n (fun k => cos (INR k * th)).
Definition sisum (n : nat) (th : R) : R := bigsum n (fun k => sin (INR k * th)).
Lemma dirichlet n th : 2 * sin (th / 2) * cosum n th = sin (INR n * th - th / 2) + sin (th / 2) /\
  2 * sin (th / 2) * sisum n th = cos (th / 2) - cos (INR n * th - th / 2).
Proof.
  induction n as [|n [IHc IHs]].
  - unfold cosum, sisum. cbn [bigsum INR]. rewrite Rmult_0_l. unfold Rminus. rewrite Rplus_0_l, sin_neg, cos_neg. lra.
  - unfold cosum, sisum in *. cbn [bigsum]. rewrite S_INR, !Rmult_plus_distr_l, IHc, IHs.
    replace ((INR n + 1) * th - th / 2) with (INR n * th + th / 2) by lra.
    rewrite sin_plus, cos_plus, sin_minus, cos_minus. lra.
Qed.

Definition ang (n : nat) (d : Z) : R := 2 * PI * IZR d / INR n.
Lemma sum_small n d : (0 < d < Z.of_nat n)%Z -> cosum n (ang n d) = 0 /\ sisum n (ang n d) = 0.
Proof.
  intros H. assert (Hn : 0 < INR n) by (apply lt_0_INR; lia).
  assert (Hd : 0 < IZR d < INR n) by (rewrite INR_IZR_INZ; split; apply IZR_lt; lia).
  destruct (dirichlet n (ang n d)) as [Hc Hs].
  assert (E : INR n * ang n d - ang n d / 2 = - (ang n d / 2) + 2 * PI * IZR d) by (unfold ang; field; lra).
  rewrite E in Hc, Hs. destruct (cos_period_Z (- (ang n d / 2)) d) as [Pc Ps]. rewrite Pc, cos_neg in Hs. rewrite Ps, sin_neg in Hc.
  assert (Hsin : 0 < sin (ang n d / 2)).
  { assert (HP := PI_RGT_0). replace (ang n d / 2) with (PI * (IZR d / INR n)) by (unfold ang; field; lra).
    assert (0 < IZR d / INR n < 1).
    { split; [apply Rdiv_lt_0_compat; lra|]. apply (Rmult_lt_reg_r (INR n)); auto. unfold Rdiv. rewrite Rmult_assoc, Rinv_l by lra. lra. }
    apply sin_gt_0; [apply Rmult_lt_0_compat; lra|]. rewrite <- (Rmult_1_r PI) at 2. apply Rmult_lt_compat_l; lra. }
  split; apply (Rmult_eq_reg_l (2 * sin (ang n d / 2))); lra.
Qed.
Lemma ang_mod n d k : (0 < n)%nat ->
  cos (INR k * ang n d) = cos (INR k * ang n (d mod Z.of_nat n)) /\ sin (INR k * ang n d) = sin (INR k * ang n (d mod Z.of_nat n)).
Proof.
  intros Hn. assert (H : 0 < INR n) by (apply lt_0_INR; lia).
  assert (E : INR k * ang n d = INR k * ang n (d mod Z.of_nat n) + 2 * PI * IZR (Z.of_nat k * (d / Z.of_nat n))).
  { rewrite (Z.div_mod d (Z.of_nat n)) at 1 by lia. unfold ang. rewrite plus_IZR, !mult_IZR, <- !INR_IZR_INZ. field. lra. }
  rewrite E. apply cos_period_Z.
Qed.
Lemma sum_general n d : (0 < n)%nat ->
  cosum n (ang n d) = (if Z.eqb (d mod Z.of_nat n) 0 then INR n else 0) /\ sisum n (ang n d) = 0.
Proof.
  intros Hn. unfold cosum, sisum.
  rewrite (bigsum_ext n (fun k => cos (INR k * ang n d)) (fun k => cos (INR k * ang n (d mod Z.of_nat n)))) by (intros; apply ang_mod; auto).
  rewrite (bigsum_ext n (fun k => sin (INR k * ang n d)) (fun k => sin (INR k * ang n (d mod Z.of_nat n)))) by (intros; apply ang_mod; auto).
  pose proof (Z.mod_pos_bound d (Z.of_nat n) ltac:(lia)) as B. destruct (Z.eqb_spec (d mod Z.of_nat n) 0) as [->|Hne].
  - assert (E : ang n 0 = 0) by (unfold ang; unfold Rdiv; ring). rewrite E. split.
    + rewrite (bigsum_ext n _ (fun _ => 1)) by (intros; rewrite Rmult_0_r; apply cos_0). rewrite bigsum_const. ring.
    + apply bigsum_0. intros. rewrite Rmult_0_r. apply sin_0.
  - apply (sum_small n (d mod Z.of_nat n)). lia.
Qed.

Lemma turn_ang n k t : turn n k t = INR t * ang n (Z.of_nat k).
Proof. unfold turn, ang. rewrite mult_INR, <- INR_IZR_INZ. unfold Rdiv. ring. Qed.
Lemma turn_comm n k t : turn n k t = turn n t k. Proof. unfold turn. rewrite Nat.mul_comm. reflexivity. Qed.
Lemma ang_plus n c d : ang n (c + d) = ang n c + ang n d. Proof. unfold ang. rewrite plus_IZR. unfold Rdiv. ring. Qed.
Lemma ang_minus n c d : ang n (c - d) = ang n c - ang n d. Proof. unfold ang. rewrite minus_IZR. unfold Rdiv. ring. Qed.

(** indicator of congruence *)
Definition ind (n : nat) (d : Z) : R := if Z.eqb (d mod Z.of_nat n) 0 then 1 else 0.
Lemma prod_cc n j k : (0 < n)%nat -> bigsum n (fun t => cos (turn n k t) * cos (turn n j t)) =
  INR n / 2 * (ind n (Z.of_nat k - Z.of_nat j) + ind n (Z.of_nat k + Z.of_nat j)).
Proof.
  intros Hn. destruct (sum_general n (Z.of_nat k - Z.of_nat j) Hn) as [E1 _]. destruct (sum_general n (Z.of_nat k + Z.of_nat j) Hn) as [E2 _].
  transitivity (1 / 2 * (cosum n (ang n (Z.of_nat k - Z.of_nat j)) + cosum n (ang n (Z.of_nat k + Z.of_nat j)))).
  - unfold cosum. rewrite <- bigsum_plus, <- bigsum_scal. apply bigsum_ext. intros t _. rewrite !turn_ang, ang_minus, ang_plus.
    rewrite (Rmult_minus_distr_l (INR t)), (Rmult_plus_distr_l (INR t)), cos_minus, cos_plus. lra.
  - rewrite E1, E2. unfold ind. destruct (_ =? 0)%Z, (_ =? 0)%Z; lra.
Qed.
Lemma prod_ss n j k : (0 < n)%nat -> bigsum n (fun t => sin (turn n k t) * sin (turn n j t)) =
  INR n / 2 * (ind n (Z.of_nat k - Z.of_nat j) - ind n (Z.of_nat k + Z.of_nat j)).
Proof.
  intros Hn. destruct (sum_general n (Z.of_nat k - Z.of_nat j) Hn) as [E1 _]. destruct (sum_general n (Z.of_nat k + Z.of_nat j) Hn) as [E2 _].
  transitivity (1 / 2 * (cosum n (ang n (Z.of_nat k - Z.of_nat j)) - cosum n (ang n (Z.of_nat k + Z.of_nat j)))).
  - unfold cosum. rewrite <- bigsum_minus, <- bigsum_scal. apply bigsum_ext. intros t _. rewrite !turn_ang, ang_minus, ang_plus.
    rewrite (Rmult_minus_distr_l (INR t)), (Rmult_plus_distr_l (INR t)), cos_minus, cos_plus. lra.
  - rewrite E1, E2. unfold ind. destruct (_ =? 0)%Z, (_ =? 0)%Z; lra.
Qed.
Lemma prod_sc n j k : (0 < n)%nat -> bigsum n (fun t => sin (turn n k t) * cos (turn n j t)) = 0.
Proof.
  intros Hn. destruct (sum_general n (Z.of_nat k - Z.of_nat j) Hn) as [_ E1]. destruct (sum_general n (Z.of_nat k + Z.of_nat j) Hn) as [_ E2].
  transitivity (1 / 2 * (sisum n (ang n (Z.of_nat k - Z.of_nat j)) + sisum n (ang n (Z.of_nat k + Z.of_nat j)))).
  - unfold sisum. rewrite <- bigsum_plus, <- bigsum_scal. apply bigsum_ext. intros t _. rewrite !turn_ang, ang_minus, ang_plus.
    rewrite (Rmult_minus_distr_l (INR t)), (Rmult_plus_distr_l (INR t)), sin_minus, sin_plus. lra.
  - rewrite E1, E2. lra.
Qed.
Lemma ind_diff n j k : (j < n)%nat -> (k < n)%nat -> ind n (Z.of_nat k - Z.of_nat j) = if Nat.eqb k j then 1 else 0.
Proof.
  intros Hj Hk. unfold ind. destruct (Nat.eqb_spec k j) as [->|Hne].
  - rewrite Z.sub_diag, Zmod_0_l. reflexivity.
  - destruct (Z.eqb_spec ((Z.of_nat k - Z.of_nat j) mod Z.of_nat n) 0) as [E|]; auto. exfalso.
    apply Z.mod_divide in E; [|lia]. destruct E as [q E].
    assert (q <= -1 \/ q = 0 \/ q = 1 \/ 2 <= q)%Z as [H|[H|[H|H]]] by lia; subst; nia.
Qed.
(** the mirror bin *)
Definition mir (n j : nat) : nat := if Nat.eqb j 0 then 0%nat else (n - j)%nat.
Lemma mir_lt n j : (j < n)%nat -> (mir n j < n)%nat.
Proof. unfold mir. destruct (Nat.eqb_spec j 0); lia. Qed.
Lemma ind_sum n j k : (j < n)%nat -> (k < n)%nat -> ind n (Z.of_nat k + Z.of_nat j) = if Nat.eqb k (mir n j) then 1 else 0.
Proof.
  intros Hj Hk. unfold ind, mir. destruct (Nat.eqb_spec j 0) as [->|Hj0].
  - cbn [Z.of_nat]. rewrite Z.add_0_r, Z.mod_small by lia. destruct (Nat.eqb_spec k 0), (Z.eqb_spec (Z.of_nat k) 0); try lia; reflexivity.
  - destruct (Nat.eqb_spec k (n - j)) as [->|Hne].
    + replace (Z.of_nat (n - j) + Z.of_nat j)%Z with (Z.of_nat n) by lia. rewrite Z_mod_same_full. reflexivity.
    + destruct (Z.eqb_spec ((Z.of_nat k + Z.of_nat j) mod Z.of_nat n) 0) as [E|]; auto. exfalso.
      apply Z.mod_divide in E; [|lia]. destruct E as [q E].
    assert (q <= -1 \/ q = 0 \/ q = 1 \/ 2 <= q)%Z as [H|[H|[H|H]]] by lia; subst; nia.
Qed.
Lemma bigsum_pick n j g : (j < n)%nat -> bigsum n (fun k => g k * (if Nat.eqb k j then 1 else 0)) = g j.
Proof.
  intros Hj. rewrite (bigsum_single n j); auto.
  - rewrite Nat.eqb_refl. ring.
  - intros i _ Hne. destruct (Nat.eqb_spec i j); [congruence|ring].
Qed.

(** spectrum of a real sequence at the mirror bin *)
Lemma spec_mir n x j : (j < n)%nat -> spec_re n x (mir n j) = spec_re n x j /\ spec_im n x (mir n j) = - spec_im n x j.
Proof.
  intros Hj. unfold mir. destruct (Nat.eqb_spec j 0) as [->|Hj0].
  - split; auto. unfold spec_im. rewrite (bigsum_0 n); [lra|]. intros t _. unfold turn. cbn [Nat.mul INR]. unfold Rdiv. rewrite Rmult_0_r, Rmult_0_l, sin_0. ring.
  - assert (H : forall t, cos (turn n (n - j) t) = cos (turn n j t) /\ sin (turn n (n - j) t) = - sin (turn n j t)).
    { intros t. assert (Hn : 0 < INR n) by (apply lt_0_INR; lia).
      replace (turn n (n - j) t) with (- turn n j t + 2 * PI * IZR (Z.of_nat t)).
      2:{ unfold turn. rewrite !mult_INR, minus_INR, <- INR_IZR_INZ by lia. field. lra. }
      destruct (cos_period_Z (- turn n j t) (Z.of_nat t)) as [-> ->]. rewrite cos_neg, sin_neg. auto. }
    unfold spec_re, spec_im. split.
    + apply bigsum_ext. intros t _. rewrite (proj1 (H t)). reflexivity.
    + replace (- bigsum n (fun t => - (x t * sin (turn n j t)))) with ((-1) * bigsum n (fun t => - (x t * sin (turn n j t)))) by ring.
      rewrite <- bigsum_scal. apply bigsum_ext. intros t _. rewrite (proj2 (H t)). ring.
Qed.

(** masked inverse transform *)
Definition b2r (b : bool) : R := if b then 1 else 0.
Definition filt (n : nat) (keep : nat -> bool) (x : nat -> R) (t : nat) : R :=
  bigsum n (fun k => b2r (keep k) * (spec_re n x k * cos (turn n k t) - spec_im n x k * sin (turn n k t))) / INR n.

Lemma filt_all n x t : (t < n)%nat -> filt n (fun _ => true) x t = x t.
Proof.
  intros Ht. assert (Hn : INR n <> 0) by (apply not_0_INR; lia). unfold filt, spec_re, spec_im. cbn [b2r].
  transitivity (bigsum n (fun s => x s * (bigsum n (fun k => cos (turn n s k) * cos (turn n t k)) + bigsum n (fun k => sin (turn n s k) * sin (turn n t k)))) / INR n).
  - f_equal. transitivity (bigsum n (fun k => bigsum n (fun s => x s * (cos (turn n s k) * cos (turn n t k) + sin (turn n s k) * sin (turn n t k))))).
    + apply bigsum_ext. intros k _. rewrite Rmult_1_l, <- !bigsum_scal_r, <- bigsum_minus. apply bigsum_ext. intros s _.
      rewrite (turn_comm n s k), (turn_comm n t k). ring.
    + rewrite bigsum_swap. apply bigsum_ext. intros s _. rewrite bigsum_scal, bigsum_plus. reflexivity.
  - rewrite (bigsum_ext n _ (fun s => INR n * (x s * (if Nat.eqb s t then 1 else 0)))).
    + rewrite bigsum_scal, bigsum_pick by auto. field. auto.
    + intros s Hs. rewrite prod_cc, prod_ss, ind_diff by lia. destruct (Nat.eqb s t); field.
Qed.

Definition symmetric (n : nat) (keep : nat -> bool) : Prop := forall k, (k < n)%nat -> keep (mir n k) = keep k.

Lemma filt_spec n keep x j : symmetric n keep -> (j < n)%nat ->
  spec_re n (filt n keep x) j = b2r (keep j) * spec_re n x j /\ spec_im n (filt n keep x) j = b2r (keep j) * spec_im n x j.
Proof.
  intros Hs Hj. assert (Hn : INR n <> 0) by (apply not_0_INR; lia). assert (Hn' : (0 < n)%nat) by lia.
  pose proof (mir_lt n j Hj) as Hm. destruct (spec_mir n x j Hj) as [Mr Mi].
  split.
  - unfold spec_re at 1. unfold filt.
    transitivity (bigsum n (fun k => b2r (keep k) * (spec_re n x k * bigsum n (fun t => cos (turn n k t) * cos (turn n j t)) - spec_im n x k * bigsum n (fun t => sin (turn n k t) * cos (turn n j t)))) / INR n).
    + unfold Rdiv. rewrite <- bigsum_scal_r.
      rewrite (bigsum_ext n _ (fun t => bigsum n (fun k => b2r (keep k) * (spec_re n x k * cos (turn n k t) - spec_im n x k * sin (turn n k t)) * cos (turn n j t) * / INR n))).
      * rewrite bigsum_swap. apply bigsum_ext. intros k _. rewrite <- !bigsum_scal, <- bigsum_minus, <- bigsum_scal, <- bigsum_scal_r. apply bigsum_ext. intros t _. ring.
      * intros t _. rewrite (Rmult_comm _ (cos _)), <- Rmult_assoc, <- bigsum_scal, <- bigsum_scal_r. apply bigsum_ext. intros k _. ring.
    + rewrite (bigsum_ext n _ (fun k => INR n / 2 * (b2r (keep k) * spec_re n x k * (if Nat.eqb k j then 1 else 0) + b2r (keep k) * spec_re n x k * (if Nat.eqb k (mir n j) then 1 else 0)))).
      * rewrite bigsum_scal, bigsum_plus, !bigsum_pick by auto. rewrite (Hs j Hj), Mr. field. auto.
      * intros k Hk. rewrite prod_cc, prod_sc, ind_diff, ind_sum by auto. ring.
  - unfold spec_im at 1. unfold filt.
    transitivity (- (bigsum n (fun k => b2r (keep k) * (spec_re n x k * bigsum n (fun t => cos (turn n k t) * sin (turn n j t)) - spec_im n x k * bigsum n (fun t => sin (turn n k t) * sin (turn n j t)))) / INR n)).
    + replace (- (bigsum n (fun k => b2r (keep k) * (spec_re n x k * bigsum n (fun t => cos (turn n k t) * sin (turn n j t)) - spec_im n x k * bigsum n (fun t => sin (turn n k t) * sin (turn n j t)))) / INR n))
        with (bigsum n (fun k => b2r (keep k) * (spec_re n x k * bigsum n (fun t => cos (turn n k t) * sin (turn n j t)) - spec_im n x k * bigsum n (fun t => sin (turn n k t) * sin (turn n j t)))) * (- / INR n)) by (unfold Rdiv; ring).
      rewrite <- bigsum_scal_r.
      rewrite (bigsum_ext n _ (fun t => bigsum n (fun k => b2r (keep k) * (spec_re n x k * cos (turn n k t) - spec_im n x k * sin (turn n k t)) * sin (turn n j t) * (- / INR n)))).
      * rewrite bigsum_swap. apply bigsum_ext. intros k _. rewrite <- !bigsum_scal, <- bigsum_minus, <- bigsum_scal, <- bigsum_scal_r. apply bigsum_ext. intros t _. ring.
      * intros t _. unfold Rdiv.
        match goal with |- - (?A * / INR n * ?s) = _ => replace (- (A * / INR n * s)) with (A * (s * - / INR n)) by ring end.
        rewrite <- bigsum_scal_r. apply bigsum_ext. intros k _. ring.
    + rewrite (bigsum_ext n _ (fun k => - (INR n / 2) * (b2r (keep k) * spec_im n x k * (if Nat.eqb k j then 1 else 0) + - (b2r (keep k) * spec_im n x k) * (if Nat.eqb k (mir n j) then 1 else 0)))).
      * rewrite bigsum_scal, bigsum_plus, !bigsum_pick by auto. rewrite (Hs j Hj), Mi. field. auto.
      * intros k Hk. rewrite (bigsum_ext n (fun t => cos (turn n k t) * sin (turn n j t)) (fun t => sin (turn n j t) * cos (turn n k t))) by (intros; ring).
        rewrite prod_ss, prod_sc, ind_diff, ind_sum by auto. ring.
Qed.

Lemma filt_ext n keep keep' x y t : (forall k, (k < n)%nat -> keep k = keep' k) -> (forall s, (s < n)%nat -> x s = y s) -> filt n keep x t = filt n keep' y t.
Proof.
  intros Hk Hx. unfold filt. f_equal. apply bigsum_ext. intros k Hkn. rewrite Hk by auto.
  assert (E1 : spec_re n x k = spec_re n y k) by (apply bigsum_ext; intros; rewrite Hx by auto; reflexivity).
  assert (E2 : spec_im n x k = spec_im n y k) by (apply bigsum_ext; intros; rewrite Hx by auto; reflexivity).
  rewrite E1, E2. reflexivity.
Qed.
Lemma filt_linear n keep x y a b t : filt n keep (fun s => a * x s + b * y s) t = a * filt n keep x t + b * filt n keep y t.
Proof.
  unfold filt, Rdiv. rewrite <- !Rmult_assoc, <- !bigsum_scal, <- Rmult_plus_distr_r, <- bigsum_plus. f_equal. apply bigsum_ext. intros k _.
  assert (E1 : spec_re n (fun s => a * x s + b * y s) k = a * spec_re n x k + b * spec_re n y k).
  { unfold spec_re. rewrite <- !bigsum_scal, <- bigsum_plus. apply bigsum_ext. intros. ring. }
  assert (E2 : spec_im n (fun s => a * x s + b * y s) k = a * spec_im n x k + b * spec_im n y k).
  { unfold spec_im. rewrite <- !bigsum_scal, <- bigsum_plus. apply bigsum_ext. intros. ring. }
  rewrite E1, E2. ring.
Qed.
Lemma filt_idem n keep x t : symmetric n keep -> filt n keep (filt n keep x) t = filt n keep x t.
Proof.
  intros Hs. unfold filt at 1. unfold filt at 3. f_equal. apply bigsum_ext. intros k Hk. destruct (filt_spec n keep x k Hs Hk) as [-> ->].
  destruct (keep k); cbn [b2r]; ring.
Qed.
Lemma filt_compose n keep1 keep2 x t : symmetric n keep1 -> filt n keep2 (filt n keep1 x) t = filt n (fun k => keep1 k && keep2 k) x t.
Proof.
  intros Hs. unfold filt at 1. unfold filt at 3. f_equal. apply bigsum_ext. intros k Hk. destruct (filt_spec n keep1 x k Hs Hk) as [-> ->].
  destruct (keep1 k), (keep2 k); cbn [b2r andb]; ring.
Qed.
Lemma filt_add n k1 k2 k3 x t : (forall k, (k < n)%nat -> b2r (k1 k) + b2r (k2 k) = b2r (k3 k)) -> filt n k1 x t + filt n k2 x t = filt n k3 x t.
Proof.
  intros H. unfold filt, Rdiv. rewrite <- Rmult_plus_distr_r, <- bigsum_plus. f_equal. apply bigsum_ext. intros k Hk. rewrite <- H by auto. ring.
Qed.
Lemma filt_zero n keep x t : (forall k, (k < n)%nat -> keep k = true -> spec_re n x k = 0 /\ spec_im n x k = 0) -> filt n keep x t = 0.
Proof.
  intros H. unfold filt. rewrite bigsum_0; [unfold Rdiv; ring|]. intros k Hk. destruct (keep k) eqn:E; cbn [b2r]; [|ring].
  destruct (H k Hk E) as [-> ->]. ring.
Qed.
Lemma wave_spec n k0 a b k : (k0 < n)%nat -> (k < n)%nat -> k <> k0 -> k <> mir n k0 ->
  spec_re n (wave n k0 a b) k = 0 /\ spec_im n (wave n k0 a b) k = 0.
Proof.
  intros H0 Hk N1 N2. assert (Hn : (0 < n)%nat) by lia. unfold spec_re, spec_im, wave. split.
  - transitivity (a * bigsum n (fun t => cos (turn n k t) * cos (turn n k0 t)) + b * bigsum n (fun t => sin (turn n k0 t) * cos (turn n k t))).
    + rewrite <- !bigsum_scal, <- bigsum_plus. apply bigsum_ext. intros. ring.
    + rewrite prod_cc, prod_sc, ind_diff, ind_sum by auto. destruct (Nat.eqb_spec k k0), (Nat.eqb_spec k (mir n k0)); try congruence. ring.
  - transitivity (- a * bigsum n (fun t => sin (turn n k t) * cos (turn n k0 t)) + - b * bigsum n (fun t => sin (turn n k t) * sin (turn n k0 t))).
    + rewrite <- !bigsum_scal, <- bigsum_plus. apply bigsum_ext. intros. ring.
    + rewrite prod_ss, prod_sc, ind_diff, ind_sum by auto. destruct (Nat.eqb_spec k k0), (Nat.eqb_spec k (mir n k0)); try congruence. ring.
Qed.
Lemma filt_wave_removed n keep k0 a b t : symmetric n keep -> (k0 < n)%nat -> keep k0 = false -> filt n keep (wave n k0 a b) t = 0.
Proof.
  intros Hs H0 Hk. apply filt_zero. intros k Hkn Hkk. apply wave_spec; auto.
  - intros ->. congruence.
  - intros ->. rewrite Hs in Hkk by auto. congruence.
Qed.
Lemma filt_wave_kept n keep k0 a b t : symmetric n keep -> (k0 < n)%nat -> keep k0 = true -> (t < n)%nat -> filt n keep (wave n k0 a b) t = wave n k0 a b t.
Proof.
  intros Hs H0 Hk Ht. rewrite <- (filt_all n (wave n k0 a b) t) by auto.
  rewrite <- (filt_add n keep (fun k => negb (keep k)) (fun _ => true)).
  - rewrite (filt_wave_removed n (fun k => negb (keep k))); [ring| |auto|rewrite Hk; reflexivity].
    intros k Hkn. rewrite Hs by auto. reflexivity.
  - intros k _. destruct (keep k); cbn; lra.
Qed.
