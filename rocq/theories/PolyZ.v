(** Polynomials with rational coefficients bounded through fixed-point integer coefficients.
    Not in /repo: proof machinery for the WGS84 series of gradient.py. *)
From Coq Require Import Reals List Lra Lia ZArith Ratan.
Import ListNotations.
Local Open Scope R_scope.

(** ** Integer polynomials *)
Fixpoint zeval (l : list Z) (x : R) : R :=
  match l with [] => 0 | c :: t => IZR c + x * zeval t x end.
Fixpoint zadd (l1 l2 : list Z) : list Z :=
  match l1, l2 with
  | [], l => l
  | l, [] => l
  | a :: t1, b :: t2 => (a + b)%Z :: zadd t1 t2
  end.
Definition zscale (c : Z) (l : list Z) : list Z := map (Z.mul c) l.
Fixpoint zmul (l1 l2 : list Z) : list Z :=
  match l1 with [] => [] | c :: t => zadd (zscale c l2) (0%Z :: zmul t l2) end.
Definition zbound (l : list Z) : Z := fold_right (fun c acc => (Z.abs c + acc)%Z) 0%Z l.
Lemma zadd_ok l1 l2 x : zeval (zadd l1 l2) x = zeval l1 x + zeval l2 x.
Proof.
  revert l2. induction l1 as [|a t IH]; intros [|b t2]; cbn [zeval zadd]; try lra.
  rewrite plus_IZR, IH. lra.
Qed.
Lemma zscale_ok c l x : zeval (zscale c l) x = IZR c * zeval l x.
Proof. induction l as [|a t IH]; [simpl; lra|]. unfold zscale in *. cbn [map zeval]. rewrite mult_IZR, IH. lra. Qed.
Lemma zmul_ok l1 l2 x : zeval (zmul l1 l2) x = zeval l1 x * zeval l2 x.
Proof.
  induction l1 as [|a t IH]; [simpl; lra|]. cbn [zmul]. rewrite zadd_ok, zscale_ok. cbn [zeval]. rewrite IH. lra.
Qed.
Lemma zbound_ok l x : 0 <= x <= 1 -> Rabs (zeval l x) <= IZR (zbound l).
Proof.
  intros Hx. unfold zbound. induction l as [|c t IH]; cbn [zeval fold_right].
  - rewrite Rabs_R0. lra.
  - rewrite plus_IZR, abs_IZR. eapply Rle_trans; [apply Rabs_triang|]. apply Rplus_le_compat_l.
    rewrite Rabs_mult, (Rabs_right x) by lra. pose proof (Rabs_pos (zeval t x)). nra.
Qed.

(** ** Fractions, rounded down to multiples of 1/s *)
Fixpoint feval (l : list (Z * Z)) (x : R) : R :=
  match l with [] => 0 | c :: t => IZR (fst c) / IZR (snd c) + x * feval t x end.
Definition fround (s : Z) (l : list (Z * Z)) : list Z := map (fun c => (fst c * s / snd c)%Z) l.
Definition dens_pos (l : list (Z * Z)) : Prop := Forall (fun c => (0 < snd c)%Z) l.
Lemma fround_ok s l x : (0 < s)%Z -> dens_pos l -> 0 <= x <= 1 ->
  Rabs (feval l x - zeval (fround s l) x / IZR s) <= INR (length l) / IZR s.
Proof.
  intros Hs Hl Hx. assert (Hs' : 0 < IZR s) by now apply IZR_lt.
  assert (G : 0 <= feval l x * IZR s - zeval (fround s l) x <= INR (length l)).
  { induction Hl as [|[a d] t Hd Ht IH]; cbn [feval fround map zeval length fst snd]; [simpl; lra|].
    fold (fround s t). cbn [snd] in Hd. assert (Hd' : 0 < IZR d) by now apply IZR_lt.
    pose proof (Z.div_mod (a * s) d ltac:(lia)) as E. pose proof (Z.mod_pos_bound (a * s) d Hd) as B.
    apply (f_equal IZR) in E. rewrite plus_IZR, !mult_IZR in E.
    destruct B as [B1 B2]. apply IZR_le in B1. apply IZR_lt in B2.
    assert (Q : IZR a / IZR d * IZR s = IZR (a * s / d) + IZR ((a * s) mod d) / IZR d).
    { replace (IZR a / IZR d * IZR s) with ((IZR a * IZR s) / IZR d) by (field; lra). rewrite E. field. lra. }
    assert (0 <= IZR ((a * s) mod d) / IZR d <= 1).
    { split; [apply Rmult_le_pos; [lra|]; apply Rlt_le, Rinv_0_lt_compat; lra|].
      apply (Rmult_le_reg_r (IZR d)); [lra|]. unfold Rdiv. rewrite Rmult_assoc, Rinv_l by lra. lra. }
    replace ((IZR a / IZR d + x * feval t x) * IZR s - (IZR (a * s / d) + x * zeval (fround s t) x))
      with ((IZR a / IZR d * IZR s - IZR (a * s / d)) + x * (feval t x * IZR s - zeval (fround s t) x)) by ring.
    rewrite Q. rewrite S_INR.
    assert (0 <= x * (feval t x * IZR s - zeval (fround s t) x) <= INR (length t)).
    { split; [apply Rmult_le_pos; lra|]. apply Rle_trans with (1 * INR (length t)); [|lra]. apply Rmult_le_compat; lra. }
    lra. }
  replace (feval l x - zeval (fround s l) x / IZR s) with ((feval l x * IZR s - zeval (fround s l) x) * / IZR s) by (field; lra).
  rewrite Rabs_right.
  - unfold Rdiv. apply Rmult_le_compat_r; [apply Rlt_le, Rinv_0_lt_compat; lra|lra].
  - apply Rle_ge, Rmult_le_pos; [lra|]. apply Rlt_le, Rinv_0_lt_compat; lra.
Qed.

(** ** Sums of source terms m * 10^-k * x^p *)
Definition rterm (x : R) (t : Z * nat * nat) : R := let '(m, k, p) := t in IZR m / IZR (10 ^ Z.of_nat k) * x ^ p.
Definition tsum (ts : list (Z * nat * nat)) (x : R) : R := fold_right (fun t acc => rterm x t + acc) 0 ts.
Lemma tsum_app l1 l2 x : tsum (l1 ++ l2) x = tsum l1 x + tsum l2 x.
Proof. unfold tsum. induction l1 as [|t l IH]; cbn [app fold_right]; [lra|]. rewrite IH. lra. Qed.
Lemma tsum_rev l x : tsum (rev l) x = tsum l x.
Proof. induction l as [|t l IH]; [reflexivity|]. cbn [rev]. rewrite tsum_app, IH. unfold tsum. cbn [fold_right]. lra. Qed.

Definition dterm (t : Z * nat * nat) : Z * nat * nat := let '(m, k, p) := t in ((m * Z.of_nat p)%Z, k, pred p).
Lemma tsum_deriv ts x : derivable_pt_lim (tsum ts) x (tsum (map dterm ts) x).
Proof.
  induction ts as [|[[m k] p] ts IH]; [apply derivable_pt_lim_const|].
  apply (derivable_pt_lim_plus (fun x => rterm x (m, k, p)) (tsum ts)); [|exact IH].
  unfold rterm, dterm. rewrite mult_IZR, <- INR_IZR_INZ.
  replace (IZR m * INR p / IZR (10 ^ Z.of_nat k) * x ^ pred p)
    with (IZR m / IZR (10 ^ Z.of_nat k) * (INR p * x ^ pred p)) by (unfold Rdiv; ring).
  apply derivable_pt_lim_scal. apply derivable_pt_lim_pow.
Qed.
Lemma tsum_even ts x : forallb (fun t => Nat.even (snd t)) ts = true -> tsum ts (- x) = tsum ts x.
Proof.
  induction ts as [|[[m k] p] ts IH]; [reflexivity|]. cbn [forallb snd]. intros H. apply andb_prop in H. destruct H as [H1 H2].
  unfold tsum in *. cbn [fold_right]. rewrite (IH H2). f_equal. unfold rterm. f_equal.
  apply Nat.even_spec in H1. destruct H1 as [q ->]. rewrite !pow_mult. f_equal. ring.
Qed.
Lemma tsum_odd ts x : forallb (fun t => Nat.odd (snd t)) ts = true -> tsum ts (- x) = - tsum ts x.
Proof.
  induction ts as [|[[m k] p] ts IH]; [intros; unfold tsum; simpl; lra|]. cbn [forallb snd]. intros H. apply andb_prop in H. destruct H as [H1 H2].
  unfold tsum in *. cbn [fold_right]. rewrite (IH H2). unfold rterm.
  apply Nat.odd_spec in H1. destruct H1 as [q ->]. rewrite !pow_add, !pow_mult, !pow_1.
  replace ((- x) ^ 2) with (x ^ 2) by ring. ring.
Qed.

(** exponents 2 j, 2 (j + 1), ... *)
Fixpoint even_exps (j : nat) (ts : list (Z * nat * nat)) : bool :=
  match ts with [] => true | t :: r => Nat.eqb (snd t) (2 * j) && even_exps (S j) r end.
(** coefficients of the polynomial in (x/90)^2 *)
Fixpoint fr_of (s : Z) (ts : list (Z * nat * nat)) : list (Z * Z) :=
  match ts with [] => [] | (m, k, _) :: r => ((m * s)%Z, (10 ^ Z.of_nat k)%Z) :: fr_of (s * 8100) r end.
Lemma fr_dens s ts : dens_pos (fr_of s ts).
Proof.
  revert s. induction ts as [|[[m k] p] r IH]; intros s; [constructor|]. constructor; [|apply IH]. cbn [snd]. apply Z.pow_pos_nonneg; lia.
Qed.
Lemma fr_ok j ts s x : even_exps j ts = true -> s = (8100 ^ Z.of_nat j)%Z ->
  tsum ts x = ((x / 90) ^ 2) ^ j * feval (fr_of s ts) ((x / 90) ^ 2).
Proof.
  intros H Hs. revert j s H Hs. induction ts as [|[[m k] p] r IH]; intros j s H Hs; cbn [even_exps snd] in H.
  - unfold tsum. simpl. lra.
  - apply andb_prop in H. destruct H as [H1 H2]. apply Nat.eqb_eq in H1. subst p.
    cbn [fr_of feval fst snd].
    assert (E : tsum ((m, k, (2 * j)%nat) :: r) x = rterm x (m, k, (2 * j)%nat) + tsum r x) by reflexivity.
    rewrite E, (IH (S j) (s * 8100)%Z H2).
    2:{ rewrite Hs, Nat2Z.inj_succ, Z.pow_succ_r by lia. ring. }
    unfold rterm. rewrite mult_IZR. replace (IZR s) with (8100 ^ j) by (rewrite Hs; apply pow_IZR).
    rewrite pow_mult. replace (x ^ 2) with (8100 * (x / 90) ^ 2) by field. rewrite Rpow_mult_distr.
    cbn [pow]. unfold Rdiv. ring.
Qed.
Lemma unit90 x : -90 <= x <= 90 -> 0 <= (x / 90) ^ 2 <= 1.
Proof. intros H. split; [apply pow2_ge_0|]. replace ((x / 90) ^ 2) with (x * x / 8100) by field. nra. Qed.

(** ** Taylor polynomial of cos (d x) in (x/90)^2, where (90 d)^2 = dn / dd *)
Fixpoint cosfr (dn dd : Z) (i : Z) (num den : Z) (fuel : nat) : list (Z * Z) :=
  match fuel with
  | O => []
  | S f => (num, den) :: cosfr dn dd (i + 1) (- (num * dn)) (den * dd * ((2 * i + 1) * (2 * i + 2))) f
  end.
Lemma cosfr_dens dn dd i num den fuel : (0 < dd)%Z -> (0 <= i)%Z -> (0 < den)%Z -> dens_pos (cosfr dn dd i num den fuel).
Proof.
  intros Hdd. revert i num den. induction fuel as [|f IH]; intros i num den Hi Hd; [constructor|]. constructor; [exact Hd|]. apply IH; [lia|].
  apply Z.mul_pos_pos; [apply Z.mul_pos_pos; lia|]. apply Z.mul_pos_pos; lia.
Qed.
Lemma cosfr_sum dn dd fuel d x i num den : (0 < dd)%Z -> (0 < den)%Z -> (90 * d) ^ 2 = IZR dn / IZR dd ->
  IZR num / IZR den * ((x / 90) ^ 2) ^ i = cos_term (d * x) i ->
  ((x / 90) ^ 2) ^ i * feval (cosfr dn dd (Z.of_nat i) num den fuel) ((x / 90) ^ 2)
  = sum_f_R0 (fun k => if Nat.ltb k fuel then cos_term (d * x) (i + k) else 0) (fuel - 1) .
Proof.
  intros Hdd Hden Hd. revert i num den Hden. induction fuel as [|f IH]; intros i num den Hden H0.
  - simpl. lra.
  - cbn [cosfr feval fst snd].
    assert (Hi : IZR (- (num * dn)) / IZR (den * dd * ((2 * Z.of_nat i + 1) * (2 * Z.of_nat i + 2))) * ((x / 90) ^ 2) ^ (S i)
                 = cos_term (d * x) (S i)).
    { rewrite opp_IZR, !mult_IZR, !plus_IZR, mult_IZR, <- INR_IZR_INZ.
      assert (E : cos_term (d * x) (S i) = - cos_term (d * x) i * ((90 * d) ^ 2 * (x / 90) ^ 2) / ((2 * INR i + 1) * (2 * INR i + 2))).
      { unfold cos_term. replace (2 * S i)%nat with (S (S (2 * i))) by lia.
        cbn [pow]. change (fact (S (S (2 * i)))) with (S (S (2 * i)) * (S (2 * i) * fact (2 * i)))%nat.
        rewrite !mult_INR, !S_INR, mult_INR. simpl (INR 2).
        assert (INR (fact (2 * i)) <> 0) by apply INR_fact_neq_0. pose proof (pos_INR i). field. repeat split; lra. }
      rewrite E, <- H0, Hd. assert (IZR dd <> 0) by (apply not_0_IZR; lia). assert (IZR den <> 0) by (apply not_0_IZR; lia).
      pose proof (pos_INR i). cbn [pow]. field. repeat split; lra. }
    assert (Hden' : (0 < den * dd * ((2 * Z.of_nat i + 1) * (2 * Z.of_nat i + 2)))%Z).
    { apply Z.mul_pos_pos; [apply Z.mul_pos_pos; lia|]. apply Z.mul_pos_pos; lia. }
    specialize (IH (S i) _ _ Hden' Hi). rewrite Nat2Z.inj_succ in IH. unfold Z.succ in IH.
    replace (S f - 1)%nat with f by lia.
    rewrite Rmult_plus_distr_l, (Rmult_comm _ (IZR num / IZR den)), H0.
    replace (((x / 90) ^ 2) ^ i * ((x / 90) ^ 2 * feval (cosfr dn dd (Z.of_nat i + 1) (- (num * dn)) (den * dd * ((2 * Z.of_nat i + 1) * (2 * Z.of_nat i + 2))) f) ((x / 90) ^ 2)))
      with (((x / 90) ^ 2) ^ S i * feval (cosfr dn dd (Z.of_nat i + 1) (- (num * dn)) (den * dd * ((2 * Z.of_nat i + 1) * (2 * Z.of_nat i + 2))) f) ((x / 90) ^ 2))
      by (cbn [pow]; ring).
    rewrite IH. destruct f as [|f].
    + simpl. replace (i + 0)%nat with i by lia. lra.
    + rewrite (decomp_sum _ (S f)) by lia. cbn [pred]. replace (i + 0)%nat with i by lia. cbn [Nat.ltb Nat.leb].
      f_equal. replace (S f - 1)%nat with f by lia. apply sum_eq. intros k Hk.
      replace (S i + k)%nat with (i + S k)%nat by lia. reflexivity.
Qed.
Lemma cosfr_ok dn dd d x n : (0 < dd)%Z -> (90 * d) ^ 2 = IZR dn / IZR dd ->
  feval (cosfr dn dd 0 1 1 (S n)) ((x / 90) ^ 2) = cos_approx (d * x) n.
Proof.
  intros Hdd Hd. pose proof (cosfr_sum dn dd (S n) d x 0 1 1 Hdd ltac:(lia) Hd) as H.
  cbn [pow] in H. rewrite Rmult_1_l in H. change (Z.of_nat 0) with 0%Z in H. cbn [pow]. rewrite H.
  - unfold cos_approx. replace (S n - 1)%nat with n by lia. apply sum_eq. intros k Hk.
    replace (Nat.ltb k (S n)) with true by (symmetry; apply Nat.ltb_lt; lia). reflexivity.
  - unfold cos_term. simpl. lra.
Qed.

(** ** Machin's formula, PI / 4 = 2 atan (1/3) + atan (1/7) *)
Fixpoint atfr (q : Z) (num : Z) (i : nat) (fuel : nat) : list (Z * Z) :=
  match fuel with
  | O => []
  | S f => (num, (q ^ (2 * Z.of_nat i + 1) * (2 * Z.of_nat i + 1))%Z) :: atfr q (- num) (S i) f
  end.
Lemma atfr_dens q num i fuel : (0 < q)%Z -> dens_pos (atfr q num i fuel).
Proof.
  intros Hq. revert num i. induction fuel as [|f IH]; intros num i; [constructor|]. constructor; [|apply IH]. cbn [snd].
  apply Z.mul_pos_pos; [apply Z.pow_pos_nonneg; lia|lia].
Qed.
Lemma atfr_sum q c fuel i : (0 < q)%Z ->
  feval (atfr q (c * (if Nat.even i then 1 else -1)) i (S fuel)) 1
  = sum_f_R0 (fun k => (-1) ^ (i + k) * (IZR c * Ratan_seq (/ IZR q) (i + k))) fuel.
Proof.
  intros Hq. assert (Hq' : IZR q <> 0) by (apply not_0_IZR; lia).
  assert (S1 : forall i, IZR (if Nat.even i then 1 else -1) = (-1) ^ i).
  { induction i0 as [|i0 IH0]; [reflexivity|]. rewrite Nat.even_succ, <- Nat.negb_even. cbn [pow]. rewrite <- IH0.
    destruct (Nat.even i0); simpl; lra. }
  assert (T1 : forall i, IZR (c * (if Nat.even i then 1 else -1)) / IZR (q ^ (2 * Z.of_nat i + 1) * (2 * Z.of_nat i + 1))
               = (-1) ^ i * (IZR c * Ratan_seq (/ IZR q) i)).
  { intros i0. unfold Ratan_seq. rewrite !mult_IZR, S1.
    replace (IZR (q ^ (2 * Z.of_nat i0 + 1))) with (IZR q ^ (2 * i0 + 1)).
    2:{ replace (2 * Z.of_nat i0 + 1)%Z with (Z.of_nat (2 * i0 + 1)) by lia. now rewrite pow_IZR. }
    replace (IZR (2 * Z.of_nat i0 + 1)) with (INR (2 * i0 + 1)).
    2:{ rewrite INR_IZR_INZ. f_equal. lia. }
    rewrite pow_inv. assert (IZR q ^ (2 * i0 + 1) <> 0) by now apply pow_nonzero.
    assert (INR (2 * i0 + 1) <> 0) by (apply not_0_INR; lia). field. auto. }
  revert i. induction fuel as [|f IH]; intros i.
  - cbn [atfr feval fst snd sum_f_R0]. rewrite T1. replace (i + 0)%nat with i by lia. ring.
  - change (atfr q (c * (if Nat.even i then 1 else -1)) i (S (S f)))
      with ((c * (if Nat.even i then 1 else -1), q ^ (2 * Z.of_nat i + 1) * (2 * Z.of_nat i + 1))%Z
            :: atfr q (- (c * (if Nat.even i then 1 else -1))) (S i) (S f)).
    cbn [feval fst snd]. rewrite T1.
    replace (- (c * (if Nat.even i then 1 else -1)))%Z with (c * (if Nat.even (S i) then 1 else -1))%Z.
    2:{ rewrite Nat.even_succ, <- Nat.negb_even. destruct (Nat.even i); cbn [negb]; ring. }
    rewrite IH, (decomp_sum _ (S f)) by lia. cbn [pred]. replace (i + 0)%nat with i by lia. f_equal. rewrite Rmult_1_l.
    apply sum_eq. intros k Hk. replace (S i + k)%nat with (i + S k)%nat by lia. reflexivity.
Qed.
(** partial sum with n + 1 terms, rounded to multiples of 1/s *)
Definition piz (s : Z) (n : nat) : Z :=
  (fold_right Z.add 0 (fround s (atfr 3 2 0 (S n))) + fold_right Z.add 0 (fround s (atfr 7 1 0 (S n))))%Z.
Lemma zeval_1 l : zeval l 1 = IZR (fold_right Z.add 0%Z l).
Proof. induction l as [|c t IH]; [reflexivity|]. cbn [zeval fold_right]. rewrite IH, plus_IZR. ring. Qed.
Lemma atfr_length q num i fuel : length (atfr q num i fuel) = fuel.
Proof. revert num i. induction fuel; intros; cbn [atfr length]; auto. Qed.
Lemma fround_length s l : length (fround s l) = length l.
Proof. apply map_length. Qed.
Lemma piz_ok s n : (0 < s)%Z ->
  Rabs (sum_f_R0 (tg_alt PI_2_3_7_tg) n - IZR (piz s n) / IZR s) <= 2 * INR (S n) / IZR s.
Proof.
  intros Hs.
  pose proof (fround_ok s (atfr 3 2 0 (S n)) 1 Hs (atfr_dens 3 2 0 (S n) ltac:(lia)) ltac:(lra)) as H3.
  pose proof (fround_ok s (atfr 7 1 0 (S n)) 1 Hs (atfr_dens 7 1 0 (S n) ltac:(lia)) ltac:(lra)) as H7.
  pose proof (atfr_sum 3 2 n 0 ltac:(lia)) as E3. pose proof (atfr_sum 7 1 n 0 ltac:(lia)) as E7.
  change (2 * (if Nat.even 0 then 1 else -1))%Z with 2%Z in E3. change (1 * (if Nat.even 0 then 1 else -1))%Z with 1%Z in E7.
  rewrite E3, zeval_1, atfr_length in H3. rewrite E7, zeval_1, atfr_length in H7.
  assert (E : sum_f_R0 (tg_alt PI_2_3_7_tg) n
    = sum_f_R0 (fun k => (-1) ^ (0 + k) * (2 * Ratan_seq (/ 3) (0 + k))) n + sum_f_R0 (fun k => (-1) ^ (0 + k) * (1 * Ratan_seq (/ 7) (0 + k))) n).
  { rewrite <- plus_sum. apply sum_eq. intros k _. unfold tg_alt, PI_2_3_7_tg. cbn [Nat.add]. ring. }
  rewrite E. unfold piz. rewrite plus_IZR.
  set (A := sum_f_R0 (fun k => (-1) ^ (0 + k) * (2 * Ratan_seq (/ 3) (0 + k))) n) in *.
  set (B := sum_f_R0 (fun k => (-1) ^ (0 + k) * (1 * Ratan_seq (/ 7) (0 + k))) n) in *.
  set (u := IZR (fold_right Z.add 0%Z (fround s (atfr 3 2 0 (S n))))) in *.
  set (v := IZR (fold_right Z.add 0%Z (fround s (atfr 7 1 0 (S n))))) in *.
  replace (A + B - (u + v) / IZR s) with ((A - u / IZR s) + (B - v / IZR s)) by (unfold Rdiv; ring).
  eapply Rle_trans; [apply Rabs_triang|]. lra.
Qed.
