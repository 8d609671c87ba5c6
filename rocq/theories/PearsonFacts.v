(** Correlation: algebra of the specification and the closed form of the kernel. *)
From Coq Require Import Reals List Bool Arith ZArith Lra Lia String.
From Verif Require Import PyBase Num NumFacts PyFacts ListFacts Arr ArrFacts CellFacts Hybrid HybridFacts SpecSum SumFacts SpecStats Pearson.
Import ListNotations.
Local Open Scope R_scope.

(** ** algebra *)
Lemma wmean_ext n w w' x x' : (forall k, (k < n)%nat -> w k = w' k /\ x k = x' k) -> wmean n w x = wmean n w' x'.
Proof. intros H. unfold wmean. apply f_equal2; apply bigsum_ext; intros k Hk; destruct (H k Hk) as [E1 E2]; rewrite ?E1, ?E2; auto. Qed.
Lemma wcov_ext n w w' x x' y y' : (forall k, (k < n)%nat -> w k = w' k /\ x k = x' k /\ y k = y' k) -> wcov n w x y = wcov n w' x' y'.
Proof.
  intros H. unfold wcov. rewrite (wmean_ext n w w' x x'), (wmean_ext n w w' y y') by (intros k Hk; destruct (H k Hk) as (? & ? & ?); auto).
  apply bigsum_ext. intros k Hk. destruct (H k Hk) as (-> & -> & ->). auto.
Qed.
(** values where the weight is zero do not matter *)
Lemma wcov_mask n w x x' y y' : (forall k, (k < n)%nat -> w k <> 0 -> x k = x' k /\ y k = y' k) -> wcov n w x y = wcov n w x' y'.
Proof.
  intros H.
  assert (M : forall u u', (forall k, (k < n)%nat -> w k <> 0 -> u k = u' k) -> wmean n w u = wmean n w u').
  { intros u u' Q. unfold wmean. f_equal. apply bigsum_ext. intros k Hk. destruct (Req_dec (w k) 0) as [->|]; [ring|]. rewrite Q by auto. auto. }
  unfold wcov. rewrite (M x x'), (M y y') by (intros; apply H; auto).
  apply bigsum_ext. intros k Hk. destruct (Req_dec (w k) 0) as [->|Z]; [ring|]. destruct (H k Hk Z) as [-> ->]. auto.
Qed.
Lemma wcov_sym n w x y : wcov n w x y = wcov n w y x.
Proof. unfold wcov. apply bigsum_ext. intros. ring. Qed.
Lemma wmean_affine n w x c d : bigsum n w <> 0 -> wmean n w (fun k => c + d * x k) = c + d * wmean n w x.
Proof.
  intros H. unfold wmean.
  replace (bigsum n (fun k => w k * (c + d * x k))) with (c * bigsum n w + d * bigsum n (fun k => w k * x k)).
  - field. auto.
  - rewrite <- !bigsum_scal, <- bigsum_plus. apply bigsum_ext. intros. ring.
Qed.
Lemma wcov_affine n w x y c d : bigsum n w <> 0 -> wcov n w (fun k => c + d * x k) y = d * wcov n w x y.
Proof. intros H. unfold wcov. rewrite wmean_affine by auto. rewrite <- bigsum_scal. apply bigsum_ext. intros. ring. Qed.
Lemma wcov_nonneg n w x : good_weights n w -> 0 <= wcov n w x x.
Proof. intros [H _]. apply bigsum_nonneg. intros k Hk. rewrite Rmult_assoc. apply Rmult_le_pos; auto. apply Rle_0_sqr. Qed.
Lemma cauchy_schwarz n w u v : (forall k, (k < n)%nat -> 0 <= w k) ->
  bigsum n (fun k => w k * u k * v k) * bigsum n (fun k => w k * u k * v k) <= bigsum n (fun k => w k * u k * u k) * bigsum n (fun k => w k * v k * v k).
Proof.
  intros H. set (A := bigsum n (fun k => w k * u k * u k)). set (B := bigsum n (fun k => w k * u k * v k)). set (C := bigsum n (fun k => w k * v k * v k)).
  assert (PA : 0 <= A) by (apply bigsum_nonneg; intros k Hk; rewrite Rmult_assoc; apply Rmult_le_pos; auto; apply Rle_0_sqr).
  assert (P : 0 <= A * (A * C - B * B)).
  { replace (A * (A * C - B * B)) with (bigsum n (fun k => w k * ((A * v k - B * u k) * (A * v k - B * u k)))).
    - apply bigsum_nonneg. intros k Hk. apply Rmult_le_pos; auto. apply Rle_0_sqr.
    - transitivity (A * A * C - 2 * A * B * B + B * B * A); [|ring]. unfold A at 3. unfold B at 4. unfold C.
      transitivity (bigsum n (fun k => (A * A) * (w k * v k * v k) + (- 2 * A * B) * (w k * u k * v k) + (B * B) * (w k * u k * u k))).
      + apply bigsum_ext. intros. ring.
      + rewrite !bigsum_plus, !bigsum_scal. fold A B C. ring. }
  destruct PA as [PA|PA].
  - assert (0 <= A * C - B * B); [|lra]. apply (Rmult_le_reg_l A); auto. rewrite Rmult_0_r. auto.
  - assert (Z : B = 0); [|rewrite Z, <- PA; lra]. symmetry in PA. unfold A in PA.
    unfold B. apply bigsum_0. intros k Hk.
    assert (Nn : forall k, (k < n)%nat -> 0 <= w k * u k * u k) by (intros j Hj; rewrite Rmult_assoc; apply Rmult_le_pos; [apply H; auto|apply Rle_0_sqr]).
    pose proof (bigsum_zero_inv n _ Nn PA k Hk) as Q. cbn beta in Q.
    apply Rmult_integral in Q. destruct Q as [Q|Q]; rewrite ?Q; ring.
Qed.
Lemma wcorr_range n w x y : good_weights n w -> 0 < wcov n w x x -> 0 < wcov n w y y -> -1 <= wcorr n w x y <= 1.
Proof.
  intros G Hx Hy. unfold wcorr. set (P := wcov n w x x * wcov n w y y).
  assert (HP : 0 < P) by (apply Rmult_lt_0_compat; auto). assert (HS : 0 < sqrt P) by (apply sqrt_lt_R0; auto).
  assert (C : wcov n w x y * wcov n w x y <= sqrt P * sqrt P).
  { rewrite sqrt_sqrt by lra. apply (cauchy_schwarz n w (fun k => x k - wmean n w x) (fun k => y k - wmean n w y) (gw_nonneg _ _ G)). }
  assert (- sqrt P <= wcov n w x y <= sqrt P) by (split; nra).
  split; apply (Rmult_le_reg_r (sqrt P)); auto; unfold Rdiv; rewrite Rmult_assoc, Rinv_l by lra; lra.
Qed.
Lemma wcorr_sym n w x y : wcorr n w x y = wcorr n w y x.
Proof. unfold wcorr. rewrite wcov_sym, Rmult_comm. reflexivity. Qed.
Lemma wcorr_affine n w x y c d : good_weights n w -> 0 < d -> 0 < wcov n w x x -> 0 < wcov n w y y ->
  wcorr n w (fun k => c + d * x k) y = wcorr n w x y.
Proof.
  intros G Hd Hx Hy. destruct G as [_ G]. unfold wcorr. rewrite wcov_affine by lra.
  replace (wcov n w (fun k => c + d * x k) (fun k => c + d * x k)) with (d * d * wcov n w x x).
  2:{ rewrite (wcov_affine n w x (fun k => c + d * x k)), (wcov_sym n w x (fun k => c + d * x k)), (wcov_affine n w x x) by lra. ring. }
  replace (d * d * wcov n w x x * wcov n w y y) with ((d * d) * (wcov n w x x * wcov n w y y)) by ring.
  assert (P : 0 < wcov n w x x * wcov n w y y) by (apply Rmult_lt_0_compat; auto).
  rewrite sqrt_mult by nra. rewrite sqrt_square by lra. field. split; [apply Rgt_not_eq, sqrt_lt_R0; auto|lra].
Qed.
Lemma wcorr_neg n w x y c d : good_weights n w -> d < 0 -> 0 < wcov n w x x -> 0 < wcov n w y y ->
  wcorr n w (fun k => c + d * x k) y = - wcorr n w x y.
Proof.
  intros G Hd Hx Hy. destruct G as [_ G]. unfold wcorr. rewrite wcov_affine by lra.
  replace (wcov n w (fun k => c + d * x k) (fun k => c + d * x k)) with ((- d) * (- d) * wcov n w x x).
  2:{ rewrite (wcov_affine n w x (fun k => c + d * x k)), (wcov_sym n w x (fun k => c + d * x k)), (wcov_affine n w x x) by lra. ring. }
  replace ((- d) * (- d) * wcov n w x x * wcov n w y y) with (((- d) * (- d)) * (wcov n w x x * wcov n w y y)) by ring.
  assert (P : 0 < wcov n w x x * wcov n w y y) by (apply Rmult_lt_0_compat; auto).
  rewrite sqrt_mult by nra. rewrite sqrt_square by lra. field. split; [apply Rgt_not_eq, sqrt_lt_R0; auto|lra].
Qed.
Lemma wcorr_self n w x : 0 < wcov n w x x -> wcorr n w x x = 1.
Proof. intros H. unfold wcorr. rewrite sqrt_square by lra. field. lra. Qed.
Lemma wcorr_weights_scale n w x y c : 0 < c -> good_weights n w -> 0 < wcov n w x x -> 0 < wcov n w y y ->
  wcorr n (fun k => c * w k) x y = wcorr n w x y.
Proof.
  intros Hc [_ G] Hx Hy.
  assert (M : forall u, wmean n (fun k => c * w k) u = wmean n w u).
  { intros u. unfold wmean. rewrite bigsum_scal. rewrite (bigsum_ext n _ (fun k => c * (w k * u k))) by (intros; ring). rewrite bigsum_scal. field. lra. }
  assert (V : forall u v, wcov n (fun k => c * w k) u v = c * wcov n w u v).
  { intros u v. unfold wcov. rewrite !M, <- bigsum_scal. apply bigsum_ext. intros. ring. }
  unfold wcorr. rewrite !V. replace (c * wcov n w x x * (c * wcov n w y y)) with ((c * c) * (wcov n w x x * wcov n w y y)) by ring.
  assert (P : 0 < wcov n w x x * wcov n w y y) by (apply Rmult_lt_0_compat; auto).
  rewrite sqrt_mult by nra. rewrite sqrt_square by lra. field. split; [apply Rgt_not_eq, sqrt_lt_R0; auto|lra].
Qed.
(** the variance vanishes exactly for data constant on the positively weighted points *)
Lemma wcov_zero_iff n w x : good_weights n w -> (wcov n w x x = 0 <-> exists c, forall k, (k < n)%nat -> w k <> 0 -> x k = c).
Proof.
  intros G. split.
  - intros Z. exists (wmean n w x). intros k Hk Hw. unfold wcov in Z.
    assert (Nn : forall k, (k < n)%nat -> 0 <= w k * (x k - wmean n w x) * (x k - wmean n w x)) by (intros j Hj; rewrite Rmult_assoc; apply Rmult_le_pos; [apply (gw_nonneg _ _ G); auto|apply Rle_0_sqr]).
    pose proof (bigsum_zero_inv n _ Nn Z k Hk) as Q. cbn beta in Q.
    apply Rmult_integral in Q. destruct Q as [Q|Q]; [apply Rmult_integral in Q; destruct Q; [contradiction|lra]|lra].
  - intros [c H]. rewrite (wcov_mask n w x (fun _ => c) x (fun _ => c)) by (intros; split; apply H; auto).
    unfold wcov. apply bigsum_0. intros k Hk.
    assert (M : wmean n w (fun _ => c) = c) by (unfold wmean; rewrite bigsum_scal_r; destruct G; field; lra).
    rewrite M. ring.
Qed.

(** ** column view of the kernel *)
Section Cols.
  Context {T : Type} {N : Num T}.
  Definition cols (a : arr T) (n : nat) (r : list nat) (A : nat -> list nat -> T) : Prop :=
    shp a = n :: r /\ forall k i, (k < n)%nat -> inb r i -> get a (k :: i) = A k i.
  Definition row (m : arr T) (r : list nat) (M : list nat -> T) : Prop :=
    shp m = r /\ forall i, inb r i -> get m i = M i.
  Lemma cols_map2 f a b n r A B : cols a n r A -> cols b n r B -> exists c, np_map2 f a b = Ok c /\ cols c n r (fun k i => f (A k i) (B k i)).
  Proof.
    intros [Sa Ga] [Sb Gb]. destruct (np_map2_same f a b) as (c & E & Sc & Gc); [congruence|]. exists c. split; auto. split; [congruence|].
    intros k i Hk Hi. rewrite Gc by (rewrite Sa; apply inb_cons; auto). rewrite Ga, Gb by auto. reflexivity.
  Qed.
  Lemma row_map2 f a b r A B : row a r A -> row b r B -> exists c, np_map2 f a b = Ok c /\ row c r (fun i => f (A i) (B i)).
  Proof.
    intros [Sa Ga] [Sb Gb]. destruct (np_map2_same f a b) as (c & E & Sc & Gc); [congruence|]. exists c. split; auto. split; [congruence|].
    intros i Hi. rewrite Gc by (rewrite Sa; auto). rewrite Ga, Gb by auto. reflexivity.
  Qed.
  Lemma bshape_rev_snoc r n : bshape_rev (r ++ [n]) r = Some (r ++ [n]).
  Proof. induction r as [|x r IH]; cbn; auto. rewrite IH. unfold bdim. rewrite Nat.eqb_refl. reflexivity. Qed.
  Lemma bshape_drop n r : bshape (n :: r) r = Some (n :: r).
  Proof. unfold bshape. cbn [rev]. rewrite bshape_rev_snoc. cbn [option_map]. rewrite rev_app_distr, rev_involutive. reflexivity. Qed.
  Lemma bidx_drop r k i : inb r i -> bidx r (k :: i) = i.
  Proof.
    intros H. pose proof (bidx_refl r i H) as E. unfold bidx in *. cbn [List.length]. rewrite (inb_length _ _ H) in *.
    rewrite Nat.sub_diag in E. replace (S (List.length r) - List.length r)%nat with 1%nat by lia. exact E.
  Qed.
  Lemma colrow_map2 f a b n r A B : cols a n r A -> row b r B -> exists c, np_map2 f a b = Ok c /\ cols c n r (fun k i => f (A k i) (B i)).
  Proof.
    intros [Sa Ga] [Sb Gb]. unfold np_map2. rewrite Sa, Sb, bshape_drop. eexists. split; [reflexivity|]. split; [reflexivity|]. cbn [get].
    intros k i Hk Hi. rewrite bidx_refl by (apply inb_cons; auto). rewrite bidx_drop by auto. rewrite Ga, Gb by auto. reflexivity.
  Qed.
  Lemma cols_red f a n r A : cols a n r A -> row (red0 f a) r (fun i => f (map (fun k => A k i) (seq 0 n))).
  Proof.
    intros [Sa Ga]. split; [unfold red0; rewrite Sa; reflexivity|]. intros i Hi. unfold red0. cbn [get]. rewrite Sa. cbn [hd]. f_equal.
    apply map_ext_in. intros k Hk. apply in_seq in Hk. apply Ga; auto. lia.
  Qed.
  Lemma row_amap f a r A : row a r A -> row (amap f a) r (fun i => f (A i)).
  Proof. intros [Sa Ga]. split; auto. intros i Hi. cbn [amap get]. rewrite Ga by auto. reflexivity. Qed.

  (** the kernel on one column *)
  Definition kw (sumf : list T -> T) (n : nat) (A B W : nat -> T) : T :=
    let S f := sumf (map f (seq 0 n)) in
    let ma := ndiv (S (fun k => nmul (A k) (W k))) (S W) in
    let mb := ndiv (S (fun k => nmul (B k) (W k))) (S W) in
    let da k := nsub (A k) ma in let db k := nsub (B k) mb in
    nclip (ofZ (-1)) (ofZ 1) (ndiv (S (fun k => nmul (nmul (W k) (da k)) (db k)))
      (nsqrt (nmul (S (fun k => nmul (nmul (W k) (da k)) (da k))) (S (fun k => nmul (nmul (W k) (db k)) (db k)))))).
  Definition kn (sumf meanf : list T -> T) (n : nat) (A B : nat -> T) : T :=
    let S f := sumf (map f (seq 0 n)) in
    let ma := meanf (map A (seq 0 n)) in let mb := meanf (map B (seq 0 n)) in
    let da k := nsub (A k) ma in let db k := nsub (B k) mb in
    nclip (ofZ (-1)) (ofZ 1) (ndiv (S (fun k => nmul (da k) (db k)))
      (nsqrt (nmul (S (fun k => nmul (da k) (da k))) (S (fun k => nmul (db k) (db k)))))).

  Lemma tail_cols sumf meanf (a b : arr T) (w : option (arr T)) n r A B W :
    cols a n r A -> cols b n r B ->
    (forall v, w = Some v -> cols v n r W) ->
    exists out, (do rn <- match w with
      | Some w =>
          do aw <- np_map2 nmul a w ;;
          do ma <- np_map2 ndiv (red0 sumf aw) (red0 sumf w) ;;
          do bw <- np_map2 nmul b w ;;
          do mb <- np_map2 ndiv (red0 sumf bw) (red0 sumf w) ;;
          do am <- np_map2 nsub a ma ;;
          do bm <- np_map2 nsub b mb ;;
          do wa <- np_map2 nmul w am ;;
          do wb <- np_map2 nmul w bm ;;
          do p <- np_map2 nmul wa bm ;;
          do qa <- np_map2 nmul wa am ;;
          do qb <- np_map2 nmul wb bm ;;
          Ok (red0 sumf p, red0 sumf qa, red0 sumf qb)
      | None =>
          do am <- np_map2 nsub a (red0 meanf a) ;;
          do bm <- np_map2 nsub b (red0 meanf b) ;;
          do p <- np_map2 nmul am bm ;;
          do qa <- np_map2 nmul am am ;;
          do qb <- np_map2 nmul bm bm ;;
          Ok (red0 sumf p, red0 sumf qa, red0 sumf qb)
      end ;;
    let '(num, da, db) := rn in
    do q <- np_map2 nmul da db ;;
    do r <- np_map2 ndiv num (amap nsqrt q) ;;
    Ok (amap (nclip (ofZ (-1)) (ofZ 1)) r)) = Ok out /\
    match w with
    | None => row out r (fun i => kn sumf meanf n (fun k => A k i) (fun k => B k i))
    | Some _ => row out r (fun i => kw sumf n (fun k => A k i) (fun k => B k i) (fun k => W k i))
    end.
  Proof.
    intros Ca Cb Hw. destruct w as [v|].
    - pose proof (Hw v eq_refl) as Cw.
      destruct (cols_map2 nmul _ _ _ _ _ _ Ca Cw) as (aw & Eaw & Caw). rewrite Eaw. cbn [bind].
      destruct (row_map2 ndiv _ _ _ _ _ (cols_red sumf _ _ _ _ Caw) (cols_red sumf _ _ _ _ Cw)) as (ma & Ema & Rma). rewrite Ema. cbn [bind].
      destruct (cols_map2 nmul _ _ _ _ _ _ Cb Cw) as (bw & Ebw & Cbw). rewrite Ebw. cbn [bind].
      destruct (row_map2 ndiv _ _ _ _ _ (cols_red sumf _ _ _ _ Cbw) (cols_red sumf _ _ _ _ Cw)) as (mb & Emb & Rmb). rewrite Emb. cbn [bind].
      destruct (colrow_map2 nsub _ _ _ _ _ _ Ca Rma) as (am & Eam & Cam). rewrite Eam. cbn [bind].
      destruct (colrow_map2 nsub _ _ _ _ _ _ Cb Rmb) as (bm & Ebm & Cbm). rewrite Ebm. cbn [bind].
      destruct (cols_map2 nmul _ _ _ _ _ _ Cw Cam) as (wa & Ewa & Cwa). rewrite Ewa. cbn [bind].
      destruct (cols_map2 nmul _ _ _ _ _ _ Cw Cbm) as (wb & Ewb & Cwb). rewrite Ewb. cbn [bind].
      destruct (cols_map2 nmul _ _ _ _ _ _ Cwa Cbm) as (p & Ep & Cp). rewrite Ep. cbn [bind].
      destruct (cols_map2 nmul _ _ _ _ _ _ Cwa Cam) as (qa & Eqa & Cqa). rewrite Eqa. cbn [bind].
      destruct (cols_map2 nmul _ _ _ _ _ _ Cwb Cbm) as (qb & Eqb & Cqb). rewrite Eqb. cbn [bind].
      destruct (row_map2 nmul _ _ _ _ _ (cols_red sumf _ _ _ _ Cqa) (cols_red sumf _ _ _ _ Cqb)) as (q & Eq & Rq). rewrite Eq. cbn [bind].
      destruct (row_map2 ndiv _ _ _ _ _ (cols_red sumf _ _ _ _ Cp) (row_amap nsqrt _ _ _ Rq)) as (z & Ez & Rz). rewrite Ez. cbn [bind].
      eexists. split; [reflexivity|]. exact (row_amap (nclip (ofZ (-1)) (ofZ 1)) _ _ _ Rz).
    - destruct (colrow_map2 nsub _ _ _ _ _ _ Ca (cols_red meanf _ _ _ _ Ca)) as (am & Eam & Cam). rewrite Eam. cbn [bind].
      destruct (colrow_map2 nsub _ _ _ _ _ _ Cb (cols_red meanf _ _ _ _ Cb)) as (bm & Ebm & Cbm). rewrite Ebm. cbn [bind].
      destruct (cols_map2 nmul _ _ _ _ _ _ Cam Cbm) as (p & Ep & Cp). rewrite Ep. cbn [bind].
      destruct (cols_map2 nmul _ _ _ _ _ _ Cam Cam) as (qa & Eqa & Cqa). rewrite Eqa. cbn [bind].
      destruct (cols_map2 nmul _ _ _ _ _ _ Cbm Cbm) as (qb & Eqb & Cqb). rewrite Eqb. cbn [bind].
      destruct (row_map2 nmul _ _ _ _ _ (cols_red sumf _ _ _ _ Cqa) (cols_red sumf _ _ _ _ Cqb)) as (q & Eq & Rq). rewrite Eq. cbn [bind].
      destruct (row_map2 ndiv _ _ _ _ _ (cols_red sumf _ _ _ _ Cp) (row_amap nsqrt _ _ _ Rq)) as (z & Ez & Rz). rewrite Ez. cbn [bind].
      eexists. split; [reflexivity|]. exact (row_amap (nclip (ofZ (-1)) (ofZ 1)) _ _ _ Rz).
  Qed.
End Cols.
