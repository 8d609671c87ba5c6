(** C136: infinite values in spherical decomposition.  [Y] is scipy's sph_harm_y, described by [sph_oracle]; [old] says
    whether scipy is older than 1.15. *)
From Coq Require Import Reals List Bool Arith Lia Lra String.
From Verif Require Import PyBase Num Arr XrFacts CellFacts Hybrid Spherical SpecSum SpecGrad SpecSph SphExample SphInf.
Import ListNotations.
Local Open Scope R_scope.
Local Open Scope string_scope.

(** C136.  Plain arrays: one infinite (or NaN) value makes every coefficient NaN. *)
Theorem C136_infinite_value_plain :
  forall (Y : nat -> nat -> fl -> fl -> fl * fl) (Yr Yi : nat -> nat -> R -> R -> R) (y0 : R), sph_oracle Y Yr Yi y0 ->
  forall old d x th ph L a b ww t p i j,
  same_grid a b (VNd d) (VNd x) th ph -> field (VNd x) a b ww -> field th a b t -> field ph a b p -> gridsum a b ww <> 0 ->
  (i < a)%nat -> (j < b)%nat -> not_finite (cell (VNd d) i j) ->
  exists z, decomposition Y old (VNd d) (VNd x) th ph L = Ok z /\ zlen z = [count L] /\
    forall k, (k < count L)%nat -> zcell z k = (NaN, NaN).
Proof. exact c136_plain. Qed.
Print Assumptions C136_infinite_value_plain.

(** C136 is false for labelled arrays: in the harmonics with m = 0 (the mean among them) infinite values are silently
    left out, like missing ones, and count as zeros. *)
Theorem C136_infinite_value_refuted :
  forall (Y : nat -> nat -> fl -> fl -> fl * fl) (Yr Yi : nat -> nat -> R -> R -> R) (y0 : R), sph_oracle Y Yr Yi y0 ->
  forall old data w th ph L a b f ww t p (valid : nat -> nat -> bool) d, data = VDa d ->
  same_grid a b data w th ph ->
  (forall i j, (i < a)%nat -> (j < b)%nat -> if valid i j then cell data i j = Fin (f i j) else not_finite (cell data i j)) ->
  field w a b ww -> field th a b t -> field ph a b p -> gridsum a b ww <> 0 ->
  exists z, decomposition Y old data w th ph L = Ok z /\ zlen z = [count L] /\
    forall n, (n <= L)%nat ->
      exists im, zcell z (pos n 0) = (Fin (coefficient a b ww (fun i j => if valid i j then f i j else 0) (fun i j => Yr n 0%nat (p i j) (t i j)) y0 0), Fin im).
Proof. exact c136_zonal. Qed.
Print Assumptions C136_infinite_value_refuted.

(** C136.  Labelled arrays, every harmonic: infinite values are left out where one part of the harmonic vanishes, and
    make the coefficient NaN where neither does. *)
Theorem C136_infinite_value_labelled :
  forall (Y : nat -> nat -> fl -> fl -> fl * fl) (Yr Yi : nat -> nat -> R -> R -> R) (y0 : R), sph_oracle Y Yr Yi y0 ->
  forall old data w th ph L a b f ww t p (valid : nat -> nat -> bool) d, data = VDa d ->
  same_grid a b data w th ph ->
  (forall i j, (i < a)%nat -> (j < b)%nat -> if valid i j then cell data i j = Fin (f i j) else not_finite (cell data i j)) ->
  field w a b ww -> field th a b t -> field ph a b p -> gridsum a b ww <> 0 ->
  exists z, decomposition Y old data w th ph L = Ok z /\ zlen z = [count L] /\
    forall n m, (m <= n <= L)%nat ->
      ((forall i j, (i < a)%nat -> (j < b)%nat -> valid i j = false ->
          cell data i j = NaN \/ ww i j = 0 \/ Yr n m (p i j) (t i j) = 0 \/ Yi n m (p i j) (t i j) = 0) ->
       zcell z (pos n m) = (Fin (coefficient a b ww (fun i j => if valid i j then f i j else 0) (fun i j => Yr n m (p i j) (t i j)) y0 m),
                            Fin (coefficient a b ww (fun i j => if valid i j then f i j else 0) (fun i j => Yi n m (p i j) (t i j)) y0 m))) /\
      ((exists i j, (i < a)%nat /\ (j < b)%nat /\ (cell data i j = PInf \/ cell data i j = NInf) /\ ww i j <> 0 /\
          Yr n m (p i j) (t i j) <> 0 /\ Yi n m (p i j) (t i j) <> 0) ->
       zcell z (pos n m) = (NaN, NaN)).
Proof. exact c136_labelled. Qed.
Print Assumptions C136_infinite_value_labelled.

(** the field 8 with one infinite value, all angles 45 degrees: the mean comes out as 5/6 of 8, harmonic (1, 1) as NaN;
    the same values in a plain array give NaN throughout *)
Definition inf_cells : arr fl := mkArr [2; 3]%nat (fun i => match i with [0%nat; 0%nat] => PInf | _ => Fin 8 end).
Definition inf_da : da fl := mkDa ["lat"; "lon"] inf_cells [] [] None.
Definition inf_angle : nat -> nat -> R := fun _ _ => PI / 4.
Example C136_example :
  (exists z, decomposition o_Y false (VDa inf_da) (o_grid o_w) (o_grid inf_angle) (o_grid inf_angle) 1 = Ok z /\
     (exists im, zcell z 0%nat = (Fin (5 * 8 / 6 / o_y0), Fin im)) /\ zcell z 2%nat = (NaN, NaN)) /\
  (exists z, decomposition o_Y false (VNd inf_cells) (o_grid o_w) (o_grid inf_angle) (o_grid inf_angle) 1 = Ok z /\ zcell z 0%nat = (NaN, NaN)).
Proof.
  pose proof o_y0_pos as P.
  assert (HS : gridsum 2 3 o_w <> 0) by (rewrite o_total; lra).
  assert (Sg : same_grid 2 3 (VDa inf_da) (o_grid o_w) (o_grid inf_angle) (o_grid inf_angle)).
  { eapply sg_xr; try reflexivity. split; [reflexivity|]. cbn. apply NoDup_cons; [cbn; intuition discriminate|]. apply NoDup_cons; [intros []|apply NoDup_nil]. }
  assert (Hf : forall i j, (i < 2)%nat -> (j < 3)%nat ->
     if negb (Nat.eqb i 0 && Nat.eqb j 0) then cell (VDa inf_da) i j = Fin 8 else not_finite (cell (VDa inf_da) i j)).
  { intros [|i] [|j] Hi Hj; cbn; try reflexivity. intros r. discriminate. }
  split.
  - destruct (C136_infinite_value_labelled o_Y o_Yr o_Yi o_y0 o_oracle false (VDa inf_da) (o_grid o_w) (o_grid inf_angle) (o_grid inf_angle) 1 2 3
      (fun _ _ => 8) o_w inf_angle inf_angle (fun i j => negb (Nat.eqb i 0 && Nat.eqb j 0)) inf_da eq_refl Sg Hf
      (o_field o_w) (o_field inf_angle) (o_field inf_angle) HS) as (z & Ez & _ & Gz).
    exists z. split; [exact Ez|]. split.
    + destruct (Gz 0%nat 0%nat ltac:(lia)) as [G _]. change (pos 0 0) with 0%nat in G. eexists. rewrite G.
      * apply f_equal2; [|reflexivity]. f_equal. assert (E : forall x y, o_Yr 0 0 x y = o_y0) by (intros; reflexivity).
        unfold coefficient, gridsum, o_w. cbn [bigsum mult Nat.eqb andb negb]. rewrite !E. field. lra.
      * intros i j _ _ _. right. right. right. reflexivity.
    + destruct (Gz 1%nat 1%nat ltac:(lia)) as [_ G]. change (pos 1 1) with 2%nat in G. apply G.
      assert (A : 0 < cos (PI / 4)) by (rewrite cos_PI4; apply Rdiv_lt_0_compat; [lra|apply sqrt_lt_R0; lra]).
      assert (B : 0 < sin (PI / 4)) by (rewrite sin_PI4; apply Rdiv_lt_0_compat; [lra|apply sqrt_lt_R0; lra]).
      assert (C : 0 < sqrt (3 / 2)) by (apply sqrt_lt_R0; lra).
      exists 0%nat, 0%nat. split; [lia|]. split; [lia|]. split; [left; reflexivity|]. split; [unfold o_w; lra|].
      unfold inf_angle, o_Yr, o_Yi. split; apply Rlt_not_eq; apply Ropp_lt_gt_0_contravar;
        apply Rmult_lt_0_compat; try apply Rmult_lt_0_compat; auto.
  - destruct (C136_infinite_value_plain o_Y o_Yr o_Yi o_y0 o_oracle false inf_cells (mkArr [2; 3]%nat (fun i => Fin (o_w (nth 0 i 0%nat) (nth 1 i 0%nat))))
      (o_grid inf_angle) (o_grid inf_angle) 1 2 3 o_w inf_angle inf_angle 0 0) as (z & Ez & _ & Gz).
    + eapply sg_np; try reflexivity; discriminate.
    + exact (o_field o_w).
    + exact (o_field inf_angle).
    + exact (o_field inf_angle).
    + exact HS.
    + lia.
    + lia.
    + intros r. discriminate.
    + exists z. split; [exact Ez|]. apply Gz. vm_compute. lia.
Qed.
