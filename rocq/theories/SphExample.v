(** A concrete grid on which the hypotheses of the round-trip theorem hold: the six vertices of an octahedron
    as a 2-by-3 grid with equal weights, and the true harmonics of degree 0 and 1. *)
From Coq Require Import Reals List Bool Arith ZArith Lia Lra String.
From Verif Require Import PyBase Num Arr NumFacts Hybrid SpecSum SpecGrad SpecSph Spherical.
Import ListNotations.
Local Open Scope R_scope.

Definition o_y0 : R := sqrt (1 / (4 * PI)).
Definition o_Yr (n m : nat) (p t : R) : R :=
  match n, m with
  | 0%nat, 0%nat => o_y0
  | 1%nat, 0%nat => sqrt 3 * o_y0 * cos p
  | 1%nat, 1%nat => - (sqrt (3 / 2) * o_y0 * (sin p * cos t))
  | _, _ => 0
  end.
Definition o_Yi (n m : nat) (p t : R) : R :=
  match n, m with
  | 1%nat, 1%nat => - (sqrt (3 / 2) * o_y0 * (sin p * sin t))
  | _, _ => 0
  end.
Definition o_Y (n m : nat) (p t : fl) : fl * fl :=
  match p, t with Fin p, Fin t => (Fin (o_Yr n m p t), Fin (o_Yi n m p t)) | _, _ => (NaN, NaN) end.
Definition o_phi (i j : nat) : R := match i, j with 0%nat, 0%nat => 0 | 0%nat, 1%nat => PI | _, _ => PI / 2 end.
Definition o_theta (i j : nat) : R :=
  match i, j with 1%nat, 0%nat => PI / 2 | 1%nat, 1%nat => PI | 1%nat, 2%nat => 3 * (PI / 2) | _, _ => 0 end.
Definition o_w (i j : nat) : R := 1.

Lemma o_y0_pos : 0 < o_y0.
Proof. apply sqrt_lt_R0. assert (0 < PI) by apply PI_RGT_0. apply Rdiv_lt_0_compat; lra. Qed.
Lemma o_oracle : sph_oracle o_Y o_Yr o_Yi o_y0.
Proof.
  constructor; try reflexivity.
  - assert (H := o_y0_pos). lra.
  - intros [|[|n]] p t; reflexivity.
Qed.
Lemma o_total : gridsum 2 3 o_w = 6.
Proof. unfold gridsum, o_w. cbn [bigsum]. lra. Qed.
Lemma o_cos3 : cos (3 * (PI / 2)) = 0. Proof. exact cos_3PI2. Qed.
Lemma o_sin3 : sin (3 * (PI / 2)) = -1. Proof. exact sin_3PI2. Qed.

Lemma o_exact : exact_quadrature 1 2 3 o_w o_y0 (fun n m i j => o_Yr n m (o_phi i j) (o_theta i j)) (fun n m i j => o_Yi n m (o_phi i j) (o_theta i j)).
Proof.
  assert (E3 : sqrt 3 * sqrt 3 = 3) by (apply sqrt_sqrt; lra).
  assert (E32 : sqrt (3 / 2) * sqrt (3 / 2) = 3 / 2) by (apply sqrt_sqrt; lra).
  constructor; intros n m n' m' H H'; rewrite ?o_total.
  all: destruct n as [|[|n]]; [| |lia]; destruct m as [|[|m]]; try lia; destruct n' as [|[|n']]; try lia; destruct m' as [|[|m']]; try lia.
  all: unfold gridsum, o_w; cbn [bigsum o_phi o_theta o_Yr o_Yi same Nat.eqb andb negb mult].
  all: rewrite ?o_cos3, ?o_sin3, ?cos_0, ?sin_0, ?cos_PI, ?sin_PI, ?cos_PI2, ?sin_PI2.
  all: try (field_simplify; try lra; ring).
  all: try ring; try field.
  - transitivity (2 * (sqrt 3 * sqrt 3) * (o_y0 * o_y0)); [ring|]. rewrite E3. field.
  - transitivity (2 * (sqrt (3 / 2) * sqrt (3 / 2)) * (o_y0 * o_y0)); [ring|]. rewrite E32. field.
  - transitivity (2 * (sqrt (3 / 2) * sqrt (3 / 2)) * (o_y0 * o_y0)); [ring|]. rewrite E32. field.
Qed.

Definition o_grid (f : nat -> nat -> R) : val fl := VNd (mkArr [2; 3]%nat (fun i => Fin (f (nth 0 i 0%nat) (nth 1 i 0%nat)))).
Lemma o_field f : field (o_grid f) 2 3 f.
Proof. intros i j _ _. reflexivity. Qed.
Lemma o_same_grid f : same_grid 2 3 (o_grid f) (o_grid o_w) (o_grid o_theta) (o_grid o_phi).
Proof. eapply sg_np; try reflexivity; discriminate. Qed.
