(** Lemmas and tactics about the numeric instance [fl]. *)
From Coq Require Import Reals ZArith List Bool Lra Lia.
From Verif Require Import Num.
Import ListNotations.
Local Open Scope R_scope.

Lemma rltb_spec a b : reflect (a < b) (rltb a b).
Proof. unfold rltb. destruct (Rlt_dec a b); constructor; auto. Qed.
Lemma rleb_spec a b : reflect (a <= b) (rleb a b).
Proof. unfold rleb. destruct (Rle_dec a b); constructor; auto. Qed.
Lemma reqb_spec a b : reflect (a = b) (reqb a b).
Proof. unfold reqb. destruct (Req_EM_T a b); constructor; auto. Qed.

Lemma rltb_true a b : a < b -> rltb a b = true.
Proof. destruct (rltb_spec a b); auto; lra. Qed.
Lemma rltb_false a b : b <= a -> rltb a b = false.
Proof. destruct (rltb_spec a b); auto; lra. Qed.
Lemma rleb_true a b : a <= b -> rleb a b = true.
Proof. destruct (rleb_spec a b); auto; lra. Qed.
Lemma rleb_false a b : b < a -> rleb a b = false.
Proof. destruct (rleb_spec a b); auto; lra. Qed.
Lemma reqb_true a b : a = b -> reqb a b = true.
Proof. destruct (reqb_spec a b); auto; tauto. Qed.
Lemma reqb_false a b : a <> b -> reqb a b = false.
Proof. destruct (reqb_spec a b); auto; tauto. Qed.
Lemma rltb_iff a b : rltb a b = true <-> a < b.
Proof. destruct (rltb_spec a b); split; auto; discriminate. Qed.
Lemma rleb_iff a b : rleb a b = true <-> a <= b.
Proof. destruct (rleb_spec a b); split; auto; discriminate. Qed.

(** unfold the class operations on [fl] down to the [fl_*] functions and compute them on [Fin] *)
Ltac flsimpl :=
  unfold ngt, nge, nneqb, sqr, cube, nwhere in *;
  cbn [ofZ dec nadd nsub nmul ndiv nneg nabs nlt nle neqb nnan isnan nexp nln nsin ncos ntan nacos
       nsqrt npi nfloor nceil ntrunc NumFl
       fl_add fl_sub fl_mul fl_neg fl_abs fl_lt fl_le fl_eq fl_isnan fl_exp fl_fin1 fl_toZ] in *.

Lemma fdiv_fin a b : b <> 0 -> fl_div (Fin a) (Fin b) = Fin (a / b).
Proof. intros H. cbn. destruct (Req_EM_T b 0); [contradiction|reflexivity]. Qed.
Lemma fln_fin a : 0 < a -> fl_ln (Fin a) = Fin (ln a).
Proof. intros H. cbn. destruct (Rlt_dec 0 a); [reflexivity|lra]. Qed.
Lemma fsqrt_fin a : 0 <= a -> fl_sqrt (Fin a) = Fin (sqrt a).
Proof. intros H. cbn. destruct (Rle_dec 0 a); [reflexivity|lra]. Qed.
Lemma facos_fin a : -1 <= a <= 1 -> fl_acos (Fin a) = Fin (acos a).
Proof. intros H. cbn. destruct (Rle_dec (-1) a); [destruct (Rle_dec a 1)|]; try reflexivity; lra. Qed.
Lemma ftan_fin a : cos a <> 0 -> fl_tan (Fin a) = Fin (tan a).
Proof. intros H. cbn. destruct (Req_EM_T (cos a) 0); [contradiction|reflexivity]. Qed.

Lemma fl_div_eq x y : ndiv x y = fl_div x y. Proof. reflexivity. Qed.

Fixpoint rsum (l : list R) : R := match l with [] => 0 | x :: t => x + rsum t end.

Lemma rsum_app l1 l2 : rsum (l1 ++ l2) = rsum l1 + rsum l2.
Proof. induction l1; simpl; lra. Qed.

Lemma fold_left_fin l a : fold_left fl_add (map Fin l) (Fin a) = Fin (a + rsum l).
Proof.
  revert a; induction l as [|x l IH]; intros a; simpl.
  - f_equal; lra.
  - rewrite IH. f_equal; lra.
Qed.

Lemma nsum_fin l : nsum (map Fin l) = Fin (rsum l).
Proof. unfold nsum. flsimpl. rewrite fold_left_fin. f_equal; lra. Qed.

Lemma nmin_fin a b : nmin (Fin a) (Fin b) = Fin (Rmin a b).
Proof.
  unfold nmin. flsimpl. unfold rleb, Rmin. destruct (Rle_dec a b); reflexivity.
Qed.
Lemma nmax_fin a b : nmax (Fin a) (Fin b) = Fin (Rmax a b).
Proof.
  unfold nmax. flsimpl. unfold rleb, Rmax.
  destruct (Rle_dec b a), (Rle_dec a b); try reflexivity; f_equal; lra.
Qed.

Fixpoint rminl (x : R) (l : list R) : R := match l with [] => x | y :: t => rminl (Rmin x y) t end.
Fixpoint rmaxl (x : R) (l : list R) : R := match l with [] => x | y :: t => rmaxl (Rmax x y) t end.
Lemma nminl_fin l x : nminl (Fin x) (map Fin l) = Fin (rminl x l).
Proof.
  unfold nminl. revert x; induction l as [|y l IH]; intros x; cbn [map fold_left rminl]; auto.
  rewrite nmin_fin. apply IH.
Qed.
Lemma nmaxl_fin l x : nmaxl (Fin x) (map Fin l) = Fin (rmaxl x l).
Proof.
  unfold nmaxl. revert x; induction l as [|y l IH]; intros x; cbn [map fold_left rmaxl]; auto.
  rewrite nmax_fin. apply IH.
Qed.
Lemma rminl_le l x : rminl x l <= x /\ (forall y, In y l -> rminl x l <= y).
Proof.
  revert x; induction l as [|z l IH]; intros x; simpl.
  - split; [lra|tauto].
  - destruct (IH (Rmin x z)) as [H1 H2]. pose proof (Rmin_l x z). pose proof (Rmin_r x z).
    split; [lra|]. intros y [->|Hy]; [lra|auto].
Qed.
Lemma rminl_in l x : rminl x l = x \/ In (rminl x l) l.
Proof.
  revert x; induction l as [|z l IH]; intros x; simpl; auto.
  destruct (IH (Rmin x z)) as [H|H].
  - rewrite H. unfold Rmin. destruct (Rle_dec x z); auto.
  - auto.
Qed.
Lemma rmaxl_ge l x : x <= rmaxl x l /\ (forall y, In y l -> y <= rmaxl x l).
Proof.
  revert x; induction l as [|z l IH]; intros x; simpl.
  - split; [lra|tauto].
  - destruct (IH (Rmax x z)) as [H1 H2]. pose proof (Rmax_l x z). pose proof (Rmax_r x z).
    split; [lra|]. intros y [->|Hy]; [lra|auto].
Qed.
Lemma rmaxl_in l x : rmaxl x l = x \/ In (rmaxl x l) l.
Proof.
  revert x; induction l as [|z l IH]; intros x; simpl; auto.
  destruct (IH (Rmax x z)) as [H|H].
  - rewrite H. unfold Rmax. destruct (Rle_dec x z); auto.
  - auto.
Qed.
