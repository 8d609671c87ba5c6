(** C143: gradient of data whose shape is not that of the grid.  [grid_of lon lat n m LO LA]: the coordinates describe a grid of
    n rows and m columns; [finite_grid] the same with finite values. *)
From Coq Require Import Reals List Bool Arith ZArith Lra Lia String.
From Verif Require Import PyBase Num NumFacts Arr ArrFacts Hybrid Gradient SpecGrad GradSeries GradFacts GradApi GradRank1.
Import ListNotations.
Local Open Scope R_scope.

(** C143.  Intended: data that do not fit the grid are rejected.  True of a single number, and of data of rank two. *)
Theorem C143_rank0 :
  forall (T : Type) (N : Num T) (data : val T) lon lat n m LO LA, data <> VOther -> (2 <= n)%nat -> (2 <= m)%nat ->
  grid_of lon lat n m LO LA -> vshape data = [] -> gradient data (Some lon) (Some lat) = Err IndexError.
Proof. exact @grad_scalar_data. Qed.
Print Assumptions C143_rank0.

Theorem C143_rank2 :
  forall (T : Type) (N : Num T) (data : val T) lon lat n m p q LO LA, data <> VOther -> (2 <= n)%nat -> (2 <= m)%nat ->
  grid_of lon lat n m LO LA -> vshape data = [p; q] -> [p; q] <> [n; m] -> gradient data (Some lon) (Some lat) = Err ValueError.
Proof. exact @grad_other_shape. Qed.
Print Assumptions C143_rank2.

(** C143.  Refuted for a single row of three or more values, of any length, plain or labelled: the call returns two full grids, the
    northward component made from the first two values of the row, the eastward one from the first and the third; the other
    values are not looked at. *)
Theorem C143_row_refuted :
  forall data lon lat n m k LO LA D, (2 <= n)%nat -> (2 <= m)%nat -> (3 <= k)%nat ->
  finite_grid lon lat n m (fun _ j => LO j) (fun i _ => LA i) ->
  (forall i, (i < n)%nat -> -90 <= LA i <= 90) -> strictly_monotone n LA -> strictly_monotone m LO ->
  vshape data = [k] -> (forall q, (q < k)%nat -> get (values_of data) [q] = Fin (D q)) ->
  exists r0 r1, gradient data (Some lon) (Some lat) = Ok [r0; r1] /\ vshape r0 = [n; m] /\ vshape r1 = [n; m] /\
    forall i j, (i < n)%nat -> (j < m)%nat ->
      cell r0 i j = Fin ((D 1%nat - D 0%nat) / slope n (fun q => arc_series (LA q)) i) /\
      cell r1 i j = Fin ((D 2%nat - D 0%nat) / 2 / slope m (fun q => lon_arc (LO q) (LA i)) j).
Proof. exact grad_row_fin. Qed.
Print Assumptions C143_row_refuted.

(** five values on a grid of two latitudes and three longitudes *)
Example C143_example :
  let lat := vec NaN [Fin 10; Fin 20] in let lon := vec NaN [Fin 0; Fin 5; Fin 10] in
  let data := VNd (vec NaN [Fin 7; Fin 8; Fin 9; Fin 100; Fin (-3)]) in
  let LA := fun i : nat => match i with O => 10 | _ => 20 end in
  let LO := fun j => 5 * INR j in
  finite_grid lon lat 2 3 (fun _ j => LO j) (fun i _ => LA i) /\ (forall i, (i < 2)%nat -> -90 <= LA i <= 90) /\
  strictly_monotone 2 LA /\ strictly_monotone 3 LO /\ vshape data = [5%nat] /\
  (forall q, (q < 5)%nat -> get (values_of data) [q] = Fin (nth q [7; 8; 9; 100; -3] 0)).
Proof.
  cbn zeta. split.
  { apply grid_1d; [reflexivity|reflexivity|]. intros i j Hi Hj.
    destruct i as [|[|i]]; [| |lia]; destruct j as [|[|[|j]]]; try lia; cbn; split; auto; f_equal; lra. }
  split; [intros [|[|i]] H; try lia; lra|].
  split; [left; intros i j A B; destruct i as [|[|i]], j as [|[|j]]; try lia; lra|].
  split; [left; intros i j A B; apply lt_INR in A; lra|].
  split; [reflexivity|]. intros q Hq. do 5 (destruct q as [|q]; [reflexivity|]). lia.
Qed.
