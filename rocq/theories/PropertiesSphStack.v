(** C134: several fields, or several sets of coefficients, in one plain array.  [Y] is scipy's sph_harm_y,
    described by [sph_oracle]; [old] says whether scipy is older than 1.15. *)
From Coq Require Import Reals List Arith Lia Lra String.
From Verif Require Import PyBase Num Arr Hybrid Spherical SpecSum SpecGrad SpecSph SphExample SphStack.
Import ListNotations.
Local Open Scope R_scope.

(** C134.  A stack of K fields of shape (K, lat, lon) is rejected unless K is 1 or the number of harmonics, or only
    one harmonic is asked for. *)
Theorem C134_stack_rejected :
  forall (Y : nat -> nat -> fl -> fl -> fl * fl) old (d w : arr fl) th ph L K a b,
  shp d = [K; a; b] -> shp w = [a; b] -> vshape th = [a; b] -> vshape ph = [a; b] -> th <> VOther -> ph <> VOther ->
  K <> count L -> K <> 1%nat -> count L <> 1%nat -> decomposition Y old (VNd d) (VNd w) th ph L = Err ValueError.
Proof. exact (stack_rejected (T := fl)). Qed.
Print Assumptions C134_stack_rejected.

(** C134.  A labelled stack of fields with one latitude-longitude grid of weights and angles is rejected (for scipy
    older than 1.15, provided the three sizes are not all equal). *)
Theorem C134_labelled_stack_rejected :
  forall (Y : nat -> nat -> fl -> fl -> fl * fl) old (d : da fl) (w : arr fl) th ph L K a b,
  List.length (dims d) = 3%nat -> shp (dat d) = [K; a; b] -> shp w = [a; b] ->
  vshape th = [a; b] -> vshape ph = [a; b] -> th <> VOther -> ph <> VOther -> (old = true -> K <> a \/ a <> b) ->
  decomposition Y old (VDa d) (VNd w) th ph L = Err ValueError.
Proof. exact (labelled_stack_rejected (T := fl)). Qed.
Print Assumptions C134_labelled_stack_rejected.

(** C134.  From scipy 1.15 on, no labelled data of more than two dimensions is accepted with two-dimensional angles,
    whatever the weights. *)
Theorem C134_labelled_stack_never :
  forall (Y : nat -> nat -> fl -> fl -> fl * fl) (d : da fl) w th ph L z,
  (2 < List.length (dims d))%nat -> List.length (vshape th) = 2%nat -> decomposition Y false (VDa d) w th ph L <> Ok z.
Proof. exact (labelled_stack_any (T := fl)). Qed.
Print Assumptions C134_labelled_stack_never.

(** C134.  A stack of one field is decomposed like the field. *)
Theorem C134_stack_of_one :
  forall (Y : nat -> nat -> fl -> fl -> fl * fl) (Yr Yi : nat -> nat -> R -> R -> R) (y0 : R), sph_oracle Y Yr Yi y0 ->
  forall old (d w : arr fl) th ph L a b (f : nat -> nat -> R) ww t p,
  shp d = [1%nat; a; b] -> shp w = [a; b] -> vshape th = [a; b] -> vshape ph = [a; b] -> th <> VOther -> ph <> VOther ->
  (forall i j, (i < a)%nat -> (j < b)%nat -> get d [0%nat; i; j] = Fin (f i j)) ->
  field (VNd w) a b ww -> field th a b t -> field ph a b p -> gridsum a b ww <> 0 ->
  exists r, decomposition Y old (VNd d) (VNd w) th ph L = Ok (ZNd r) /\ shp r = [count L] /\
    forall n m, (m <= n <= L)%nat -> get r [pos n m] =
      (Fin (coefficient a b ww f (fun i j => Yr n m (p i j) (t i j)) y0 m),
       Fin (coefficient a b ww f (fun i j => Yi n m (p i j) (t i j)) y0 m)).
Proof. exact c134_single. Qed.
Print Assumptions C134_stack_of_one.

(** C134.  With max_harm = 0 every field of a stack gets its coefficient, its mean divided by the constant harmonic. *)
Theorem C134_stack_constant :
  forall (Y : nat -> nat -> fl -> fl -> fl * fl) (Yr Yi : nat -> nat -> R -> R -> R) (y0 : R), sph_oracle Y Yr Yi y0 ->
  forall old (d w : arr fl) th ph K a b (f : nat -> nat -> nat -> R) ww t p,
  shp d = [K; a; b] -> shp w = [a; b] -> vshape th = [a; b] -> vshape ph = [a; b] -> th <> VOther -> ph <> VOther ->
  (forall k i j, (k < K)%nat -> (i < a)%nat -> (j < b)%nat -> get d [k; i; j] = Fin (f k i j)) ->
  field (VNd w) a b ww -> field th a b t -> field ph a b p -> gridsum a b ww <> 0 ->
  exists r, decomposition Y old (VNd d) (VNd w) th ph 0 = Ok (ZNd r) /\ shp r = [K] /\
    forall k, (k < K)%nat -> get r [k] =
      (Fin (coefficient a b ww (f k) (fun i j => Yr 0%nat 0%nat (p i j) (t i j)) y0 0),
       Fin (coefficient a b ww (f k) (fun i j => Yi 0%nat 0%nat (p i j) (t i j)) y0 0)).
Proof. exact c134_constant. Qed.
Print Assumptions C134_stack_constant.

(** C134 is false for a stack of as many fields as there are harmonics: it is accepted, and harmonic number k is
    computed from field number k alone, so no field is decomposed. *)
Theorem C134_stack_refuted :
  forall (Y : nat -> nat -> fl -> fl -> fl * fl) (Yr Yi : nat -> nat -> R -> R -> R) (y0 : R), sph_oracle Y Yr Yi y0 ->
  forall old (d w : arr fl) th ph L K a b (f : nat -> nat -> nat -> R) ww t p,
  shp d = [K; a; b] -> shp w = [a; b] -> vshape th = [a; b] -> vshape ph = [a; b] -> th <> VOther -> ph <> VOther ->
  (forall k i j, (k < K)%nat -> (i < a)%nat -> (j < b)%nat -> get d [k; i; j] = Fin (f k i j)) ->
  field (VNd w) a b ww -> field th a b t -> field ph a b p -> gridsum a b ww <> 0 -> K = count L ->
  exists r, decomposition Y old (VNd d) (VNd w) th ph L = Ok (ZNd r) /\ shp r = [count L] /\
    forall n m, (m <= n <= L)%nat -> get r [pos n m] =
      (Fin (coefficient a b ww (f (pos n m)) (fun i j => Yr n m (p i j) (t i j)) y0 m),
       Fin (coefficient a b ww (f (pos n m)) (fun i j => Yi n m (p i j) (t i j)) y0 m)).
Proof. exact c134_paired. Qed.
Print Assumptions C134_stack_refuted.

(** C134.  A stack of stacks, of shape (J, K, lat, lon), is rejected unless there are as many longitudes as harmonics,
    one longitude or one harmonic. *)
Theorem C134_double_stack_rejected :
  forall (Y : nat -> nat -> fl -> fl -> fl * fl) old (d w : arr fl) th ph L J K a b,
  shp d = [J; K; a; b] -> shp w = [a; b] -> vshape th = [a; b] -> vshape ph = [a; b] -> th <> VOther -> ph <> VOther ->
  b <> count L -> b <> 1%nat -> count L <> 1%nat -> decomposition Y old (VNd d) (VNd w) th ph L = Err ValueError.
Proof. exact (double_stack_rejected (T := fl)). Qed.
Print Assumptions C134_double_stack_rejected.

(** C134 is false for (J, K, lat, lon) with as many longitudes, and as many fields K, as harmonics: the sum runs
    over harmonics and latitudes, and the answer has one entry per longitude. *)
Theorem C134_double_stack_refuted :
  forall (Y : nat -> nat -> fl -> fl -> fl * fl) (Yr Yi : nat -> nat -> R -> R -> R) (y0 : R), sph_oracle Y Yr Yi y0 ->
  forall old (d w : arr fl) th ph L J a b (f : nat -> nat -> nat -> nat -> R) ww t p,
  shp d = [J; count L; a; b] -> shp w = [a; b] -> vshape th = [a; b] -> vshape ph = [a; b] -> th <> VOther -> ph <> VOther -> b = count L ->
  (forall j k i q, (j < J)%nat -> (k < count L)%nat -> (i < a)%nat -> (q < b)%nat -> get d [j; k; i; q] = Fin (f j k i q)) ->
  field (VNd w) a b ww -> field th a b t -> field ph a b p -> gridsum a b ww <> 0 ->
  exists r, decomposition Y old (VNd d) (VNd w) th ph L = Ok (ZNd r) /\ shp r = [J; count L] /\
    forall j n m q, (j < J)%nat -> (m <= n <= L)%nat -> q = pos n m ->
      get r [j; q] =
      (Fin (mult m * harmsum L (fun n' m' => bigsum a (fun i => f j (pos n' m') i q * ww i q * Yr n' m' (p i q) (t i q))) / (gridsum a b ww * (y0 * y0))),
       Fin (mult m * harmsum L (fun n' m' => bigsum a (fun i => f j (pos n' m') i q * ww i q * Yi n' m' (p i q) (t i q))) / (gridsum a b ww * (y0 * y0)))).
Proof. exact c134_double. Qed.
Print Assumptions C134_double_stack_refuted.

(** C134.  Coefficients with a second axis of length K are rejected unless K is 1 or the number of longitudes, or
    there is a single longitude. *)
Theorem C134_columns_rejected :
  forall (Y : nat -> nat -> fl -> fl -> fl * fl) old (c : arr (fl * fl)) th ph L K a b,
  shp c = [count L; K] -> vshape th = [a; b] -> vshape ph = [a; b] -> th <> VOther -> ph <> VOther ->
  K <> b -> K <> 1%nat -> b <> 1%nat -> recomposition Y old (ZNd c) th ph L = Err ValueError.
Proof. exact (columns_rejected (T := fl)). Qed.
Print Assumptions C134_columns_rejected.

(** C134 is false for coefficients in a column, or in as many columns as there are longitudes: they are accepted,
    and the result is no field but one sheet per harmonic, the harmonic times the sum of all coefficients. *)
Theorem C134_columns_refuted :
  forall (Y : nat -> nat -> fl -> fl -> fl * fl) (Yr Yi : nat -> nat -> R -> R -> R) (y0 : R), sph_oracle Y Yr Yi y0 ->
  forall old (c : arr (fl * fl)) th ph L K a b t p (cr ci : nat -> nat -> R),
  shp c = [count L; K] -> vshape th = [a; b] -> vshape ph = [a; b] -> th <> VOther -> ph <> VOther ->
  field th a b t -> field ph a b p ->
  (forall k q, (k < count L)%nat -> (q < K)%nat -> get c [k; q] = (Fin (cr k q), Fin (ci k q))) ->
  (K = 1%nat \/ K = b) ->
  exists r, recomposition Y old (ZNd c) th ph L = Ok (VNd r) /\ shp r = [count L; a; b] /\
    forall n m i j q, (m <= n <= L)%nat -> (i < a)%nat -> (j < b)%nat -> q = (if Nat.eqb K 1 then 0 else j)%nat ->
      get r [pos n m; i; j] = Fin (Yr n m (p i j) (t i j) * bigsum (count L) (fun k => cr k q) +
                                   Yi n m (p i j) (t i j) * bigsum (count L) (fun k => ci k q)).
Proof. exact c134_columns. Qed.
Print Assumptions C134_columns_refuted.

(** three constant fields 1, 2, 4 and the three harmonics up to degree one: the answer starts with the mean of the
    first field; the same fields with six harmonics are rejected *)
Definition st_data : arr fl := mkArr [3; 2; 3]%nat (fun i => Fin (match nth 0 i 0%nat with O => 1 | 1%nat => 2 | _ => 4 end)).
Example C134_example :
  (exists r, decomposition o_Y false (VNd st_data) (o_grid o_w) (o_grid o_theta) (o_grid o_phi) 1 = Ok (ZNd r) /\
     shp r = [3%nat] /\ exists im, get r [0%nat] = (Fin (1 / o_y0), Fin im)) /\
  (exists r, decomposition o_Y false (VNd st_data) (o_grid o_w) (o_grid o_theta) (o_grid o_phi) 0 = Ok (ZNd r) /\
     shp r = [3%nat] /\ exists im, get r [2%nat] = (Fin (4 / o_y0), Fin im)) /\
  decomposition o_Y false (VNd st_data) (o_grid o_w) (o_grid o_theta) (o_grid o_phi) 2 = Err ValueError.
Proof.
  pose proof o_y0_pos as P. assert (E : forall x y, o_Yr 0 0 x y = o_y0) by (intros; reflexivity).
  assert (HS : gridsum 2 3 o_w <> 0) by (rewrite o_total; lra).
  set (f := fun k (_ _ : nat) => match k with O => 1 | 1%nat => 2 | _ => 4 end).
  assert (G : forall k i j, (k < 3)%nat -> (i < 2)%nat -> (j < 3)%nat -> get st_data [k; i; j] = Fin (f k i j)) by (intros; reflexivity).
  split; [|split].
  - destruct (C134_stack_refuted o_Y o_Yr o_Yi o_y0 o_oracle false st_data (mkArr [2; 3]%nat (fun i => Fin (o_w (nth 0 i 0%nat) (nth 1 i 0%nat)))) (o_grid o_theta) (o_grid o_phi) 1 3 2 3 f o_w o_theta o_phi) as (r & Er & Sr & Gr);
      try reflexivity; try discriminate; auto; try (intros i j Hi Hj; reflexivity).
    exists r. split; [exact Er|]. split; [exact Sr|]. eexists. pose proof (Gr 0%nat 0%nat ltac:(lia)) as G0. change (pos 0 0) with 0%nat in G0. rewrite G0.
    apply f_equal2; [|reflexivity]. f_equal. unfold coefficient, gridsum, f, o_w. cbn [bigsum mult]. rewrite !E. field. lra.
  - destruct (C134_stack_constant o_Y o_Yr o_Yi o_y0 o_oracle false st_data (mkArr [2; 3]%nat (fun i => Fin (o_w (nth 0 i 0%nat) (nth 1 i 0%nat)))) (o_grid o_theta) (o_grid o_phi) 3 2 3 f o_w o_theta o_phi) as (r & Er & Sr & Gr);
      try reflexivity; try discriminate; auto; try (intros i j Hi Hj; reflexivity).
    exists r. split; [exact Er|]. split; [exact Sr|]. eexists. rewrite (Gr 2%nat ltac:(lia)).
    apply f_equal2; [|reflexivity]. f_equal. unfold coefficient, gridsum, f, o_w. cbn [bigsum mult]. rewrite !E. field. lra.
  - apply (C134_stack_rejected o_Y false st_data (mkArr [2; 3]%nat (fun i => Fin (o_w (nth 0 i 0%nat) (nth 1 i 0%nat)))) (o_grid o_theta) (o_grid o_phi) 2 3 2 3);
      try reflexivity; discriminate.
Qed.

(** a column of three coefficients 1, 2, 4: the first sheet is the constant harmonic times seven *)
Definition st_column : arr (fl * fl) := mkArr [3; 1]%nat (fun i => (Fin (match nth 0 i 0%nat with O => 1 | 1%nat => 2 | _ => 4 end), Fin 0)).
Example C134_column_example :
  exists r, recomposition o_Y false (ZNd st_column) (o_grid o_theta) (o_grid o_phi) 1 = Ok (VNd r) /\
    shp r = [3; 2; 3]%nat /\ get r [0; 0; 0]%nat = Fin (7 * o_y0).
Proof.
  destruct (C134_columns_refuted o_Y o_Yr o_Yi o_y0 o_oracle false st_column (o_grid o_theta) (o_grid o_phi) 1 1 2 3 o_theta o_phi
    (fun k _ => match k with O => 1 | 1%nat => 2 | _ => 4 end) (fun _ _ => 0)) as (r & Er & Sr & Gr);
    try reflexivity; try discriminate; try (intros i j Hi Hj; reflexivity).
  - left. reflexivity.
  - exists r. split; [exact Er|]. split; [exact Sr|]. pose proof (Gr 0%nat 0%nat 0%nat 0%nat 0%nat ltac:(lia) ltac:(lia) ltac:(lia) eq_refl) as G0.
    change (pos 0 0) with 0%nat in G0. rewrite G0. change (count 1) with 3%nat. cbn [bigsum].
    assert (E : forall x y, o_Yr 0 0 x y = o_y0) by (intros; reflexivity). rewrite E. f_equal. ring.
Qed.

(** two stacks of three fields on the grid of two by three points, three harmonics: accepted *)
Definition st_double : arr fl := mkArr [2; 3; 2; 3]%nat (fun i => Fin (INR (nth 1 i 0%nat))).
Example C134_double_example :
  exists r, decomposition o_Y false (VNd st_double) (o_grid o_w) (o_grid o_theta) (o_grid o_phi) 1 = Ok (ZNd r) /\ shp r = [2; 3]%nat.
Proof.
  destruct (C134_double_stack_refuted o_Y o_Yr o_Yi o_y0 o_oracle false st_double (mkArr [2; 3]%nat (fun i => Fin (o_w (nth 0 i 0%nat) (nth 1 i 0%nat))))
    (o_grid o_theta) (o_grid o_phi) 1 2 2 3 (fun _ k _ _ => INR k) o_w o_theta o_phi) as (r & Er & Sr & _);
    try reflexivity; try discriminate; try (intros i j Hi Hj; reflexivity).
  - rewrite o_total. lra.
  - exists r. split; [exact Er|exact Sr].
Qed.

(** the stack of three fields, labelled: rejected by both generations of scipy *)
Example C134_labelled_example : forall old,
  decomposition o_Y old (VDa (mkDa ["time"; "lat"; "lon"]%string st_data [] [] None)) (o_grid o_w) (o_grid o_theta) (o_grid o_phi) 1 = Err ValueError.
Proof. intros old. apply (C134_labelled_stack_rejected o_Y old _ _ _ _ 1 3 2 3); try reflexivity; try discriminate. intros _. left. discriminate. Qed.
