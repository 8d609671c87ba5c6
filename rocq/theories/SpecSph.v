(** Specification vocabulary for spherical harmonics: positions of the harmonics, weighted inner products
    on the grid and the expansion of a field. *)
From Coq Require Import Reals List Arith.
From Verif Require Import SpecSum.
Local Open Scope R_scope.

(** position of harmonic (n, m) and number of harmonics with n <= L *)
Definition pos (n m : nat) : nat := (n * (n + 1) / 2 + m)%nat.
Definition count (L : nat) : nat := ((L + 1) * (L + 2) / 2)%nat.

(** real harmonics with m = 0 are counted once, the others (standing for the pair m, -m) twice *)
Definition mult (m : nat) : R := match m with O => 1 | S _ => 2 end.

(** sum over all harmonics (n, m) with m <= n <= L *)
Definition harmsum (L : nat) (g : nat -> nat -> R) : R := bigsum (S L) (fun n => bigsum (S n) (g n)).

(** coefficient of a field f against a (real or imaginary part of a) harmonic y, on an a-by-b grid with
    weights w, where y0 is the constant harmonic *)
Definition coefficient (a b : nat) (w f y : nat -> nat -> R) (y0 : R) (m : nat) : R :=
  mult m * gridsum a b (fun i j => f i j * w i j * y i j) / (gridsum a b w * (y0 * y0)).

(** the quadrature given by the weights is exact for products of two harmonics up to degree L: their
    weighted sums are the integrals over the sphere of area [total * y0^2 = 1].  [yr n m i j] and
    [yi n m i j] are the real and imaginary part of harmonic (n, m) at grid point (i, j). *)
Definition same (n m n' m' : nat) : bool := Nat.eqb n n' && Nat.eqb m m'.
Record exact_quadrature (L a b : nat) (w : nat -> nat -> R) (y0 : R) (yr yi : nat -> nat -> nat -> nat -> R) : Prop := {
  eq_rr : forall n m n' m', (m <= n <= L)%nat -> (m' <= n' <= L)%nat ->
    gridsum a b (fun i j => w i j * yr n m i j * yr n' m' i j) =
    if same n m n' m' then gridsum a b w * (y0 * y0) / mult m else 0;
  eq_ri : forall n m n' m', (m <= n <= L)%nat -> (m' <= n' <= L)%nat ->
    gridsum a b (fun i j => w i j * yr n m i j * yi n' m' i j) = 0;
  eq_ii : forall n m n' m', (m <= n <= L)%nat -> (m' <= n' <= L)%nat ->
    gridsum a b (fun i j => w i j * yi n m i j * yi n' m' i j) =
    if (same n m n' m' && negb (Nat.eqb m 0))%bool then gridsum a b w * (y0 * y0) / mult m else 0 }.

From Coq Require Import String.
From Verif Require Import PyBase Num Arr Hybrid.
(** an argument given on a grid with dimension names [ds] and sizes [s]: an array of that shape, or a labelled
    array with those dimensions whose coordinates have the sizes of the dimensions they are defined on *)
Definition on_grid {T} (ds : list string) (s : list nat) (v : val T) : Prop :=
  match v with
  | VNd a => shp a = s
  | VDa d | VSubDa d =>
      dims d = ds /\ shp (dat d) = s /\
      forall name c, In (name, c) (coords d) ->
        Forall2 (fun x n => exists j, nth_error ds j = Some x /\ nth_error s j = Some n) (cdims c) (shp (cdat c))
  | VOther => False
  end.

From Verif Require Import SpecGrad XrFacts CellFacts Spherical.
(** what is assumed of scipy's sph_harm_y: on finite angles it returns finite parts [Yr n m polar azimuth] and
    [Yi ...]; harmonic (0, 0) is a non-zero constant [y0]; harmonics with m = 0 are real *)
Record sph_oracle (Y : nat -> nat -> fl -> fl -> fl * fl) (Yr Yi : nat -> nat -> R -> R -> R) (y0 : R) : Prop := {
  so_fin : forall n m p t, Y n m (Fin p) (Fin t) = (Fin (Yr n m p t), Fin (Yi n m p t));
  so_00 : forall p t, Yr 0%nat 0%nat p t = y0;
  so_nz : y0 <> 0;
  so_real : forall n p t, Yi n 0%nat p t = 0 }.

(** the field carried by an array argument *)
Definition field (v : val fl) (a b : nat) (f : nat -> nat -> R) : Prop :=
  forall i j, (i < a)%nat -> (j < b)%nat -> cell v i j = Fin (f i j).

(** inputs on the same a-by-b grid, for plain arrays and for labelled arrays *)
Definition weights_fit {T} {N : Num T} (d : da T) (w : val T) : Prop :=
  match w with
  | VNd x => shp x = shp (dat d)
  | VDa s | VSubDa s => same_frame d s
  | VOther => False
  end.
Inductive same_grid {T} {N : Num T} (a b : nat) (data w th ph : val T) : Prop :=
| sg_np d x : data = VNd d -> w = VNd x -> shp d = (a :: b :: nil)%list -> shp x = (a :: b :: nil)%list ->
    vshape th = (a :: b :: nil)%list -> vshape ph = (a :: b :: nil)%list -> th <> VOther -> ph <> VOther -> same_grid a b data w th ph
| sg_xr d : data = VDa d -> wf_da d -> shp (dat d) = (a :: b :: nil)%list -> weights_fit d w ->
    on_grid (dims d) (a :: b :: nil)%list th -> on_grid (dims d) (a :: b :: nil)%list ph -> same_grid a b data w th ph.

(** coefficient vector: length, entries, kind *)
Definition zlen {T} (z : zval T) : list nat := match z with ZNd a => shp a | ZDa d => shp (dat d) end.
Definition zcell {T} (z : zval T) (k : nat) : T * T := match z with ZNd a => get a (k :: nil)%list | ZDa d => get (dat d) (k :: nil)%list end.
Definition zkind {T} (v : val T) (z : zval T) : Prop :=
  match v, z with VNd _, ZNd _ => True | VDa _, ZDa d => dims d = ("harmonic"%string :: nil)%list | _, _ => False end.
(** a labelled array without a dimension called 'harmonic' *)
Definition plain_labels {T} (v : val T) : Prop :=
  match v with VDa d | VSubDa d => ~ In "harmonic"%string (dims d) | _ => False end.
(** angles that recomposition accepts for coefficients of the kind of [z] *)
Definition angles_fit {T} (z : zval T) (th ph : val T) (a b : nat) : Prop :=
  match z with
  | ZNd _ => vshape th = (a :: b :: nil)%list /\ vshape ph = (a :: b :: nil)%list /\ th <> VOther /\ ph <> VOther
  | ZDa _ => exists t, th = VDa t /\ shp (dat t) = (a :: b :: nil)%list /\ List.length (dims t) = 2%nat /\ ~ In "harmonic"%string (dims t) /\
                       vshape ph = (a :: b :: nil)%list /\ plain_labels ph
  end.
(** the result has the kind of the angles (labelled) or is a plain array *)
Definition rkind {T} (z : zval T) (th r : val T) (a b : nat) : Prop :=
  match z, r with
  | ZNd _, VNd x => shp x = (a :: b :: nil)%list
  | ZDa _, VDa d => shp (dat d) = (a :: b :: nil)%list /\ match th with VDa t => dims d = dims t | _ => False end
  | _, _ => False
  end.

(** NaN or infinite *)
Definition not_finite (x : fl) : Prop := forall r, x <> Fin r.
