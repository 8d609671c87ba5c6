(** Model of geocat/comp/fourier_filters.py.

    np.fft.fft / np.fft.ifft are modelled by the defining sums of the discrete Fourier transform (numpy
    documentation), in the arithmetic of [Num]; complex numbers are pairs. *)
From Coq Require Import List Bool Arith ZArith String.
From Verif Require Import PyBase Num Arr Hybrid Spherical.
Import ListNotations.

Section Fourier.
  Context {T : Type} {N : Num T}.
  Local Open Scope num_scope.
  Notation cpx := (T * T)%type.

  (** angle 2 pi k t / n *)
  Definition angle (n k t : nat) : T := ofZ 2 * npi * ofZ (Z.of_nat (k * t)) / ofZ (Z.of_nat n).
  (** np.fft.fft of a real sequence of length n, bin k: sum_t x_t exp(-2 pi i k t / n) *)
  Definition fft_bin (n : nat) (x : nat -> T) (k : nat) : cpx :=
    (nsum (map (fun t => x t * ncos (angle n k t)) (seq 0 n)),
     nsum (map (fun t => nneg (x t * nsin (angle n k t))) (seq 0 n))).
  (** Not in /repo: np.fft.fft of a real sequence. *)
  Definition fft (n : nat) (x : nat -> T) : list cpx := map (fft_bin n x) (seq 0 n).
  (** np.real(np.fft.ifft(X)) at t: real part of (1/n) sum_k X_k exp(2 pi i k t / n), fourier_filters.py:165-166 *)
  Definition ifft_real (n : nat) (X : list cpx) (t : nat) : T :=
    nsum (map (fun k => fst (nth k X (creal (ofZ 0))) * ncos (angle n k t)
                        - snd (nth k X (creal (ofZ 0))) * nsin (angle n k t)) (seq 0 n)) / ofZ (Z.of_nat n).

  (** X[lo:hi] = 0 *)
  Definition zero_slice (lo hi : option Z) (X : list cpx) : list cpx :=
    let n := List.length X in
    map (fun kx => if Nat.leb (slice_lo n lo) (fst kx) && Nat.ltb (fst kx) (slice_hi n hi)
                   then creal (ofZ 0) else snd kx) (combine (seq 0 n) X).

  (** the flags low_pass, high_pass, band_pass, band_block *)
  Record flags := mkFlags { f_low : bool; f_high : bool; f_pass : bool; f_block : bool }.

  (** fourier_filters.py:132-164 on one column of the spectrum; [cfl] and [cfh] are cfl_index and cfh_index *)
  Definition apply_filters (fl : flags) (cfl cfh : Z) (X0 : list cpx) : list cpx :=
    let cfln := (1 - cfl)%Z in                                             (* 133 *)
    let cfhn := (1 - cfh)%Z in                                             (* 135 *)
    let X1 := if f_low fl
              then if (1 <? cfl)%Z then zero_slice (Some cfl) (Some cfln) X0       (* 137-140 *)
                   else zero_slice (Some cfl) None X0                              (* 142 *)
              else X0 in
    let X2 := if f_high fl
              then let Y := zero_slice None (Some cfh) X1 in                       (* 144 *)
                   if (1 <? cfh)%Z then zero_slice (Some cfhn) None Y else Y       (* 145-146 *)
              else X1 in
    let X3 := if f_pass fl
              then let Y := zero_slice None (Some cfl) X2 in                       (* 148 *)
                   let Z := if (1 <? cfh)%Z then zero_slice (Some cfh) (Some cfhn) Y   (* 149-152 *)
                            else zero_slice (Some cfh) None Y in                   (* 154 *)
                   if (1 <? cfl)%Z then zero_slice (Some cfln) None Z else Z       (* 155-156 *)
              else X2 in
    if f_block fl
    then let Y := zero_slice (Some cfl) (Some cfh) X3 in                           (* 158 *)
         if (1 <? cfl)%Z && (1 <? cfh)%Z then zero_slice (Some cfhn) (Some cfln) Y (* 159-162 *)
         else if (1 <? cfh)%Z then zero_slice (Some cfhn) None Y                   (* 163-164 *)
         else Y
    else X3.

  (** math.floor and math.ceil (132, 134): [z] is the rounded value of [x] if it has one; NaN raises ValueError, an infinity
      OverflowError *)
  Definition to_int (z : option Z) (x : T) : res Z :=
    match z with Some z => Ok z | None => Err (if isnan x then ValueError else OverflowError) end.
  (** the numeric part, fourier_filters.py:129-167, on an ndarray.  Rate and cutoffs are Python numbers, so that a division by
      zero raises (numpy scalars would give an infinity with a warning). *)
  Definition filter_arr (s : arr T) (frequency cl ch : T) (time_axis : Z) (fl : flags) : res (arr T) :=
    match shp s with
    | [] => Err TypeError                                                   (* len() of a rank-0 array, 129 *)
    | n0 :: _ =>
        guard (Nat.eqb n0 0) raise ZeroDivisionError ;;                     (* 129 *)
        let resolution := frequency / ofZ (Z.of_nat n0) in
        do ax <- oget ValueError (pyidx (ndim s) time_axis) ;;              (* AxisError, 130 *)
        let sw := swapaxes ax 0 s in
        let n := hd 0%nat (shp sw) in
        guard (Nat.eqb n 0) raise ValueError ;;                             (* no FFT of length 0, 131 *)
        guard (resolution =? ofZ 0) raise ZeroDivisionError ;;              (* 132, 134 *)
        do cfl <- to_int (nfloor (cl / resolution)) (cl / resolution) ;;   (* 132 *)
        do cfh <- to_int (nceil (ch / resolution)) (ch / resolution) ;;    (* 134 *)
        let column r := fun t => get sw (t :: r) in
        let out := mkArr (shp sw)
              (fun i => ifft_real n (apply_filters fl cfl cfh (fft n (column (tl i)))) (hd 0%nat i)) in
        Ok (swapaxes ax 0 out)                                              (* 167 *)
    end.

  (** fourier_filter, fourier_filters.py:7-172.  For a DataArray np.swapaxes (130) returns a DataArray with the
      swapped data under the old dimension names; the result is stored into a copy of it (168-171), which fails
      unless the swapped shape is the original shape. *)
  Definition fourier_filter (signal : val T) (frequency cl ch : T) (time_axis : Z) (fl : flags) : res (val T) :=
    match signal with
    | VNd s => do r <- filter_arr s frequency cl ch time_axis fl ;; Ok (VNd r)
    | VDa d =>
        do r <- filter_arr (dat d) frequency cl ch time_axis fl ;;
        do ax <- oget ValueError (pyidx (ndim (dat d)) time_axis) ;;
        guard negb (shape_eqb (shp r) (shp (swapaxes ax 0 (dat d)))) raise ValueError ;;
        Ok (VDa (mkDa (dims d) r (coords d) (attrs d) (daname d)))
    | VSubDa d =>                                  (* a subclass is not re-wrapped: 168 *)
        do r <- filter_arr (dat d) frequency cl ch time_axis fl ;; Ok (VNd r)
    | VOther => Err TypeError
    end.

  (** the four shorthands, fourier_filters.py:175-330 *)
  Definition fourier_low_pass (signal : val T) (frequency cl : T) (time_axis : Z) : res (val T) :=
    fourier_filter signal frequency cl (ofZ 0) time_axis (mkFlags true false false false).
  (** fourier_filters.py:212-246 *)
  Definition fourier_high_pass (signal : val T) (frequency ch : T) (time_axis : Z) : res (val T) :=
    fourier_filter signal frequency (ofZ 0) ch time_axis (mkFlags false true false false).
  (** fourier_filters.py:249-288 *)
  Definition fourier_band_pass (signal : val T) (frequency cl ch : T) (time_axis : Z) : res (val T) :=
    fourier_filter signal frequency cl ch time_axis (mkFlags false false true false).
  (** fourier_filters.py:291-330 *)
  Definition fourier_band_block (signal : val T) (frequency cl ch : T) (time_axis : Z) : res (val T) :=
    fourier_filter signal frequency cl ch time_axis (mkFlags false false false true).
End Fourier.
