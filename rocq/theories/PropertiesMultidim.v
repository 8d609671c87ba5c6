(** C23-C25, C90: interp_multidim. *)
From Coq Require Import Reals List Bool Arith ZArith Lra Lia String Permutation.
From Verif Require Import PyBase PyFacts Num NumFacts Arr ArrFacts ListFacts Spec Hybrid Interp1d InterpMulti InterpMultiFacts InterpGrid InterpCyclic SpecMulti InterpNearest.
Import ListNotations.
Local Open Scope R_scope.

(** [grid_input data lat_in lon_in ds a s LAT LON] (InterpGrid.v): the call's data is the field [a]
    of shape s ++ [|LAT|; |LON|] with dimensions [ds] on the grid LAT x LON: a DataArray carrying
    those coordinates on its last two dimensions, or a 2-D numpy array with lat_in and lon_in. *)

(** C23. Nodes, cells, bilinear fields, extrapolation of them, and the fill value out of range *)
Theorem C23_multidim_bilinear :
  forall data la lo ds (a : arr fl) s LAT LON yo xo fill (V : list nat -> R),
  grid_input data la lo ds a s LAT LON -> (2 <= List.length LAT)%nat -> (2 <= List.length LON)%nat -> NoDup LAT -> NoDup LON ->
  (forall i, inb (shp a) i -> get a i = Fin (V i)) ->
  exists out, interp_multidim MdLinear data (map Fin yo) (map Fin xo) la lo false None fill = Ok out /\ dims out = ds /\
    shp (dat out) = s ++ [List.length yo; List.length xo] /\
    forall q jy jx, inb s q -> (jy < List.length yo)%nat -> (jx < List.length xo)%nat ->
      let y := nth jy yo 0 in let x := nth jx xo 0 in let v := get (dat out) (q ++ [jy; jx]) in
      (forall k c, (k < List.length LAT)%nat -> (c < List.length LON)%nat -> y = nth k LAT 0 -> x = nth c LON 0 -> v = Fin (V (q ++ [k; c]))) /\
      (forall k b c d, neighbours (fun k => nth k LAT 0) (List.length LAT) k b -> nth k LAT 0 <= y <= nth b LAT 0 ->
         neighbours (fun k => nth k LON 0) (List.length LON) c d -> nth c LON 0 <= x <= nth d LON 0 ->
         exists r, v = Fin r /\
           r = bilin (nth k LAT 0) (nth b LAT 0) (nth c LON 0) (nth d LON 0)
                 (V (q ++ [k; c])) (V (q ++ [k; d])) (V (q ++ [b; c])) (V (q ++ [b; d])) y x /\
           min4 (V (q ++ [k; c])) (V (q ++ [k; d])) (V (q ++ [b; c])) (V (q ++ [b; d])) <= r
             <= max4 (V (q ++ [k; c])) (V (q ++ [k; d])) (V (q ++ [b; c])) (V (q ++ [b; d]))) /\
      (forall a0 b0 c0 d0,
         (forall k c, (k < List.length LAT)%nat -> (c < List.length LON)%nat ->
            V (q ++ [k; c]) = a0 + b0 * nth k LAT 0 + c0 * nth c LON 0 + d0 * nth k LAT 0 * nth c LON 0) ->
         fill = None \/ (~ out_of_range (fun k => nth k LAT 0) (List.length LAT) y /\ ~ out_of_range (fun k => nth k LON 0) (List.length LON) x) ->
         v = Fin (a0 + b0 * y + c0 * x + d0 * y * x)) /\
      (forall f, fill = Some f -> f = NaN \/ finite f ->
         out_of_range (fun k => nth k LAT 0) (List.length LAT) y \/ out_of_range (fun k => nth k LON 0) (List.length LON) x -> v = f).
Proof. exact c23_lemma. Qed.
Print Assumptions C23_multidim_bilinear.

(** C24. [map_values (as_nan m)] puts NaN where the data equal m.  [same_outcome r1 r2 f]
    (InterpCyclic.v): both raise the same exception, or both succeed with the same dimensions, shape
    and coordinates and every value of r1 is f of that of r2 *)
Theorem C24_multidim_missing_is_nan :
  forall md data yo xo la lo cyclic m fill,
  same_outcome (interp_multidim md data yo xo la lo cyclic (Some m) fill)
               (interp_multidim md (map_values (as_nan m) data) yo xo la lo cyclic None fill)
               (fun v => if isnan v then m else v).
Proof. exact c24_equiv. Qed.
Print Assumptions C24_multidim_missing_is_nan.

(** C24 *)
Theorem C24_multidim_no_nan :
  forall md data yo xo la lo cyclic m fill out,
  m <> NaN ->
  interp_multidim md data yo xo la lo cyclic (Some m) fill = Ok out -> forall i, get (dat out) i <> NaN.
Proof. exact c24_no_nan. Qed.
Print Assumptions C24_multidim_no_nan.

(** C24. A missing corner of the cell the target falls in makes the result missing; otherwise it is
    the interpolated value *)
Theorem C24_multidim_missing_corners :
  forall data la lo ds (a : arr fl) s LAT LON yo xo m fill,
  grid_input data la lo ds a s LAT LON -> NoDup LAT -> NoDup LON -> m <> NaN ->
  forall out, interp_multidim MdLinear data (map Fin yo) (map Fin xo) la lo false (Some m) fill = Ok out ->
  forall q jy jx i j c d, inb s q -> (jy < List.length yo)%nat -> (jx < List.length xo)%nat ->
    code_bracket (fun k => nth k LAT 0) (List.length LAT) i j (nth jy yo 0) ->
    code_bracket (fun k => nth k LON 0) (List.length LON) c d (nth jx xo 0) ->
    let corners := map (fun p => get a (q ++ [fst p; snd p])) [(i, c); (i, d); (j, c); (j, d)] in
    ((exists v, In v corners /\ (v = NaN \/ neqb v m = true)) -> get (dat out) (q ++ [jy; jx]) = m) /\
    (forall v00 v01 v10 v11, corners = [Fin v00; Fin v01; Fin v10; Fin v11] -> ~ In m corners ->
       get (dat out) (q ++ [jy; jx]) =
       Fin (bilin (nth i LAT 0) (nth j LAT 0) (nth c LON 0) (nth d LON 0) v00 v01 v10 v11 (nth jy yo 0) (nth jx xo 0))).
Proof. exact c24_corners. Qed.
Print Assumptions C24_multidim_missing_corners.

(** C25. w, e: westernmost and easternmost longitude *)
Theorem C25_multidim_seam :
  forall data la lo ds (a : arr fl) LAT LON yo xo fill (V : nat -> nat -> R),
  grid_input data la lo ds a [] LAT LON -> NoDup ds -> (2 <= List.length LAT)%nat -> NoDup LAT -> LON <> [] -> increasing LON ->
  let n := List.length LON in let w := nth 0 LON 0 in let e := nth (n - 1) LON 0 in
  e - w < 360 ->
  (forall k c, (k < List.length LAT)%nat -> (c < n)%nat -> get a [k; c] = Fin (V k c)) ->
  exists out, interp_multidim MdLinear data (map Fin yo) (map Fin xo) la lo true None fill = Ok out /\ dims out = ds /\
    shp (dat out) = [List.length yo; List.length xo] /\
    forall jy jx, (jy < List.length yo)%nat -> (jx < List.length xo)%nat ->
      let y := nth jy yo 0 in let x := nth jx xo 0 in let v := get (dat out) [jy; jx] in
      (forall k b, neighbours (fun k => nth k LAT 0) (List.length LAT) k b -> nth k LAT 0 <= y <= nth b LAT 0 ->
         (e <= x <= w + 360 ->
            v = Fin (bilin (nth k LAT 0) (nth b LAT 0) e (w + 360) (V k (n - 1)%nat) (V k 0%nat) (V b (n - 1)%nat) (V b 0%nat) y x)) /\
         (e - 360 <= x <= w ->
            v = Fin (bilin (nth k LAT 0) (nth b LAT 0) (e - 360) w (V k (n - 1)%nat) (V k 0%nat) (V b (n - 1)%nat) (V b 0%nat) y x)) /\
         (forall c, (S c < n)%nat -> nth c LON 0 <= x <= nth (S c) LON 0 ->
            v = Fin (bilin (nth k LAT 0) (nth b LAT 0) (nth c LON 0) (nth (S c) LON 0) (V k c) (V k (S c)) (V b c) (V b (S c)) y x))) /\
      (forall f, fill = Some f -> f = NaN \/ finite f -> x < e - 360 \/ w + 360 < x -> v = f) /\
      (forall jx', (jx' < List.length xo)%nat -> e - 360 <= x <= w -> nth jx' xo 0 = x + 360 -> get (dat out) [jy; jx'] = v).
Proof. exact c25_seam. Qed.
Print Assumptions C25_multidim_seam.

(** C25. Targets inside the original range *)
Theorem C25_multidim_inside :
  forall data la lo ds (a : arr fl) LAT LON yo xo missing fill out out',
  grid_input data la lo ds a [] LAT LON -> NoDup ds -> LAT <> [] -> (2 <= List.length LON)%nat -> increasing LON ->
  let n := List.length LON in let w := nth 0 LON 0 in let e := nth (n - 1) LON 0 in
  e - w < 360 ->
  interp_multidim MdLinear data (map Fin yo) (map Fin xo) la lo true missing fill = Ok out ->
  interp_multidim MdLinear data (map Fin yo) (map Fin xo) la lo false missing fill = Ok out' ->
  forall jy jx, (jy < List.length yo)%nat -> (jx < List.length xo)%nat ->
    w < nth jx xo 0 <= e \/
    (nth jx xo 0 = w /\ missing = None /\ forall k c, (k < List.length LAT)%nat -> (c < n)%nat -> finite (get a [k; c])) ->
    get (dat out) [jy; jx] = get (dat out') [jy; jx].
Proof. exact c25_inside. Qed.
Print Assumptions C25_multidim_inside.

(** C90. method='nearest': [nearest p n x i], [missing_of] (SpecMulti.v).  No assumption on the data: NaN cells included *)
Theorem C90_multidim_nearest :
  forall data la lo ds (a : arr fl) s LAT LON yo xo missing fill,
  grid_input data la lo ds a s LAT LON -> (2 <= List.length LAT)%nat -> (2 <= List.length LON)%nat -> NoDup LAT -> NoDup LON ->
  exists out, interp_multidim MdNearest data (map Fin yo) (map Fin xo) la lo false missing fill = Ok out /\ dims out = ds /\
    shp (dat out) = s ++ [List.length yo; List.length xo] /\
    forall q jy jx, inb s q -> (jy < List.length yo)%nat -> (jx < List.length xo)%nat ->
      let y := nth jy yo 0 in let x := nth jx xo 0 in let v := get (dat out) (q ++ [jy; jx]) in
      let outside := out_of_range (fun k => nth k LAT 0) (List.length LAT) y \/ out_of_range (fun k => nth k LON 0) (List.length LON) x in
      (fill = None \/ ~ outside ->
         exists i c, nearest (fun k => nth k LAT 0) (List.length LAT) y i /\ nearest (fun k => nth k LON 0) (List.length LON) x c /\
           v = missing_of missing (get a (q ++ [i; c]))) /\
      (forall f, fill = Some f -> outside -> v = match missing with Some m => if isnan f then m else f | None => f end).
Proof. exact c90_nearest. Qed.
Print Assumptions C90_multidim_nearest.

(** C90. cyclic: nearest on the circle ([nearest_on_circle], SpecMulti.v) *)
Theorem C90_multidim_nearest_cyclic :
  forall data la lo ds (a : arr fl) LAT LON yo xo missing fill,
  grid_input data la lo ds a [] LAT LON -> NoDup ds -> (2 <= List.length LAT)%nat -> NoDup LAT -> LON <> [] -> increasing LON ->
  let n := List.length LON in let w := nth 0 LON 0 in let e := nth (n - 1) LON 0 in
  e - w < 360 ->
  exists out, interp_multidim MdNearest data (map Fin yo) (map Fin xo) la lo true missing fill = Ok out /\ dims out = ds /\
    shp (dat out) = [List.length yo; List.length xo] /\
    forall jy jx i c, (jy < List.length yo)%nat -> (jx < List.length xo)%nat ->
      ~ out_of_range (fun k => nth k LAT 0) (List.length LAT) (nth jy yo 0) -> e - 360 <= nth jx xo 0 <= w + 360 ->
      nearest (fun k => nth k LAT 0) (List.length LAT) (nth jy yo 0) i -> nearest_on_circle (fun k => nth k LON 0) n (nth jx xo 0) c ->
      get (dat out) [jy; jx] = missing_of missing (get a [i; c]).
Proof. exact c90_cyclic. Qed.
Print Assumptions C90_multidim_nearest_cyclic.

(** a 3 x 4 field with unsorted latitudes *)
Definition ex_lat : list R := [10; -10; 0].
Definition ex_lon : list R := [0; 90; 180; 270].
Definition ex_grid : da fl :=
  mkDa ["lat"; "lon"]%string (mkArr [3; 4]%nat (fun i => Fin (INR (flat [3; 4]%nat i))))
    [("lat"%string, mkCoord ["lat"%string] (vec NaN (map Fin ex_lat))); ("lon"%string, mkCoord ["lon"%string] (vec NaN (map Fin ex_lon)))] [] None.
Example C23_to_C25_example_grid : grid_input (VDa ex_grid) None None ["lat"; "lon"]%string (dat ex_grid) [] ex_lat ex_lon.
Proof.
  apply (grid_da ex_grid None None [] "lat" "lon" [] ex_lat ex_lon); try reflexivity; left;
    unfold index_labels; cbn [coords slookup String.eqb Ascii.eqb Bool.eqb cdims cdat ex_grid]; rewrite ravel_vec; reflexivity.
Qed.
Example C23_to_C25_example_axes :
  NoDup ex_lat /\ increasing ex_lon /\ nth 3 ex_lon 0 - nth 0 ex_lon 0 < 360 /\
  neighbours (fun k => nth k ex_lat 0) 3 2 0 /\ code_bracket (fun k => nth k ex_lat 0) 3 1 2 (-5).
Proof.
  split; [repeat constructor; cbn; intuition lra|]. split.
  - intros i j Hij Hj. cbn in Hj. unfold at_, ex_lon. do 4 (destruct i; [do 4 (destruct j; [cbn; try lia; lra|]); lia|]). lia.
  - split; [cbn; lra|]. unfold neighbours, code_bracket, ex_lat. split.
    + split; [lia|]. split; [lia|]. cbn. split; [lra|]. intros k Hk. do 3 (destruct k; [lra|]). lia.
    + split; [split; [lia|]; split; [lia|]; cbn; split; [lra|]; intros k Hk; do 3 (destruct k; [lra|]); lia|]. cbn. split; [lra|left; lra].
Qed.
Example C90_example :
  nearest (fun k => nth k ex_lat 0) 3 4 2 /\ nearest (fun k => nth k ex_lat 0) 3 5 2 /\
  nearest_on_circle (fun k => nth k ex_lon 0) 4 340 0 /\ nearest_on_circle (fun k => nth k ex_lon 0) 4 (-46) 3 /\
  missing_of (Some (Fin 99)) NaN = Fin 99.
Proof.
  split; [|split]; [split; [lia|]; intros k Hk; do 3 (destruct k; [unfold ex_lat; cbn [nth]; split; intros; unfold Rabs; repeat destruct (Rcase_abs _); lra|]); lia ..|].
  assert (Z3 : forall u : Z, IZR u <= -2 \/ u = (-1)%Z \/ u = 0%Z \/ u = 1%Z \/ 2 <= IZR u).
  { intros u. destruct (Z_le_gt_dec u (-2)); [left; apply IZR_le; auto|]. destruct (Z_le_gt_dec 2 u); [do 4 right; apply IZR_le; auto|]. lia. }
  split; [|split; [|reflexivity]]; (split; [lia|]).
  - exists 1%Z. intros k u Hk. unfold ex_lon. destruct (Z3 u) as [U|[->|[->|[->|U]]]];
      (do 4 (destruct k; [cbn [nth]; split; intros; unfold Rabs; repeat destruct (Rcase_abs _); lra|]); lia).
  - exists (-1)%Z. intros k u Hk. unfold ex_lon. destruct (Z3 u) as [U|[->|[->|[->|U]]]];
      (do 4 (destruct k; [cbn [nth]; split; intros; unfold Rabs; repeat destruct (Rcase_abs _); lra|]); lia).
Qed.
