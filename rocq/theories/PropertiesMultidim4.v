(** C119: which calls of interp_multidim fail, and how. *)
From Coq Require Import Reals List Bool Arith ZArith Lra Lia String.
From Verif Require Import PyBase PyFacts Num Arr ArrFacts Hybrid InterpMulti MultiOutcome.
Import ListNotations.

(** C119, DataArrays (of any subclass), either method, whatever lat_in, lon_in, missing_val, fill_value and the target lists
    (which may be empty).  Fewer than two dimensions: IndexError.  A grid without rows or without columns: ValueError.  More than
    two dimensions with cyclic=True: ValueError.  Everything else succeeds, with the input's dimensions. *)
Theorem C119_labelled_outcomes :
  forall (T : Type) (N : Num T) md (v : val T) (d : da T) lat_out lon_out lat_in lon_in cyclic missing fill,
    v = VDa d \/ v = VSubDa d -> ranked d ->
    (List.length (dims d) < 2 -> interp_multidim md v lat_out lon_out lat_in lon_in cyclic missing fill = Err IndexError) /\
    (2 <= List.length (dims d) -> empty_grid (shp (dat d)) -> interp_multidim md v lat_out lon_out lat_in lon_in cyclic missing fill = Err ValueError) /\
    (2 < List.length (dims d) -> cyclic = true -> interp_multidim md v lat_out lon_out lat_in lon_in cyclic missing fill = Err ValueError) /\
    (2 <= List.length (dims d) -> ~ empty_grid (shp (dat d)) -> (cyclic = true -> List.length (dims d) = 2) ->
       exists out, interp_multidim md v lat_out lon_out lat_in lon_in cyclic missing fill = Ok out /\ dims out = dims d /\
         shp (dat out) = firstn (List.length (dims d) - 2) (shp (dat d)) ++ [List.length lat_out; List.length lon_out]).
Proof. exact (@c119_labelled). Qed.
Print Assumptions C119_labelled_outcomes.

(** C119, numpy arrays: ValueError unless both coordinate lists are given, are not empty and have the lengths of the array's two
    axes; otherwise success, with dimensions named lat and lon and the shape of the target lists. *)
Theorem C119_numpy_outcomes :
  forall (T : Type) (N : Num T) md (a : arr T) lat_out lon_out lat_in lon_in cyclic missing fill,
    (lat_in = None \/ lon_in = None -> interp_multidim md (VNd a) lat_out lon_out lat_in lon_in cyclic missing fill = Err ValueError) /\
    forall la lo, lat_in = Some la -> lon_in = Some lo ->
      (shp a <> [List.length la; List.length lo] \/ la = [] \/ lo = [] -> interp_multidim md (VNd a) lat_out lon_out lat_in lon_in cyclic missing fill = Err ValueError) /\
      (shp a = [List.length la; List.length lo] -> la <> [] -> lo <> [] ->
         exists out, interp_multidim md (VNd a) lat_out lon_out lat_in lon_in cyclic missing fill = Ok out /\ dims out = ["lat"; "lon"]%string /\ shp (dat out) = [List.length lat_out; List.length lon_out]).
Proof. exact (@c119_numpy). Qed.
Print Assumptions C119_numpy_outcomes.

(** ** a 2 x 3 x 4 field with dimensions time, y, x and no coordinates: interpolated without, refused with, cyclic=True *)
Definition txy : da fl := mkDa ["time"; "y"; "x"]%string (mkArr [2; 3; 4] (fun i => Fin (INR (nth 0 i 0 + nth 1 i 0 * nth 2 i 0)))) [] [] None.
Example C119_example :
  (exists out, interp_multidim MdLinear (VDa txy) [Fin 1; Fin 2] [Fin 3] None None false None (Some NaN) = Ok out /\ dims out = ["time"; "y"; "x"]%string /\ shp (dat out) = [2; 2; 1]) /\
  interp_multidim MdLinear (VDa txy) [Fin 1; Fin 2] [Fin 3] None None true None (Some NaN) = Err ValueError /\
  interp_multidim MdNearest (VDa (mkDa ["x"]%string (vec NaN [Fin 1]) [] [] None)) [] [] None None true None None = Err IndexError.
Proof.
  assert (R : ranked txy) by reflexivity.
  destruct (C119_labelled_outcomes fl NumFl MdLinear (VDa txy) txy [Fin 1; Fin 2] [Fin 3] None None false None (Some NaN) (or_introl eq_refl) R) as (_ & _ & _ & K).
  destruct (C119_labelled_outcomes fl NumFl MdLinear (VDa txy) txy [Fin 1; Fin 2] [Fin 3] None None true None (Some NaN) (or_introl eq_refl) R) as (_ & _ & J & _).
  split; [|split].
  - destruct K as (out & E & D & S); [cbn; lia|intros [Z|Z]; cbn in Z; lia|discriminate|]. exists out. auto.
  - apply J; [cbn; lia|reflexivity].
  - eapply (C119_labelled_outcomes fl NumFl); [left; reflexivity|reflexivity|cbn; lia].
Qed.
(** a 2 x 3 numpy array with a list of three latitudes and two longitudes: refused; with the lists exchanged: interpolated *)
Example C119_example_numpy :
  let a := mkArr [2; 3] (fun _ => Fin 5) in let two := [Fin 0; Fin 1] in let three := [Fin 0; Fin 1; Fin 2] in
  interp_multidim MdLinear (VNd a) [Fin 1] [Fin 1] (Some three) (Some two) true None None = Err ValueError /\
  exists out, interp_multidim MdLinear (VNd a) [Fin 1] [Fin 1] (Some two) (Some three) true None None = Ok out /\ shp (dat out) = [1; 1].
Proof.
  cbv zeta. set (a := mkArr [2; 3] (fun _ => Fin 5)). set (two := [Fin 0; Fin 1]). set (three := [Fin 0; Fin 1; Fin 2]).
  destruct (C119_numpy_outcomes fl NumFl MdLinear a [Fin 1] [Fin 1] (Some three) (Some two) true None None) as [_ P].
  destruct (C119_numpy_outcomes fl NumFl MdLinear a [Fin 1] [Fin 1] (Some two) (Some three) true None None) as [_ Q].
  split.
  - apply (P three two eq_refl eq_refl). left. discriminate.
  - destruct (Q two three eq_refl eq_refl) as [_ K]. destruct K as (out & E & _ & S); [reflexivity|discriminate|discriminate|]. exists out. auto.
Qed.
