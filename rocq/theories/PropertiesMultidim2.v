(** C105: what interp_multidim does to the other coordinates, the attributes and the name. *)
From Coq Require Import Reals List Bool Arith ZArith Lra Lia String.
From Verif Require Import PyBase PyFacts Num NumFacts Arr ArrFacts ListFacts Spec Hybrid Interp1d InterpMulti InterpMultiFacts InterpGrid SpecMulti InterpCoords.
Import ListNotations.
Local Open Scope R_scope.

(** [has_values d x L] (InterpGrid.v): L is the coordinate of dimension x of d, or counts its positions if it has none.
    [along md fill x L out c c'] (InterpCoords.v): c' is c interpolated along its dimension x only, from the positions L to
    [out]: for 'linear' the straight line between the neighbours, for 'nearest' the nearest value, and the fill value out of range. *)

(** C105. The two interpolated coordinates are the targets.  Any other coordinate c (named nm) is kept under its name and
    dimensions: unchanged if it lies along neither of the two dimensions, otherwise interpolated.  Along both of them it
    becomes what the call makes of c as data without missing_val. *)
Theorem C105_other_coordinates :
  forall md d la lo ds dy dx s LAT LON yo xo missing fill,
  dims d = ds ++ [dy; dx] -> NoDup (dims d) -> shp (dat d) = s ++ [List.length LAT; List.length LON] -> List.length ds = List.length s ->
  has_values d dy LAT -> has_values d dx LON -> LAT <> [] -> LON <> [] ->
  exists out, interp_multidim md (VDa d) yo xo la lo false missing fill = Ok out /\
    slookup dy (coords out) = Some (mkCoord [dy] (vec NaN yo)) /\ slookup dx (coords out) = Some (mkCoord [dx] (vec NaN xo)) /\
    attrs out = match missing with Some _ => [] | None => attrs d end /\ daname out = match missing with Some _ => None | None => daname d end /\
    forall nm, nm <> dy -> nm <> dx ->
      match slookup nm (coords d) with
      | None => slookup nm (coords out) = None
      | Some c => exists c', slookup nm (coords out) = Some c' /\ cdims c' = cdims c /\
          (~ In dy (cdims c) -> ~ In dx (cdims c) -> c' = c) /\
          (~ In dx (cdims c) -> NoDup (cdims c) -> (2 <= List.length LAT)%nat -> NoDup LAT -> along md fill dy LAT yo c c') /\
          (~ In dy (cdims c) -> NoDup (cdims c) -> (2 <= List.length LON)%nat -> NoDup LON -> along md fill dx LON xo c c') /\
          (forall p sp, cdims c = p ++ [dy; dx] -> NoDup (cdims c) -> shp (cdat c) = sp ++ [List.length LAT; List.length LON] -> List.length sp = List.length p ->
             exists o, interp_multidim md (VDa (mkDa (cdims c) (cdat c) (coords d) [] None)) yo xo la lo false None fill = Ok o /\
               shp (cdat c') = shp (dat o) /\ forall q jy jx, List.length q = List.length p -> get (cdat c') (q ++ [jy; jx]) = get (dat o) (q ++ [jy; jx])) /\
          (cdims c = [dx; dy] -> shp (cdat c) = [List.length LON; List.length LAT] ->
             exists o, interp_multidim md (VDa (mkDa [dy; dx] (transpose [1; 0]%nat (cdat c)) (coords d) [] None)) yo xo la lo false None fill = Ok o /\
               shp (cdat c') = [List.length xo; List.length yo] /\ forall jy jx, get (cdat c') [jx; jy] = get (dat o) [jy; jx])
      end.
Proof. exact c105_lemma. Qed.
Print Assumptions C105_other_coordinates.

(** C105. With cyclic=True nothing else is left of the input *)
Theorem C105_cyclic_drops :
  forall md d la lo dy dx LAT LON yo xo missing fill,
  dims d = [dy; dx] -> dy <> dx -> shp (dat d) = [List.length LAT; List.length LON] -> has_values d dy LAT -> has_values d dx LON -> LAT <> [] -> LON <> [] ->
  exists out, interp_multidim md (VDa d) yo xo la lo true missing fill = Ok out /\
    coords out = [(dy, mkCoord [dy] (vec NaN yo)); (dx, mkCoord [dx] (vec NaN xo))] /\ attrs out = [] /\ daname out = None.
Proof. exact c105_cyclic. Qed.
Print Assumptions C105_cyclic_drops.

(** a 2 x 2 field without longitude coordinate, with a height along the latitudes, an area on the grid and a scalar *)
Definition ex_coords : list (string * coordv fl) :=
  [("lat"%string, mkCoord ["lat"%string] (vec NaN [Fin 10; Fin 30]));
   ("height"%string, mkCoord ["lat"%string] (vec NaN [Fin 100; Fin 200]));
   ("area"%string, mkCoord ["lat"; "lon"]%string (mkArr [2; 2]%nat (fun i => Fin (INR (flat [2; 2]%nat i)))));
   ("member"%string, mkCoord [] (mkArr [] (fun _ => Fin 7)))].
Definition ex_field : da fl := mkDa ["lat"; "lon"]%string (mkArr [2; 2]%nat (fun i => Fin (INR (flat [2; 2]%nat i)))) ex_coords [("units", "K")]%string (Some "T"%string).
Example C105_example_hypotheses : has_values ex_field "lat" [10; 30] /\ has_values ex_field "lon" [0; 1].
Proof.
  split; [left; reflexivity|]. right. split; [reflexivity|]. intros k Hk. cbn in Hk. destruct k as [|[|k]]; [reflexivity|reflexivity|lia].
Qed.
Example C105_example : exists out h,
  interp_multidim MdLinear (VDa ex_field) [Fin 15] [Fin 0] None None false (Some (Fin 100)) None = Ok out /\
  slookup "height" (coords out) = Some h /\ get (cdat h) [0%nat] = Fin 125 /\
  slookup "member" (coords out) = slookup "member" ex_coords /\ daname out = None.
Proof.
  destruct (C105_other_coordinates MdLinear ex_field None None [] "lat" "lon" [] [10; 30] [0; 1] [Fin 15] [Fin 0] (Some (Fin 100)) None)
    as (out & E & _ & _ & _ & Nm & H); try reflexivity; try discriminate; try apply C105_example_hypotheses.
  { repeat constructor; cbn; intuition discriminate. }
  pose proof (H "height"%string ltac:(discriminate) ltac:(discriminate)) as Hh. cbn in Hh. destruct Hh as (h & Eh & Dh & _ & A & _).
  exists out, h. split; [exact E|]. split; [exact Eh|]. split.
  - destruct (A ltac:(intuition discriminate) ltac:(repeat constructor; cbn; intuition) ltac:(cbn; lia) ltac:(repeat constructor; cbn; intuition lra) [] [] [] [] eq_refl eq_refl eq_refl) as (_ & G).
    destruct (G [] 0%nat [] 15 eq_refl eq_refl) as (G1 & _). cbn in G1 |- *.
    rewrite (G1 (fun k => 100 + 100 * INR k) 0%nat 1%nat); auto.
    + f_equal. unfold lin. cbn. lra.
    + intros k Hk. destruct k as [|[|k]]; [cbn; f_equal; lra|cbn; f_equal; lra|lia].
    + unfold neighbours. split; [lia|]. split; [lia|]. cbn. split; [lra|]. intros k Hk. destruct k as [|[|k]]; [lra|lra|lia].
    + lra.
  - split; [|exact Nm]. pose proof (H "member"%string ltac:(discriminate) ltac:(discriminate)) as Hm. cbn in Hm. destruct Hm as (m & Em & _ & K & _).
    rewrite Em, K by auto. reflexivity.
Qed.
