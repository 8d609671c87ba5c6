(** Specification of the mass stream function.  Refers only to real numbers and [Spec]. *)
From Coq Require Import Reals List Arith String.
From Verif Require Import Num Arr Spec.
Import ListNotations.
Local Open Scope R_scope.

(** pressure thickness of the air in layer k above the surface *)
Definition air (top ps : R) (l : list R) (k : nat) : R :=
  Rmax 0 (lower_interface top ps l k - interface top l k).
(** missing wind carries no mass *)
Definition wind_or_zero (x : fl) : R := match x with Fin v => v | _ => 0 end.
Definition earth_radius : R := 6378137.
Definition gravity : R := 9.80665.
(** the position [e] with dimension d moved to k *)
Definition at_pos (e : env) (d : string) (k : nat) : env := fun d' => if String.eqb d' d then k else e d'.
(** f 0 + ... + f k *)
Fixpoint sum_to (k : nat) (f : nat -> R) : R := match k with O => f O | S j => sum_to j f + f k end.

(** Inputs for which the stream function is defined.  [wind]: on pressure levels [l] (top down) stored
    in that order ([down]) or reversed; [vz], [pz]: zonal means of wind and surface pressure on the
    latitudes [lat]; [psz t j]: zonal mean surface pressure. *)
Record psi_input (wind vz ps pz : da fl) (l : list R) (down : bool) (lat : list R) (nt : nat) (psz : nat -> nat -> R) : Prop := {
  pi_inc : increasing l;
  pi_two : (2 <= List.length l)%nat;
  pi_pos : 0 <= at_ l 0;
  (* the level coordinate; a dimension without one counts 0, 1, ... *)
  pi_levels : slookup "plev" (coords wind) = Some (mkCoord ["plev"%string] (vec NaN (map Fin (if down then l else rev l)))) \/
              (slookup "plev" (coords wind) = None /\ dsize wind "plev" = Some (List.length l) /\ down = true /\
               forall k, (k < List.length l)%nat -> nth k l 0 = INR k);
  pi_rank : List.length (dims vz) = List.length (shp (dat vz)) /\ NoDup (dims vz);
  pi_time : dsize vz "time" = Some nt;
  pi_plev : dsize vz "plev" = Some (List.length l);
  pi_lat : dsize vz "latitudes" = Some (List.length lat);
  pi_vlat : slookup "latitudes" (coords vz) = None \/
            slookup "latitudes" (coords vz) = Some (mkCoord ["latitudes"%string] (vec NaN (map Fin lat)));
  pi_wind : forall i, inb (shp (dat vz)) i -> get (dat vz) i = NaN \/ exists r, get (dat vz) i = Fin r;
  pi_pshape : shp (dat pz) = [nt; List.length lat];
  pi_plat : slookup "latitudes" (coords pz) = Some (mkCoord ["latitudes"%string] (vec NaN (map Fin lat)));
  pi_psz : forall t j, (t < nt)%nat -> (j < List.length lat)%nat ->
             get (dat pz) [t; j] = Fin (psz t j) /\ (at_ l 0 + at_ l 1) / 2 < psz t j;
  pi_ps : forall i, inb (shp (dat ps)) i -> exists r, get (dat ps) i = Fin r /\ 0 < r }.

(** e is a position inside array a *)
Definition inside (a : da fl) (e : env) : Prop := forall d k, dsize a d = Some k -> (e d < k)%nat.
(** position along the stored level axis <-> depth counted from the top (an involution) *)
Definition depth_of (down : bool) (n p : nat) : nat := if down then p else (n - 1 - p)%nat.
(** mass flux above and including the level at position e: sum of wind times air over the layers from the top *)
Definition flux_above (vz : da fl) (l : list R) (down : bool) (psz : nat -> nat -> R) (e : env) : R :=
  let n := List.length l in
  sum_to (depth_of down n (e "plev"%string))
    (fun k => wind_or_zero (getn vz (at_pos e "plev" (depth_of down n k)))
              * air (at_ l 0) (psz (e "time"%string) (e "latitudes"%string)) l k).
