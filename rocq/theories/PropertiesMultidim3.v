(** C112: the order in which interp_multidim receives the rows and columns of its grid. *)
From Coq Require Import Reals List Bool Arith ZArith Lra Lia String Permutation.
From Verif Require Import PyBase PyFacts Num NumFacts Arr ArrFacts ListFacts Spec Hybrid Interp1d InterpMulti InterpMultiFacts InterpGrid InterpCyclic SpecMulti LevelOrder MultiOrient.
Import ListNotations.
Local Open Scope R_scope.

(** C112.  The same field with its rows and columns listed in another order (row k is the former row [sy k], column c the former
    column [sx c]): the same result.  Either method, any data (NaN and missing markers included), any fill value and target. *)
Theorem C112_grid_order_irrelevant :
  forall md data data' la lo la' lo' ds (a a' : arr fl) s LAT LON LAT' LON' yo xo missing fill sy sx,
  grid_input data la lo ds a s LAT LON -> grid_input data' la' lo' ds a' s LAT' LON' ->
  LAT <> [] -> LON <> [] -> NoDup LAT -> NoDup LON ->
  List.length LAT' = List.length LAT -> List.length LON' = List.length LON ->
  rearranges (List.length LAT) sy -> rearranges (List.length LON) sx ->
  (forall k, (k < List.length LAT)%nat -> nth k LAT' 0 = nth (sy k) LAT 0) ->
  (forall c, (c < List.length LON)%nat -> nth c LON' 0 = nth (sx c) LON 0) ->
  (forall q k c, inb s q -> (k < List.length LAT)%nat -> (c < List.length LON)%nat -> get a' (q ++ [k; c]) = get a (q ++ [sy k; sx c])) ->
  exists out out', interp_multidim md data yo xo la lo false missing fill = Ok out /\
    interp_multidim md data' yo xo la' lo' false missing fill = Ok out' /\
    dims out' = dims out /\ shp (dat out') = shp (dat out) /\
    forall q jy jx, inb s q -> (jy < List.length yo)%nat -> (jx < List.length xo)%nat ->
      get (dat out') (q ++ [jy; jx]) = get (dat out) (q ++ [jy; jx]).
Proof. exact c112_lemma. Qed.
Print Assumptions C112_grid_order_irrelevant.

(** C112 fails with cyclic=True.  Longitudes listed from east (e) to west (w): the columns added at the two ends are copies of the
    wrong ones, so that all targets from e to e + 360 get the easternmost column's value and those from w - 360 to w the
    westernmost column's (compare C25_multidim_seam). *)
Theorem C112_cyclic_east_to_west :
  forall data la lo ds (a : arr fl) LAT LON yo xo fill (V : nat -> nat -> R),
  grid_input data la lo ds a [] LAT LON -> NoDup ds -> (2 <= List.length LAT)%nat -> NoDup LAT -> LON <> [] -> decreasing LON ->
  let n := List.length LON in let e := nth 0 LON 0 in let w := nth (n - 1) LON 0 in
  (forall k c, (k < List.length LAT)%nat -> (c < n)%nat -> get a [k; c] = Fin (V k c)) ->
  exists out, interp_multidim MdLinear data (map Fin yo) (map Fin xo) la lo true None fill = Ok out /\ dims out = ds /\
    shp (dat out) = [List.length yo; List.length xo] /\
    forall jy jx, (jy < List.length yo)%nat -> (jx < List.length xo)%nat ->
      let y := nth jy yo 0 in let x := nth jx xo 0 in let v := get (dat out) [jy; jx] in
      forall k b, neighbours (fun k => nth k LAT 0) (List.length LAT) k b -> nth k LAT 0 <= y <= nth b LAT 0 ->
        (e <= x <= e + 360 -> v = Fin (lin (nth k LAT 0) (nth b LAT 0) (V k 0%nat) (V b 0%nat) y)) /\
        (w - 360 <= x <= w -> v = Fin (lin (nth k LAT 0) (nth b LAT 0) (V k (n - 1)%nat) (V b (n - 1)%nat) y)).
Proof. exact c112_descending. Qed.
Print Assumptions C112_cyclic_east_to_west.

(** ** a 2 x 4 field holding each column's longitude, listed west to east and east to west *)
Definition we_lat : list R := [0; 10].
Definition we_lon : list R := [0; 90; 180; 270].
Definition ew_lon : list R := [270; 180; 90; 0].
Definition lon_field (L : list R) : arr fl := mkArr [2; 4]%nat (fun i => Fin (nth (nth 1 i 0%nat) L 0)).
Lemma we_grid : grid_input (VNd (lon_field we_lon)) (Some (map Fin we_lat)) (Some (map Fin we_lon)) ["lat"; "lon"]%string (lon_field we_lon) [] we_lat we_lon.
Proof. apply grid_np; reflexivity. Qed.
Lemma ew_grid : grid_input (VNd (lon_field ew_lon)) (Some (map Fin we_lat)) (Some (map Fin ew_lon)) ["lat"; "lon"]%string (lon_field ew_lon) [] we_lat ew_lon.
Proof. apply grid_np; reflexivity. Qed.
Lemma we_nodup : NoDup we_lat /\ NoDup we_lon /\ increasing we_lon /\ decreasing ew_lon /\ NoDup ["lat"; "lon"]%string.
Proof.
  split; [repeat constructor; cbn; intuition lra|]. split; [repeat constructor; cbn; intuition lra|]. split; [|split].
  - intros i j Hij Hj. cbn in Hj. unfold at_, we_lon. do 4 (destruct i; [do 4 (destruct j; [cbn; try lia; lra|]); lia|]). lia.
  - intros i j Hij Hj. cbn in Hj. unfold ew_lon. do 4 (destruct i; [do 4 (destruct j; [cbn; try lia; lra|]); lia|]). lia.
  - repeat constructor; cbn; intuition discriminate.
Qed.
Example C112_example : exists out out',
  interp_multidim MdLinear (VNd (lon_field we_lon)) [Fin 5] [Fin 100] (Some (map Fin we_lat)) (Some (map Fin we_lon)) false None None = Ok out /\
  interp_multidim MdLinear (VNd (lon_field ew_lon)) [Fin 5] [Fin 100] (Some (map Fin we_lat)) (Some (map Fin ew_lon)) false None None = Ok out' /\
  get (dat out') [0; 0]%nat = get (dat out) [0; 0]%nat.
Proof.
  destruct we_nodup as (D1 & D2 & _).
  destruct (C112_grid_order_irrelevant MdLinear _ _ _ _ _ _ _ _ _ _ _ _ _ _ [Fin 5] [Fin 100] None None (fun k => k) (fun c => 3 - c)%nat we_grid ew_grid
    ltac:(discriminate) ltac:(discriminate) D1 D2 eq_refl eq_refl) as (out & out' & E & E' & _ & _ & G).
  - split; [auto|]. split; [auto|]. intros j Hj. exists j. auto.
  - change (List.length we_lon) with 4%nat. split; [intros; lia|]. split; [intros; lia|]. intros j Hj. exists (3 - j)%nat. lia.
  - auto.
  - intros c Hc. cbn in Hc. do 4 (destruct c; [reflexivity|]). lia.
  - intros q k c Hq Hk Hc. apply inb_length in Hq. destruct q; [|discriminate]. cbn in Hc. do 4 (destruct c; [reflexivity|]). lia.
  - exists out, out'. split; [exact E|]. split; [exact E'|]. apply (G [] 0 0)%nat; cbn; auto. constructor.
Qed.

(** C112 refuted: with cyclic=True the two listings of this field differ at longitude 300 *)
Theorem C112_cyclic_order_refuted : exists out out',
  interp_multidim MdLinear (VNd (lon_field we_lon)) [Fin 5] [Fin 300] (Some (map Fin we_lat)) (Some (map Fin we_lon)) true None None = Ok out /\
  interp_multidim MdLinear (VNd (lon_field ew_lon)) [Fin 5] [Fin 300] (Some (map Fin we_lat)) (Some (map Fin ew_lon)) true None None = Ok out' /\
  (forall k c, (c < 4)%nat -> get (lon_field ew_lon) [k; c] = get (lon_field we_lon) [k; 3 - c]%nat /\ nth c ew_lon 0 = nth (3 - c) we_lon 0) /\
  get (dat out) [0; 0]%nat = Fin 180 /\ get (dat out') [0; 0]%nat = Fin 270.
Proof.
  destruct we_nodup as (D1 & D2 & Iw & De & Dd).
  destruct (c25_seam _ _ _ _ _ _ _ [5] [300] None (fun _ c => nth c we_lon 0) we_grid Dd ltac:(cbn; lia) D1 ltac:(discriminate) Iw ltac:(cbn; lra) ltac:(reflexivity)) as (out & E & _ & _ & G).
  destruct (C112_cyclic_east_to_west _ _ _ _ _ _ _ [5] [300] None (fun _ c => nth c ew_lon 0) ew_grid Dd ltac:(cbn; lia) D1 ltac:(discriminate) De ltac:(reflexivity)) as (out' & E' & _ & _ & G').
  assert (Nb : neighbours (fun k => nth k we_lat 0) (List.length we_lat) 0 1).
  { split; [cbn; lia|]. split; [cbn; lia|]. cbn. split; [lra|]. intros k Hk. destruct k as [|[|k]]; [left; lra|right; lra|lia]. }
  exists out, out'. split; [exact E|]. split; [exact E'|]. split; [|split].
  - intros k c Hc. do 4 (destruct c; [split; reflexivity|]). lia.
  - destruct (G 0 0 ltac:(cbn; lia) ltac:(cbn; lia))%nat as (Q & _). destruct (Q _ _ Nb ltac:(cbn; lra)) as (Q' & _).
    rewrite Q' by (cbn; lra). f_equal. unfold bilin, lin. cbn. lra.
  - destruct (G' 0 0 ltac:(cbn; lia) ltac:(cbn; lia) _ _ Nb ltac:(cbn; lra))%nat as (Q & _).
    rewrite Q by (cbn; lra). f_equal. unfold lin. cbn. lra.
Qed.
Print Assumptions C112_cyclic_order_refuted.
