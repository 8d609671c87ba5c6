(** C133: one column of the stream function of zonal_meridional_psi. *)
From Coq Require Import Reals List Bool Arith ZArith Lra Lia String.
From Verif Require Import PyBase Num NumFacts Arr ArrFacts Spec SpecPsi Hybrid GcUtil Psi PsiGuards PsiColumn PropertiesPsi.
Import ListNotations.
Local Open Scope R_scope.
Local Open Scope string_scope.

(** C133.  One column, the level at depth k counted from the top: from one level to the next the stream function changes by the flux of the
    layer entered; below the ground it does not change; a uniform wind c gives c times the pressure above the lower interface of the layer,
    which at the lowest level is the whole column from the top level to the surface. *)
Theorem C133_psi_column :
  forall order zmean cf u w p ha hb bw bp wind ps l down lat nt psz,
  w <> "" -> p <> "" -> slookup w u = Some (bw, wind) -> slookup p u = Some (bp, ps) -> In "plev" (dims wind) ->
  psi_input wind (zmean wind) ps (zmean ps) l down lat nt psz ->
  exists r, zonal_meridional_psi true order zmean cf u (mkNames (Some w) (Some p) (Some "plev") ha hb) = Ok r /\
    forall e, inside (zmean wind) e ->
      let at_depth k := at_pos e "plev" (depth_of down (List.length l) k) in
      let scale := 2 * PI * earth_radius * cos (nth (e "latitudes") lat 0) / gravity in
      let surface := psz (e "time") (e "latitudes") in
      (forall k, (S k < List.length l)%nat -> exists x y, getn r (at_depth k) = Fin x /\ getn r (at_depth (S k)) = Fin y /\
         y - x = scale * wind_or_zero (getn (zmean wind) (at_depth (S k))) * air (at_ l 0) surface l (S k)) /\
      (forall k, (k < List.length l)%nat -> underground (at_ l 0) surface l k -> getn r (at_depth k) = getn r (at_depth (k - 1)%nat)) /\
      (forall c, (forall k, (k < List.length l)%nat -> getn (zmean wind) (at_depth k) = Fin c) ->
         (forall k, (k < List.length l)%nat -> getn r (at_depth k) = Fin (scale * c * (lower_interface (at_ l 0) surface l k - at_ l 0))) /\
         getn r (at_depth (List.length l - 1)%nat) = Fin (scale * c * (surface - at_ l 0))).
Proof. exact c133_column. Qed.
Print Assumptions C133_psi_column.

(** C133.  Superposition: if above the ground the wind is a v1 + b v2 down to level k, so is the stream function at level k. *)
Theorem C133_psi_superposition :
  forall a b order zmean cf u w p ha hb bw bp wind ps order1 zmean1 cf1 u1 w1 p1 ha1 hb1 bw1 bp1 wind1 ps1 order2 zmean2 cf2 u2 w2 p2 ha2 hb2 bw2 bp2 wind2 ps2 l down lat nt psz,
  w <> "" -> p <> "" -> slookup w u = Some (bw, wind) -> slookup p u = Some (bp, ps) -> In "plev" (dims wind) ->
  w1 <> "" -> p1 <> "" -> slookup w1 u1 = Some (bw1, wind1) -> slookup p1 u1 = Some (bp1, ps1) -> In "plev" (dims wind1) ->
  w2 <> "" -> p2 <> "" -> slookup w2 u2 = Some (bw2, wind2) -> slookup p2 u2 = Some (bp2, ps2) -> In "plev" (dims wind2) ->
  psi_input wind (zmean wind) ps (zmean ps) l down lat nt psz -> psi_input wind1 (zmean1 wind1) ps1 (zmean1 ps1) l down lat nt psz ->
  psi_input wind2 (zmean2 wind2) ps2 (zmean2 ps2) l down lat nt psz ->
  exists r r1 r2, zonal_meridional_psi true order zmean cf u (mkNames (Some w) (Some p) (Some "plev") ha hb) = Ok r /\
    zonal_meridional_psi true order1 zmean1 cf1 u1 (mkNames (Some w1) (Some p1) (Some "plev") ha1 hb1) = Ok r1 /\
    zonal_meridional_psi true order2 zmean2 cf2 u2 (mkNames (Some w2) (Some p2) (Some "plev") ha2 hb2) = Ok r2 /\
    forall e, inside (zmean wind) e -> inside (zmean1 wind1) e -> inside (zmean2 wind2) e ->
      let at_depth k := at_pos e "plev" (depth_of down (List.length l) k) in
      let surface := psz (e "time") (e "latitudes") in
      forall k, (k < List.length l)%nat ->
        (forall j, (j <= k)%nat -> ~ underground (at_ l 0) surface l j -> exists v1 v2, getn (zmean1 wind1) (at_depth j) = Fin v1 /\ getn (zmean2 wind2) (at_depth j) = Fin v2 /\
           getn (zmean wind) (at_depth j) = Fin (a * v1 + b * v2)) ->
        exists x1 x2, getn r1 (at_depth k) = Fin x1 /\ getn r2 (at_depth k) = Fin x2 /\ getn r (at_depth k) = Fin (a * x1 + b * x2).
Proof. exact c133_superposition. Qed.
Print Assumptions C133_psi_superposition.

(** C133.  Locality: the stream function at a level depends on nothing but the surface pressure of its own column and the winds of that
    column above the ground and not below the level. *)
Theorem C133_psi_locality :
  forall order zmean cf u w p ha hb bw bp wind ps l down lat nt psz order1 zmean1 cf1 u1 w1 p1 ha1 hb1 bw1 bp1 wind1 ps1 nt1 psz1,
  w <> "" -> p <> "" -> slookup w u = Some (bw, wind) -> slookup p u = Some (bp, ps) -> In "plev" (dims wind) ->
  w1 <> "" -> p1 <> "" -> slookup w1 u1 = Some (bw1, wind1) -> slookup p1 u1 = Some (bp1, ps1) -> In "plev" (dims wind1) ->
  psi_input wind (zmean wind) ps (zmean ps) l down lat nt psz -> psi_input wind1 (zmean1 wind1) ps1 (zmean1 ps1) l down lat nt1 psz1 ->
  exists r r1, zonal_meridional_psi true order zmean cf u (mkNames (Some w) (Some p) (Some "plev") ha hb) = Ok r /\
    zonal_meridional_psi true order1 zmean1 cf1 u1 (mkNames (Some w1) (Some p1) (Some "plev") ha1 hb1) = Ok r1 /\
    forall e, inside (zmean wind) e -> inside (zmean1 wind1) e ->
      let at_depth k := at_pos e "plev" (depth_of down (List.length l) k) in
      let surface := psz (e "time") (e "latitudes") in psz1 (e "time") (e "latitudes") = surface ->
      forall k, (k < List.length l)%nat ->
        (forall j, (j <= k)%nat -> ~ underground (at_ l 0) surface l j -> getn (zmean1 wind1) (at_depth j) = getn (zmean wind) (at_depth j)) ->
        getn r1 (at_depth k) = getn r (at_depth k).
Proof. exact c133_local. Qed.
Print Assumptions C133_psi_locality.

(** hypotheses: levels 100, 500, 1000 over a surface at 700: the lowest level is underground; a uniform wind, and the wind of C38's example *)
Definition exc_zmean (c : fl) (d : da fl) : da fl :=
  if smem "plev" (dims d) then mkDa ["time"; "plev"; "latitudes"] (afull [1; 3; 2]%nat c) [("latitudes", ex_lat)] [] None
  else mkDa ["time"; "latitudes"] (afull [1; 2]%nat (Fin 700)) [("latitudes", ex_lat)] [] None.
Example C133_example (c : R) (down : bool) :
  psi_input (ex_wind down) (exc_zmean (Fin c) (ex_wind down)) ex_ps (exc_zmean (Fin c) ex_ps) [100; 500; 1000] down [0; 90] 1 (fun _ _ => 700) /\
  In "plev" (dims (ex_wind down)) /\ inside (exc_zmean (Fin c) (ex_wind down)) (fun _ => 0%nat) /\
  (forall k, (k < 3)%nat -> getn (exc_zmean (Fin c) (ex_wind down)) (at_pos (fun _ => 0%nat) "plev" (depth_of down 3 k)) = Fin c) /\
  underground (at_ [100; 500; 1000] 0) 700 [100; 500; 1000] 2 /\ ~ underground (at_ [100; 500; 1000] 0) 700 [100; 500; 1000] 1 /\
  lower_interface (at_ [100; 500; 1000] 0) 700 [100; 500; 1000] 1 - at_ [100; 500; 1000] 0 = 600.
Proof.
  split.
  { constructor; try reflexivity.
    - unfold increasing, at_; intros [|[|[|i]]] [|[|[|j]]]; simpl; intros; try lia; try lra.
    - simpl. lia.
    - unfold at_. simpl. lra.
    - left. reflexivity.
    - split; [reflexivity|]. simpl. repeat constructor; simpl; intuition discriminate.
    - right. reflexivity.
    - intros i _. right. exists c. reflexivity.
    - intros t j _ _. cbn. split; [reflexivity|]. unfold at_. simpl. lra.
    - intros i _. exists 700. split; [reflexivity|lra]. }
  split; [cbn; auto|].
  split.
  { intros d k. unfold dsize. change (dims (exc_zmean (Fin c) (ex_wind down))) with ["time"; "plev"; "latitudes"].
    change (shp (dat (exc_zmean (Fin c) (ex_wind down)))) with [1; 3; 2]%nat. cbn [sindex].
    destruct (String.eqb_spec d "time") as [->|N1]; [cbn; intros H; injection H as <-; lia|].
    destruct (String.eqb_spec d "plev") as [->|N2]; [cbn; intros H; injection H as <-; lia|].
    destruct (String.eqb_spec d "latitudes") as [->|N3]; [cbn; intros H; injection H as <-; lia|]. discriminate. }
  split; [intros k _; reflexivity|].
  unfold underground, lower_interface, interface, at_. cbn [nth Nat.ltb Nat.leb List.length].
  split; [split; [lia|lra]|]. split; [intros [_ Q]; lra|]. rewrite Rmin_right by lra. lra.
Qed.
