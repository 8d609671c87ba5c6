(** Whole-call lemmas about interp_multidim. *)
From Coq Require Import Reals List Bool Arith ZArith Lra Lia String Permutation.
From Verif Require Import PyBase PyFacts Num NumFacts Arr ArrFacts ListFacts Spec Hybrid HybridFacts Interp1d Interp1dFacts InterpMulti InterpMultiFacts.
Import ListNotations.
Local Open Scope R_scope.

(** the coordinate values of a dimension: its coordinate, or its positions 0, 1, ... when it has none *)
Definition has_values (d : da fl) (x : string) (L : list R) : Prop :=
  index_labels d x = Some (map Fin L) \/ (slookup x (coords d) = None /\ forall k, (k < List.length L)%nat -> nth k L 0 = INR k).
(** the call's data is a field [a] of shape s ++ [|LAT|; |LON|] on the grid LAT x LON: a DataArray
    carrying the two coordinates (or counting the positions of a dimension that has none), or a two-dimensional numpy array with lat_in and lon_in *)
Inductive grid_input : val fl -> option (list fl) -> option (list fl) -> list string -> arr fl -> list nat -> list R -> list R -> Prop :=
| grid_da d la lo ds dy dx s LAT LON :
    dims d = ds ++ [dy; dx] -> shp (dat d) = s ++ [List.length LAT; List.length LON] -> List.length ds = List.length s ->
    has_values d dy LAT -> has_values d dx LON ->
    grid_input (VDa d) la lo (ds ++ [dy; dx]) (dat d) s LAT LON
| grid_np a LAT LON :
    shp a = [List.length LAT; List.length LON] ->
    grid_input (VNd a) (Some (map Fin LAT)) (Some (map Fin LON)) ["lat"; "lon"]%string a [] LAT LON.

Definition pre_value (missing : option fl) (v : fl) : fl := match missing with Some m => nwhere (neqb v m) NaN v | None => v end.
Definition post_value (missing : option fl) (v : fl) : fl := match missing with Some m => nwhere (isnan v) m v | None => v end.

Lemma nth_end2 {A} (l : list A) a b d : nth (List.length (l ++ [a; b]) - 2) (l ++ [a; b]) d = a.
Proof. rewrite app_length; cbn. replace (List.length l + 2 - 2)%nat with (List.length l) by lia. rewrite app_nth2, Nat.sub_diag by lia. reflexivity. Qed.
Lemma nth_end1 {A} (l : list A) a b d : nth (List.length (l ++ [a; b]) - 1) (l ++ [a; b]) d = b.
Proof. rewrite app_length; cbn. replace (List.length l + 2 - 1)%nat with (S (List.length l)) by lia. rewrite app_nth2 by lia. replace (S (List.length l) - List.length l)%nat with 1%nat by lia. reflexivity. Qed.
Lemma firstn_end2 {A} (l : list A) a b : firstn (List.length (l ++ [a; b]) - 2) (l ++ [a; b]) = l.
Proof. rewrite app_length; cbn. replace (List.length l + 2 - 2)%nat with (List.length l) by lia. rewrite firstn_app, Nat.sub_diag, firstn_all, firstn_O. apply app_nil_r. Qed.

Definition row_at (md : mdmethod) (fill : option fl) (a : list nat -> fl) (q : list nat) (LON : list R) (k : nat) (x : fl) : fl :=
  interp_dim md fill (map Fin LON) (map (fun c => a (q ++ [k; c])) (seq 0 (List.length LON))) x.
Definition surf_at (md : mdmethod) (fill : option fl) (a : list nat -> fl) (q : list nat) (LAT LON : list R) (y x : fl) : fl :=
  interp_dim md fill (map Fin LAT) (map (fun k => row_at md fill a q LON k x) (seq 0 (List.length LAT))) y.

Definition aux_coords (md : mdmethod) (fill : option fl) (dy dx : string) (LAT LON : list R) (yo xo : list fl) (cs : list (string * coordv fl)) :=
  map (fun p => (fst p, interp_aux md fill dy dx (map Fin LAT) (map Fin LON) yo xo (snd p))) (filter (fun p => negb (String.eqb (fst p) dy || String.eqb (fst p) dx)) cs).

Lemma dim_values_has d x L : has_values d x L -> dim_values d x (List.length L) = map Fin L.
Proof.
  intros [H|(H & C)]; unfold dim_values; [rewrite H; reflexivity|].
  replace (index_labels d x) with (@None (list fl)) by (unfold index_labels; rewrite H; reflexivity).
  apply (nth_ext _ _ (Fin 0) (Fin 0)); [rewrite !map_length, seq_length; reflexivity|]. intros k Hk. rewrite map_length, seq_length in Hk.
  rewrite (nth_map_in _ _ k 0%nat) by (rewrite seq_length; auto). rewrite (nth_map_in Fin L k 0) by auto. rewrite seq_nth, C by auto. cbn. rewrite <- INR_IZR_INZ. reflexivity.
Qed.

Lemma interp_last2_ok md fill d ds dy dx s LAT LON yo xo :
  dims d = ds ++ [dy; dx] -> shp (dat d) = s ++ [List.length LAT; List.length LON] -> List.length ds = List.length s ->
  has_values d dy LAT -> has_values d dx LON -> LAT <> [] -> LON <> [] ->
  exists out, interp_last2 md fill d yo xo = Ok out /\ dims out = dims d /\ shp (dat out) = s ++ [List.length yo; List.length xo] /\
    coords out = (dy, mkCoord [dy] (vec NaN yo)) :: (dx, mkCoord [dx] (vec NaN xo)) :: aux_coords md fill dy dx LAT LON yo xo (coords d) /\ attrs out = attrs d /\ daname out = daname d /\
    forall q jy jx, List.length q = List.length s ->
      get (dat out) (q ++ [jy; jx]) = surf_at md fill (get (dat d)) q LAT LON (nth jy yo NaN) (nth jx xo NaN).
Proof.
  intros Hd Hs Hl Ly Lx Ny Nx. unfold interp_last2.
  assert (Er : List.length (dims d) = List.length (shp (dat d))) by (rewrite Hd, Hs, !app_length; cbn; lia).
  assert (E3 : nth (List.length (dims d) - 2) (shp (dat d)) 0%nat = List.length LAT) by (rewrite Er, Hs; apply nth_end2).
  assert (E4 : nth (List.length (dims d) - 1) (shp (dat d)) 0%nat = List.length LON) by (rewrite Er, Hs; apply nth_end1).
  rewrite E3, E4.
  assert (E1 : nth (List.length (dims d) - 2) (dims d) ""%string = dy) by (rewrite Hd; apply nth_end2).
  assert (E2 : nth (List.length (dims d) - 1) (dims d) ""%string = dx) by (rewrite Hd; apply nth_end1).
  rewrite E1, E2. rewrite (dim_values_has _ _ _ Ly), (dim_values_has _ _ _ Lx).
  destruct (Nat.eqb_spec (List.length LAT) 0) as [Z|_]; [apply length_zero_iff_nil in Z; contradiction|].
  destruct (Nat.eqb_spec (List.length LON) 0) as [Z|_]; [apply length_zero_iff_nil in Z; contradiction|].
  cbn [orb]. eexists. split; [reflexivity|]. cbn [dims dat shp get coords]. split; [auto|].
  assert (Ef : forall (A : Type) (l : list A) (u v : A), List.length l = List.length s -> firstn (List.length (dims d) - 2) (l ++ [u; v]) = l).
  { intros A l u v H. rewrite Hd, app_length, Hl, <- H. cbn. replace (List.length l + 2 - 2)%nat with (List.length l) by lia.
    rewrite firstn_app, Nat.sub_diag, firstn_all, firstn_O. apply app_nil_r. }
  assert (En2 : forall l (u v : nat), List.length l = List.length s -> nth (List.length (dims d) - 2) (l ++ [u; v]) 0%nat = u).
  { intros l u v H. rewrite Hd, app_length, Hl, <- H. cbn. rewrite <- (nth_end2 l u v 0%nat) at 2. rewrite app_length. reflexivity. }
  assert (En1 : forall l (u v : nat), List.length l = List.length s -> nth (List.length (dims d) - 1) (l ++ [u; v]) 0%nat = v).
  { intros l u v H. rewrite Hd, app_length, Hl, <- H. cbn. rewrite <- (nth_end1 l u v 0%nat) at 2. rewrite app_length. reflexivity. }
  rewrite Hs. split; [rewrite Ef by auto; reflexivity|]. split; [reflexivity|]. split; [reflexivity|]. split; [reflexivity|].
  intros q jy jx Hq. rewrite Ef, En2, En1 by auto. reflexivity.
Qed.

Lemma grid_core md data la lo ds a s LAT LON yo xo missing fill :
  grid_input data la lo ds a s LAT LON -> LAT <> [] -> LON <> [] ->
  exists out, interp_multidim md data yo xo la lo false missing fill = Ok out /\ dims out = ds /\
    shp (dat out) = s ++ [List.length yo; List.length xo] /\
    (exists rest, coords out = (nth (List.length s) ds ""%string, mkCoord [nth (List.length s) ds ""%string] (vec NaN yo))
                  :: (nth (S (List.length s)) ds ""%string, mkCoord [nth (S (List.length s)) ds ""%string] (vec NaN xo)) :: rest) /\
    forall q jy jx, List.length q = List.length s ->
      get (dat out) (q ++ [jy; jx]) =
      post_value missing (surf_at md fill (fun i => pre_value missing (get a i)) q LAT LON (nth jy yo NaN) (nth jx xo NaN)).
Proof.
  intros G Ny Nx.
  assert (Core : forall d dsx dy dx, ds = dsx ++ [dy; dx] -> dat d = a -> dims d = ds ->
    shp (dat d) = s ++ [List.length LAT; List.length LON] -> List.length dsx = List.length s ->
    has_values d dy LAT -> has_values d dx LON ->
    exists out,
    (guard Nat.ltb (List.length (dims d)) 2 raise IndexError ;;
     let d := mask_missing missing d in
     do d <- Ok d ;; do out <- interp_last2 md fill d yo xo ;; Ok (fill_missing missing out)) = Ok out /\ dims out = ds /\
    shp (dat out) = s ++ [List.length yo; List.length xo] /\
    (exists rest, coords out = (nth (List.length s) ds ""%string, mkCoord [nth (List.length s) ds ""%string] (vec NaN yo))
                  :: (nth (S (List.length s)) ds ""%string, mkCoord [nth (S (List.length s)) ds ""%string] (vec NaN xo)) :: rest) /\
    forall q jy jx, List.length q = List.length s ->
      get (dat out) (q ++ [jy; jx]) =
      post_value missing (surf_at md fill (fun i => pre_value missing (get a i)) q LAT LON (nth jy yo NaN) (nth jx xo NaN))).
  { intros d dsx dy dx -> <- Hd Hs Hl Ly Lx.
    assert (E1 : nth (List.length s) (dsx ++ [dy; dx]) ""%string = dy) by (rewrite <- Hl, app_nth2, Nat.sub_diag by lia; reflexivity).
    assert (E2 : nth (S (List.length s)) (dsx ++ [dy; dx]) ""%string = dx)
      by (rewrite <- Hl, app_nth2 by lia; replace (S (List.length dsx) - List.length dsx)%nat with 1%nat by lia; reflexivity).
    rewrite E1, E2.
    assert (Hr : Nat.ltb (List.length (dims d)) 2 = false) by (apply Nat.ltb_ge; rewrite Hd, app_length; cbn; lia).
    rewrite Hr. cbv zeta. cbn [bind].
    destruct (interp_last2_ok md fill (mask_missing missing d) dsx dy dx s LAT LON yo xo) as (out & -> & Do & So & Co & _ & _ & Go);
      try (destruct missing; assumption).
    cbn [bind]. eexists. split; [reflexivity|]. destruct missing as [m|]; cbn [fill_missing dims dat shp coords amap get mask_missing] in *.
    - split; [congruence|]. split; [auto|]. split; [eauto|]. intros q jy jx Hq. rewrite Go by auto. reflexivity.
    - split; [congruence|]. split; [auto|]. split; [eauto|]. intros q jy jx Hq. rewrite Go by auto. reflexivity. }
  destruct G as [d la lo ds' dy dx s LAT LON Hd Hs Hl Ly Lx|a LAT LON Hs].
  - unfold interp_multidim. cbn [bind]. eapply Core; eauto.
  - unfold interp_multidim. rewrite Hs, !map_length.
    destruct (shape_eqb_spec [List.length LAT; List.length LON] [List.length LAT; List.length LON]) as [_|]; [|contradiction]. cbn [negb bind].
    apply (Core _ [] "lat"%string "lon"%string); auto; left;
    unfold index_labels; cbn [coords slookup String.eqb Ascii.eqb Bool.eqb cdims cdat]; rewrite ravel_vec; reflexivity.
Qed.

(** ** one dimension, finite values *)
Lemma in_range_bracket (l : list R) x : (2 <= List.length l)%nat -> NoDup l -> ~ out_of_range (fun k => nth k l 0) (List.length l) x ->
  exists i j, neighbours (fun k => nth k l 0) (List.length l) i j /\ nth i l 0 <= x <= nth j l 0.
Proof.
  intros Hn Hnd Ho. set (var := map (fun _ => NaN) l).
  assert (Hlen : List.length var = List.length l) by (unfold var; apply map_length).
  destruct (range_cases l var Hlen Hn Hnd x) as [?|(i & j & Hi & Hj & Hx)]; [contradiction|].
  destruct (interp_at_in l var Hlen Hn Hnd x i j Hi Hj Hx) as (a & b & (Nb & Hab & _) & _). eauto.
Qed.
Lemma node_in_range (l : list R) k : (k < List.length l)%nat -> ~ out_of_range (fun k => nth k l 0) (List.length l) (nth k l 0).
Proof. intros Hk [H|H]; specialize (H k Hk); lra. Qed.
Lemma lin_node (l : list R) (v : nat -> R) i j k : NoDup l -> neighbours (fun k => nth k l 0) (List.length l) i j ->
  (k < List.length l)%nat -> nth i l 0 <= nth k l 0 <= nth j l 0 -> lin (nth i l 0) (nth j l 0) (v i) (v j) (nth k l 0) = v k.
Proof.
  intros Hnd (Hi & Hj & Hij & K) Hk Hx. pose proof (nodup_distinct l Hnd) as D. destruct (K k Hk) as [A|A].
  - assert (k = i) by (apply D; auto; lra). subst. apply lin_node0.
  - assert (k = j) by (apply D; auto; lra). subst. apply lin_node1. lra.
Qed.
(** extrapolation: the affine function is continued *)
Lemma interp_dim_affine fill (l : list R) var a b x : (2 <= List.length l)%nat -> NoDup l -> List.length var = List.length l ->
  (forall k, (k < List.length l)%nat -> nth k var NaN = Fin (a + b * nth k l 0)) ->
  fill = None \/ ~ out_of_range (fun k => nth k l 0) (List.length l) x ->
  interp_dim MdLinear fill (map Fin l) var (Fin x) = Fin (a + b * x).
Proof.
  intros Hn Hnd Hlen Hv Hf.
  assert (C : forall i j, neighbours (fun k => nth k l 0) (List.length l) i j -> line_at l var i j x = Fin (a + b * x)).
  { intros i j (Hi & Hj & Hij & _). unfold line_at. rewrite !Hv by auto. rewrite line_through_fin by lra. rewrite lin_affine by lra. reflexivity. }
  destruct (range_cases l var Hlen Hn Hnd x) as [Ho|(i & j & Hi & Hj & Hx)].
  - destruct Hf as [->|]; [|contradiction]. destruct (interp_dim_extrap l var Hlen Hn Hnd x Ho) as (i & j & Nb & _ & ->). auto.
  - destruct (interp_dim_in l var Hlen Hn Hnd fill x i j Hi Hj Hx) as (i' & j' & (Nb & _) & ->). auto.
Qed.
(** constant rows out of range *)
Lemma interp_dim_const fill (l : list R) var f x : (2 <= List.length l)%nat -> NoDup l -> List.length var = List.length l ->
  (forall k, (k < List.length l)%nat -> nth k var NaN = f) -> f = NaN \/ finite f -> fill = Some f ->
  interp_dim MdLinear fill (map Fin l) var (Fin x) = f.
Proof.
  intros Hn Hnd Hlen Hv Hf ->. destruct (range_cases l var Hlen Hn Hnd x) as [Ho|(i & j & Hi & Hj & Hx)].
  - apply interp_dim_out; auto.
  - destruct (interp_dim_in l var Hlen Hn Hnd (Some f) x i j Hi Hj Hx) as (i' & j' & ((Hi' & Hj' & H' & _) & _) & ->).
    unfold line_at. rewrite !Hv by auto. destruct Hf as [->|[r ->]]; [apply line_through_nan0|].
    rewrite line_through_fin by lra. unfold lin. f_equal. lra.
Qed.

(** ** the surface *)
Lemma row_length (LON : list R) (f : nat -> fl) : List.length (map f (seq 0 (List.length LON))) = List.length LON.
Proof. rewrite map_length, seq_length. reflexivity. Qed.

Section Surface.
  Variables (fill : option fl) (a : list nat -> fl) (q : list nat) (LAT LON : list R) (V : nat -> nat -> R).
  Hypothesis Hy : NoDup LAT.
  Hypothesis Hx : NoDup LON.
  Hypothesis HV : forall k c, (k < List.length LAT)%nat -> (c < List.length LON)%nat -> a (q ++ [k; c]) = Fin (V k c).
  Let py k := nth k LAT 0.
  Let px k := nth k LON 0.

  Lemma row_fin k c d x : (k < List.length LAT)%nat -> neighbours px (List.length LON) c d -> px c <= x <= px d ->
    row_at MdLinear fill a q LON k (Fin x) = Fin (lin (px c) (px d) (V k c) (V k d) x).
  Proof.
    intros Hk Nb Hc. unfold row_at. apply (interp_dim_fin fill LON (V k)); auto using row_length.
    intros m Hm. rewrite nth_map_seq by auto. auto.
  Qed.
  Lemma surf_fin k b c d y x : neighbours py (List.length LAT) k b -> py k <= y <= py b ->
    neighbours px (List.length LON) c d -> px c <= x <= px d ->
    surf_at MdLinear fill a q LAT LON (Fin y) (Fin x) = Fin (bilin (py k) (py b) (px c) (px d) (V k c) (V k d) (V b c) (V b d) y x).
  Proof.
    intros Nb Hk Nc Hc. unfold surf_at, bilin.
    apply (interp_dim_fin fill LAT (fun k => lin (px c) (px d) (V k c) (V k d) x)); auto using row_length.
    intros m Hm. rewrite nth_map_seq by auto. apply row_fin; auto.
  Qed.
  Lemma surf_node k c : (2 <= List.length LAT)%nat -> (2 <= List.length LON)%nat -> (k < List.length LAT)%nat -> (c < List.length LON)%nat ->
    surf_at MdLinear fill a q LAT LON (Fin (py k)) (Fin (px c)) = Fin (V k c).
  Proof.
    intros Ny Nx Hk Hc.
    destruct (in_range_bracket LAT (py k) Ny Hy (node_in_range LAT k Hk)) as (i & j & Nb & Hb).
    destruct (in_range_bracket LON (px c) Nx Hx (node_in_range LON c Hc)) as (i' & j' & Nb' & Hb').
    erewrite surf_fin; eauto. f_equal. unfold bilin, py, px.
    rewrite (lin_node LON (V i)), (lin_node LON (V j)) by auto. apply (lin_node LAT (fun k => V k c)); auto.
  Qed.
  Lemma surf_between k b c d y x : neighbours py (List.length LAT) k b -> py k <= y <= py b ->
    neighbours px (List.length LON) c d -> px c <= x <= px d ->
    min4 (V k c) (V k d) (V b c) (V b d) <= bilin (py k) (py b) (px c) (px d) (V k c) (V k d) (V b c) (V b d) y x
      <= max4 (V k c) (V k d) (V b c) (V b d).
  Proof.
    intros (_ & _ & Hkb & _) Hk (_ & _ & Hcd & _) Hc. unfold bilin, min4, max4.
    pose proof (lin_between (px c) (px d) (V k c) (V k d) x Hcd Hc).
    pose proof (lin_between (px c) (px d) (V b c) (V b d) x Hcd Hc).
    set (u := lin (px c) (px d) (V k c) (V k d) x) in *. set (w := lin (px c) (px d) (V b c) (V b d) x) in *.
    pose proof (lin_between (py k) (py b) u w y Hkb Hk).
    revert H H0 H1. unfold Rmin, Rmax. repeat destruct (Rle_dec _ _); lra.
  Qed.
  Lemma surf_affine a0 b0 c0 d0 y x : (2 <= List.length LAT)%nat -> (2 <= List.length LON)%nat ->
    (forall k c, (k < List.length LAT)%nat -> (c < List.length LON)%nat -> V k c = a0 + b0 * py k + c0 * px c + d0 * py k * px c) ->
    fill = None \/ (~ out_of_range py (List.length LAT) y /\ ~ out_of_range px (List.length LON) x) ->
    surf_at MdLinear fill a q LAT LON (Fin y) (Fin x) = Fin (a0 + b0 * y + c0 * x + d0 * y * x).
  Proof.
    intros Ny Nx HW Hf. unfold surf_at.
    rewrite (interp_dim_affine fill LAT _ (a0 + c0 * x) (b0 + d0 * x)); auto using row_length; [f_equal; ring| |destruct Hf as [|[]]; auto].
    intros k Hk. rewrite nth_map_seq by auto. unfold row_at.
    rewrite (interp_dim_affine fill LON _ (a0 + b0 * py k) (c0 + d0 * py k)); auto using row_length;
      [f_equal; unfold py; ring| |destruct Hf as [|[]]; auto].
    intros c Hc. rewrite nth_map_seq, HV, HW by auto. f_equal. unfold px. ring.
  Qed.
End Surface.

Lemma surf_out a q LAT LON f y x : (2 <= List.length LAT)%nat -> (2 <= List.length LON)%nat -> NoDup LAT -> NoDup LON ->
  f = NaN \/ finite f ->
  out_of_range (fun k => nth k LAT 0) (List.length LAT) y \/ out_of_range (fun k => nth k LON 0) (List.length LON) x ->
  surf_at MdLinear (Some f) a q LAT LON (Fin y) (Fin x) = f.
Proof.
  intros Ny Nx Hy Hx Hf [Ho|Ho]; unfold surf_at.
  - apply interp_dim_out; auto using row_length.
  - apply (interp_dim_const (Some f)); auto using row_length. intros k Hk. rewrite nth_map_seq by auto.
    unfold row_at. apply interp_dim_out; auto using row_length.
Qed.
