(** What interp_multidim does to the other coordinates, attributes and name of its input. *)
From Coq Require Import Reals List Bool Arith ZArith Lra Lia String.
From Verif Require Import PyBase PyFacts Num NumFacts Arr ArrFacts ListFacts Spec Hybrid HybridFacts Interp1d Interp1dFacts InterpMulti InterpMultiFacts
  InterpGrid InterpSigmaFacts SpecMulti InterpNearest InterpCyclic XrFacts.
Import ListNotations.
Local Open Scope R_scope.

(** [w] holds, along one axis at positions L, the values [v] interpolated at t *)
Definition interpolated (md : mdmethod) (fill : option fl) (L : list R) (t : R) (v : nat -> fl) (w : fl) : Prop :=
  (forall V i j, md = MdLinear -> (forall k, (k < List.length L)%nat -> v k = Fin (V k)) ->
     neighbours (fun k => nth k L 0) (List.length L) i j -> nth i L 0 <= t <= nth j L 0 ->
     w = Fin (lin (nth i L 0) (nth j L 0) (V i) (V j) t)) /\
  (forall i, md = MdNearest -> ~ out_of_range (fun k => nth k L 0) (List.length L) t -> nearest (fun k => nth k L 0) (List.length L) t i -> w = v i) /\
  (forall f, fill = Some f -> out_of_range (fun k => nth k L 0) (List.length L) t -> w = f).

(** the coordinate [c'] is [c] interpolated along the dimension x, the only one of the two it has *)
Definition along (md : mdmethod) (fill : option fl) (x : string) (L : list R) (out : list fl) (c c' : coordv fl) : Prop :=
  forall p r sp sr, cdims c = p ++ x :: r -> shp (cdat c) = sp ++ List.length L :: sr -> List.length sp = List.length p ->
    shp (cdat c') = sp ++ List.length out :: sr /\
    forall q j e t, List.length q = List.length p -> nth j out NaN = Fin t ->
      interpolated md fill L t (fun k => get (cdat c) (q ++ k :: e)) (get (cdat c') (q ++ j :: e)).

Lemma sindex_mid x p r : ~ In x p -> sindex x (p ++ x :: r) = Some (List.length p).
Proof.
  induction p as [|y p IH]; intros H; cbn; [rewrite String.eqb_refl; reflexivity|].
  destruct (String.eqb_spec x y) as [->|]; [exfalso; apply H; left; auto|]. rewrite IH by (intros Z; apply H; right; auto). reflexivity.
Qed.
Lemma nth_mid {A} (p : list A) x r d : nth (List.length p) (p ++ x :: r) d = x.
Proof. rewrite app_nth2, Nat.sub_diag by lia. reflexivity. Qed.

Lemma axis_value md fill L out (a : arr fl) sp sr : (2 <= List.length L)%nat -> NoDup L -> shp a = sp ++ List.length L :: sr ->
  shp (interp_axis md fill (map Fin L) out (List.length sp) a) = sp ++ List.length out :: sr /\
  forall q j e t, List.length q = List.length sp -> nth j out NaN = Fin t ->
    interpolated md fill L t (fun k => get a (q ++ k :: e)) (get (interp_axis md fill (map Fin L) out (List.length sp) a) (q ++ j :: e)).
Proof.
  intros Hn Hnd Hs. split; [unfold interp_axis; cbn [shp]; rewrite Hs; apply upd_app|].
  intros q j e t Hq Ht. unfold interp_axis. cbn [get]. rewrite Hs, nth_mid, <- Hq, nth_mid. cbn [nnan NumFl]. rewrite Ht.
  assert (E : map (fun k => get a (upd (q ++ j :: e) (List.length q) k)) (seq 0 (List.length L)) = map (fun k => get a (q ++ k :: e)) (seq 0 (List.length L))).
  { apply map_ext. intros k. rewrite upd_app. reflexivity. }
  rewrite E. clear E.
  assert (Hv : forall k, (k < List.length L)%nat -> nth k (map (fun k => get a (q ++ k :: e)) (seq 0 (List.length L))) NaN = get a (q ++ k :: e)).
  { intros k Hk. rewrite (nth_map_in _ _ k 0%nat) by (rewrite seq_length; auto). rewrite seq_nth by auto. reflexivity. }
  split; [|split].
  - intros V i i' -> HV Nb Hx. apply interp_dim_fin; auto using row_length. intros k Hk. rewrite Hv by auto. auto.
  - intros i -> Ho Ni. rewrite (near_in L _ (row_length L _) Hn Hnd fill t i) by auto. apply Hv. apply Ni.
  - intros f -> Ho. destruct md; [apply interp_dim_out|apply near_out]; auto using row_length.
Qed.

Lemma slookup_keep {A} nm (P : string * A -> bool) l : (forall c, P (nm, c) = true) -> slookup nm (filter P l) = slookup nm l.
Proof.
  intros H. induction l as [|[k v] l IH]; auto. cbn. destruct (String.eqb_spec nm k) as [->|N].
  - rewrite H. cbn. rewrite String.eqb_refl. reflexivity.
  - destruct (P (k, v)); cbn; auto. destruct (String.eqb_spec nm k); [contradiction|auto].
Qed.
Lemma slookup_image {A B} (f : A -> B) nm l : slookup nm (map (fun p => (fst p, f (snd p))) l) = option_map f (slookup nm l).
Proof. induction l as [|[k v] l IH]; auto. cbn. destruct (String.eqb nm k); auto. Qed.

Section Coords.
  Variables (md : mdmethod) (d : da fl) (la lo : option (list fl)) (ds : list string) (dy dx : string) (s : list nat) (LAT LON : list R)
    (yo xo : list fl) (missing fill : option fl).
  Hypothesis Hd : dims d = ds ++ [dy; dx].
  Hypothesis Hnd : NoDup (dims d).
  Hypothesis Hs : shp (dat d) = s ++ [List.length LAT; List.length LON].
  Hypothesis Hl : List.length ds = List.length s.
  Hypothesis Hy : has_values d dy LAT.
  Hypothesis Hx : has_values d dx LON.
  Hypothesis Ny : LAT <> [].
  Hypothesis Nx : LON <> [].

  Lemma dyx : dy <> dx.
  Proof. rewrite Hd in Hnd. apply NoDup_remove_2 in Hnd. intros ->. apply Hnd. rewrite in_app_iff. right. left. reflexivity. Qed.

  Definition other_coord (c c' : coordv fl) : Prop :=
    cdims c' = cdims c /\
    (~ In dy (cdims c) -> ~ In dx (cdims c) -> c' = c) /\
    (~ In dx (cdims c) -> NoDup (cdims c) -> (2 <= List.length LAT)%nat -> NoDup LAT -> along md fill dy LAT yo c c') /\
    (~ In dy (cdims c) -> NoDup (cdims c) -> (2 <= List.length LON)%nat -> NoDup LON -> along md fill dx LON xo c c') /\
    (forall p sp, cdims c = p ++ [dy; dx] -> NoDup (cdims c) -> shp (cdat c) = sp ++ [List.length LAT; List.length LON] -> List.length sp = List.length p ->
       exists o, interp_multidim md (VDa (mkDa (cdims c) (cdat c) (coords d) [] None)) yo xo la lo false None fill = Ok o /\
         shp (cdat c') = shp (dat o) /\ forall q jy jx, List.length q = List.length p -> get (cdat c') (q ++ [jy; jx]) = get (dat o) (q ++ [jy; jx])) /\
    (cdims c = [dx; dy] -> shp (cdat c) = [List.length LON; List.length LAT] ->
       exists o, interp_multidim md (VDa (mkDa [dy; dx] (transpose [1; 0]%nat (cdat c)) (coords d) [] None)) yo xo la lo false None fill = Ok o /\
         shp (cdat c') = [List.length xo; List.length yo] /\ forall jy jx, get (cdat c') [jx; jy] = get (dat o) [jy; jx]).

  Lemma aux_ok c : other_coord c (interp_aux md fill dy dx (map Fin LAT) (map Fin LON) yo xo c).
  Proof.
    pose proof dyx as Hyx. unfold other_coord, interp_aux. cbn [cdims]. split; [reflexivity|]. split; [|split; [|split; [|split]]].
    - intros A B. rewrite !sindex_None by auto. destruct c; reflexivity.
    - intros B Hc Hn Hu p r sp sr Ec Es El. rewrite (sindex_None dx) by auto. rewrite Ec in Hc |- *.
      rewrite sindex_mid by (apply NoDup_remove_2 in Hc; rewrite in_app_iff in Hc; tauto). cbn [cdat]. rewrite <- El.
      apply axis_value; auto.
    - intros A Hc Hn Hu p r sp sr Ec Es El. rewrite (sindex_None dy) by auto. rewrite Ec in Hc |- *.
      rewrite sindex_mid by (apply NoDup_remove_2 in Hc; rewrite in_app_iff in Hc; tauto). cbn [cdat]. rewrite <- El.
      apply axis_value; auto.
    - intros p sp Ec Hc Es El.
      assert (G : grid_input (VDa (mkDa (cdims c) (cdat c) (coords d) [] None)) la lo (p ++ [dy; dx]) (cdat c) sp LAT LON).
      { apply (grid_da (mkDa (cdims c) (cdat c) (coords d) [] None) la lo p dy dx sp LAT LON); auto. }
      destruct (grid_core md _ la lo _ _ _ _ _ yo xo None fill G Ny Nx) as (o & Eo & Do & So & _ & Go).
      exists o. split; [exact Eo|].
      assert (Jx : sindex dx (cdims c) = Some (S (List.length p))).
      { rewrite Ec. change (p ++ [dy; dx]) with (p ++ [dy] ++ [dx]). rewrite app_assoc, sindex_mid; [rewrite app_length; cbn; f_equal; lia|].
        rewrite Ec in Hc. change (p ++ [dy; dx]) with (p ++ [dy] ++ [dx]) in Hc. rewrite app_assoc in Hc. apply NoDup_remove_2 in Hc. rewrite app_nil_r in Hc. exact Hc. }
      assert (Jy : sindex dy (cdims c) = Some (List.length p)).
      { rewrite Ec. apply sindex_mid. rewrite Ec in Hc. apply NoDup_remove_2 in Hc. rewrite in_app_iff in Hc. tauto. }
      rewrite Jx, Jy. cbn [cdat]. unfold interp_axis. cbn [shp get].
      assert (N2 : nth (S (List.length p)) (shp (cdat c)) 0%nat = List.length LON).
      { rewrite Es, <- El. rewrite app_nth2 by lia. replace (S (List.length sp) - List.length sp)%nat with 1%nat by lia. reflexivity. }
      assert (U2 : forall (A : Type) (q : list A) u v w, List.length q = List.length p -> upd (q ++ [u; v]) (S (List.length p)) w = q ++ [u; w]).
      { intros A q u v w Hq. rewrite <- Hq. replace (q ++ [u; v]) with ((q ++ [u]) ++ v :: []) by (rewrite <- app_assoc; reflexivity).
        replace (S (List.length q)) with (List.length (q ++ [u])) by (rewrite app_length; cbn; lia). rewrite upd_app, <- app_assoc. reflexivity. }
      assert (U1 : forall (A : Type) (q : list A) u v w, List.length q = List.length p -> upd (q ++ [u; v]) (List.length p) w = q ++ [w; v]).
      { intros A q u v w Hq. rewrite <- Hq. apply upd_app. }
      split; [rewrite Es, U2, U1, So by auto; reflexivity|].
      intros q jy jx Hq. rewrite Go by congruence. cbn [post_value pre_value]. unfold surf_at.
      assert (X1 : nth (List.length p) (q ++ [jy; jx]) 0%nat = jy) by (rewrite <- Hq; apply nth_mid).
      rewrite X1. cbn [nnan NumFl].
      assert (N1 : nth (List.length p) (upd (shp (cdat c)) (S (List.length p)) (List.length xo)) 0%nat = List.length LAT).
      { rewrite Es, U2 by auto. rewrite <- El. apply nth_mid. }
      rewrite N1. f_equal. apply map_ext. intros k. unfold row_at. rewrite N2, U1 by auto.
      assert (X2 : nth (S (List.length p)) (q ++ [k; jx]) 0%nat = jx).
      { rewrite <- Hq, app_nth2 by lia. replace (S (List.length q) - List.length q)%nat with 1%nat by lia. reflexivity. }
      rewrite X2. f_equal. apply map_ext. intros c0. rewrite U2 by auto. reflexivity.
    - intros Ec Es.
      assert (G : grid_input (VDa (mkDa [dy; dx] (transpose [1; 0]%nat (cdat c)) (coords d) [] None)) la lo ([] ++ [dy; dx]) (transpose [1; 0]%nat (cdat c)) [] LAT LON).
      { apply (grid_da (mkDa [dy; dx] (transpose [1; 0]%nat (cdat c)) (coords d) [] None) la lo [] dy dx [] LAT LON); auto. cbn. rewrite Es. reflexivity. }
      destruct (grid_core md _ la lo _ _ _ _ _ yo xo None fill G Ny Nx) as (o & Eo & Do & So & _ & Go).
      exists o. split; [exact Eo|]. rewrite Ec. cbn [sindex]. rewrite String.eqb_refl.
      destruct (String.eqb_spec dy dx) as [|_]; [contradiction|]. rewrite String.eqb_refl. cbn [option_map cdat].
      unfold interp_axis. rewrite Es. cbn [shp get upd nth]. split; [reflexivity|].
      intros jy jx. specialize (Go [] jy jx eq_refl). cbn [app] in Go. rewrite Go. cbn [post_value pre_value]. unfold surf_at. cbn [nnan NumFl].
      f_equal. apply map_ext. intros k. unfold row_at. f_equal. apply map_ext. intros c0.
      unfold transpose, ndim. rewrite Es. cbn. reflexivity.
  Qed.

  Lemma c105_lemma :
    exists out, interp_multidim md (VDa d) yo xo la lo false missing fill = Ok out /\
      slookup dy (coords out) = Some (mkCoord [dy] (vec NaN yo)) /\ slookup dx (coords out) = Some (mkCoord [dx] (vec NaN xo)) /\
      (attrs out = match missing with Some _ => [] | None => attrs d end) /\ (daname out = match missing with Some _ => None | None => daname d end) /\
      forall nm, nm <> dy -> nm <> dx ->
        match slookup nm (coords d) with
        | None => slookup nm (coords out) = None
        | Some c => exists c', slookup nm (coords out) = Some c' /\ other_coord c c'
        end.
  Proof.
    pose proof dyx as Hyx. unfold interp_multidim. cbn [bind].
    assert (Hr : Nat.ltb (List.length (dims d)) 2 = false) by (apply Nat.ltb_ge; rewrite Hd, app_length; cbn; lia).
    rewrite Hr. cbv zeta.
    destruct (interp_last2_ok md fill (mask_missing missing d) ds dy dx s LAT LON yo xo) as (out & -> & Do & So & Co & Ao & No & Go);
      try (destruct missing; assumption).
    cbn [bind]. eexists. split; [reflexivity|].
    assert (E : coords (fill_missing missing out) = coords out) by (destruct missing; reflexivity).
    assert (E' : coords (mask_missing missing d) = coords d) by (destruct missing; reflexivity).
    rewrite E, Co, E'. split; [cbn; rewrite String.eqb_refl; reflexivity|].
    split; [cbn; destruct (String.eqb_spec dx dy); [congruence|]; rewrite String.eqb_refl; reflexivity|].
    split; [destruct missing; cbn; auto|]. split; [destruct missing; cbn; auto|].
    intros nm Hn1 Hn2. cbn [slookup]. destruct (String.eqb_spec nm dy); [contradiction|]. destruct (String.eqb_spec nm dx); [contradiction|].
    unfold aux_coords. rewrite slookup_image, slookup_keep by (intros c; cbn [fst]; destruct (String.eqb_spec nm dy), (String.eqb_spec nm dx); try contradiction; reflexivity).
    destruct (slookup nm (coords d)) as [c|]; cbn [option_map]; [|reflexivity]. eexists. split; [reflexivity|]. apply aux_ok.
  Qed.
End Coords.

(** cyclic=True: only the two coordinates are left, no attributes, no name *)
Lemma c105_cyclic md d la lo dy dx LAT LON yo xo missing fill :
  dims d = [dy; dx] -> dy <> dx -> shp (dat d) = [List.length LAT; List.length LON] -> has_values d dy LAT -> has_values d dx LON -> LAT <> [] -> LON <> [] ->
  exists out, interp_multidim md (VDa d) yo xo la lo true missing fill = Ok out /\
    coords out = [(dy, mkCoord [dy] (vec NaN yo)); (dx, mkCoord [dx] (vec NaN xo))] /\ attrs out = [] /\ daname out = None.
Proof.
  intros Hd Hyx Hs Hy Hx Ny Nx. unfold interp_multidim. cbn [bind]. rewrite Hd. cbn [List.length Nat.ltb Nat.leb]. cbv zeta.
  set (dm := mask_missing missing d).
  assert (Ed : dims dm = [dy; dx]) by (unfold dm; destruct missing; auto).
  assert (Es : shp (dat dm) = [List.length LAT; List.length LON]) by (unfold dm; destruct missing; auto).
  assert (Ely : has_values dm dy LAT) by (unfold dm; destruct missing; auto).
  assert (Elx : has_values dm dx LON) by (unfold dm; destruct missing; auto).
  clearbody dm. unfold add_cyclic. rewrite Ed, Es.
  destruct (Nat.eqb_spec (List.length LON) 0) as [Z|_]; [apply length_zero_iff_nil in Z; contradiction|].
  rewrite (dim_values_has _ _ _ Elx), (dim_values_has _ _ _ Ely). cbn [bind]. cbn [nnan NumFl]. pose proof (wrap_fl LON Nx) as W. cbv zeta in W. cbn [nnan NumFl] in W. rewrite W.
  match goal with |- context [interp_last2 md fill ?D yo xo] => set (pd := D) end.
  destruct (interp_last2_ok md fill pd [] dy dx [] LAT (wrap_lons LON) yo xo) as (out & -> & Do & So & Co & Ao & No & Go); auto.
  - unfold pd; cbn [dat shp app]. rewrite wrap_length. reflexivity.
  - left. unfold pd, index_labels. cbn [coords slookup]. rewrite String.eqb_refl. cbn [cdims cdat]. rewrite String.eqb_refl, ravel_vec. reflexivity.
  - left. unfold pd, index_labels. cbn [coords slookup]. destruct (String.eqb_spec dx dy); [congruence|].
    rewrite String.eqb_refl. cbn [cdims cdat]. rewrite String.eqb_refl, ravel_vec. reflexivity.
  - discriminate.
  - cbn [bind]. eexists. split; [reflexivity|].
    assert (E : aux_coords md fill dy dx LAT (wrap_lons LON) yo xo (coords pd) = []).
    { unfold aux_coords, pd. cbn [coords filter fst]. rewrite !String.eqb_refl, orb_true_r. reflexivity. }
    rewrite E in Co. destruct missing; cbn; rewrite ?Co, ?Ao, ?No; auto.
Qed.
