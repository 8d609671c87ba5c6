(** gradient on data with a leading axis (time, lat, lon). *)
From Coq Require Import Reals List Bool Arith ZArith Lra Lia String.
From Verif Require Import PyBase PyFacts Num NumFacts Arr ArrFacts CellFacts Hybrid Gradient PolyZ SpecGrad GradSeries GradFacts GradApi.
Import ListNotations.
Local Open Scope nat_scope.

Section Gen.
  Context {T : Type} {N : Num T}.
  Lemma bdim_self a : bdim a a = Some a.
  Proof. unfold bdim. now rewrite Nat.eqb_refl. Qed.
  Lemma np_map2_lead (f : T -> T -> T) (a b : arr T) t n m : shp a = [t; n; m] -> shp b = [n; m] -> 2 <= n -> 2 <= m -> 2 <= t ->
    exists r, np_map2 f a b = Ok r /\ shp r = [t; n; m] /\
      forall k i j, get r [k; i; j] = f (get a [k; i; j]) (get b [i; j]).
  Proof.
    intros Ha Hb Hn Hm Ht. unfold np_map2. rewrite Ha, Hb. unfold bshape. cbn. rewrite !bdim_self. cbn.
    eexists. split; [reflexivity|]. split; [reflexivity|]. intros k i j. cbn [get]. unfold bidx. cbn.
    destruct (Nat.eqb_spec n 1), (Nat.eqb_spec m 1), (Nat.eqb_spec t 1); try lia. reflexivity.
  Qed.
  Lemma grad3 (a : arr T) t n m : shp a = [t; n; m] -> 2 <= t -> 2 <= n -> 2 <= m ->
    exists g0 g1, np_gradient2 a = Ok (g0, g1) /\ shp g0 = [t; n; m] /\ shp g1 = [t; n; m] /\
      forall k i j, get g0 [k; i; j] = nslope t (fun q => get a [q; i; j]) k /\
                    get g1 [k; i; j] = nslope n (fun q => get a [k; q; j]) i.
  Proof.
    intros Ha Ht Hn Hm. unfold np_gradient2, ndim. rewrite Ha. cbn [List.length seq mapM].
    unfold np_gradient_axis. rewrite Ha. cbn [nth].
    replace (Nat.ltb t 2) with false by (symmetry; apply Nat.ltb_ge; lia).
    replace (Nat.ltb n 2) with false by (symmetry; apply Nat.ltb_ge; lia).
    replace (Nat.ltb m 2) with false by (symmetry; apply Nat.ltb_ge; lia). cbn [bind].
    do 2 eexists. split; [reflexivity|]. cbn [shp]. split; [reflexivity|]. split; [reflexivity|]. intros k i j. split; reflexivity.
  Qed.
  Lemma gradient3_ok data lon lat t n m LO LA : data <> VOther -> shp (values_of data) = [t; n; m] ->
    2 <= t -> 2 <= n -> 2 <= m -> grid_of lon lat n m LO LA ->
    exists r0 r1, shp r0 = [t; n; m] /\ shp r1 = [t; n; m] /\
      (forall k i j, k < t -> i < n -> j < m ->
        get r0 [k; i; j] = ndiv (nslope t (fun q => get (values_of data) [q; i; j]) k) (nslope n (fun q => arc_lat_wgs84 (LA q j)) i) /\
        get r1 [k; i; j] = ndiv (nslope n (fun q => get (values_of data) [k; q; j]) i) (nslope m (fun q => arc_lon_wgs84 (LO i q) (LA i q)) j)) /\
      gradient data (Some lon) (Some lat) = match data with VDa _ => Err ValueError | _ => Ok [VNd r0; VNd r1] end.
  Proof.
    intros Hd Hs Ht Hn Hm G.
    assert (exists lo2 la2, (if Nat.eqb (ndim lon) 1 && Nat.eqb (ndim lat) 1 then Ok (meshgrid lon lat)
             else if Nat.eqb (ndim lon) 2 && Nat.eqb (ndim lat) 2 then Ok (lon, lat)
             else Err ValueError) = Ok (lo2, la2) /\ shp lo2 = [n; m] /\ shp la2 = [n; m] /\
             (forall i j, i < n -> j < m -> get lo2 [i; j] = LO i j /\ get la2 [i; j] = LA i j) /\
             (Nat.eqb (ndim lon) 1 || Nat.eqb (ndim lon) 2) = true) as (lo2 & la2 & E & S1 & S2 & V & R).
    { destruct G as [G1 G2 G3|G1 G2 G3]; unfold ndim; rewrite G1, G2; cbn [List.length Nat.eqb andb].
      - do 2 eexists. split; [reflexivity|]. cbn [shp]. rewrite G1, G2. split; [reflexivity|]. split; [reflexivity|].
        split; [|reflexivity]. intros i j Hi Hj. destruct (G3 i j Hi Hj) as [-> ->]. split; reflexivity.
      - do 2 eexists. split; [reflexivity|]. split; [assumption|]. split; [assumption|].
        split; [|reflexivity]. intros i j Hi Hj. destruct (G3 i j Hi Hj) as [-> ->]. split; reflexivity. }
    unfold gradient. cbn [bind fst snd oget]. rewrite R. cbn [negb]. rewrite E. cbn [bind].
    destruct (np_map2_same arc_lon_wgs84 lo2 la2) as (a1 & E1 & T1 & V1); [now rewrite S1, S2|]. rewrite E1. cbn [bind].
    destruct (grad_axis0 (amap arc_lat_wgs84 la2) n m S2 Hn) as (x0 & E2 & T2 & V2). rewrite E2. cbn [bind].
    assert (T1' : shp a1 = [n; m]) by (rewrite T1; exact S1).
    destruct (grad_axis1 a1 n m T1' Hm) as (x1 & E3 & T3 & V3). rewrite E3. cbn [bind].
    replace (match data with VNd a => Ok a | VDa d | VSubDa d => Ok (dat d) | VOther => Err TypeError end)
      with (Ok (values_of data)) by (destruct data; auto; contradiction).
    cbn [bind]. set (a := values_of data) in *.
    destruct (grad3 a t n m Hs Ht Hn Hm) as (g0 & g1 & E4 & T4 & T5 & V4). rewrite E4. cbn [bind fst snd].
    destruct (np_map2_lead ndiv g0 x0 t n m T4 T2 Hn Hm Ht) as (r0 & E6 & T6 & V6). rewrite E6. cbn [bind].
    destruct (np_map2_lead ndiv g1 x1 t n m T5 T3 Hn Hm Ht) as (r1 & E7 & T7 & V7). rewrite E7. cbn [bind].
    exists r0, r1. split; [assumption|]. split; [assumption|]. split.
    { intros k i j Hk Hi Hj. rewrite V6, V7, V2, V3. destruct (V4 k i j) as [-> ->]. split; f_equal.
      - apply nslope_ext; auto. intros q Hq. cbn [amap get]. now rewrite (proj2 (V q j Hq Hj)).
      - apply nslope_ext; auto. intros q Hq. rewrite V1 by (rewrite S1; now apply inb2).
        now rewrite (proj1 (V i q Hi Hq)), (proj2 (V i q Hi Hq)). }
    destruct data; try reflexivity; try contradiction.
    unfold wrap_xy, ndim. rewrite T6. reflexivity.
  Qed.
End Gen.

Local Open Scope R_scope.
(** data with a leading axis, depending on latitude only: the "latitude" derivative is zero everywhere and the
    latitude differences come out divided by longitude distances *)
Lemma c72_lemma (a : arr fl) lon lat t n m LO LA F : (2 <= t)%nat -> (2 <= n)%nat -> (2 <= m)%nat ->
  shp a = [t; n; m] -> (forall k i j, (k < t)%nat -> (i < n)%nat -> (j < m)%nat -> get a [k; i; j] = Fin (F i)) ->
  finite_grid lon lat n m (fun _ j => LO j) (fun i _ => LA i) ->
  (forall i, (i < n)%nat -> -90 <= LA i <= 90) -> strictly_monotone n LA -> strictly_monotone m LO ->
  exists r0 r1, gradient (VNd a) (Some lon) (Some lat) = Ok [VNd r0; VNd r1] /\
    forall k i j, (k < t)%nat -> (i < n)%nat -> (j < m)%nat ->
      get r0 [k; i; j] = Fin 0 /\
      get r1 [k; i; j] = Fin (slope n F i / slope m (fun q => lon_arc (LO q) (LA i)) j).
Proof.
  intros Ht Hn Hm Hs HF G Hla Sla Slo.
  destruct (gradient3_ok (VNd a) lon lat t n m _ _ ltac:(discriminate) Hs Ht Hn Hm G) as (r0 & r1 & _ & _ & V & E).
  exists r0, r1. split; [exact E|]. intros k i j Hk Hi Hj. destruct (V k i j Hk Hi Hj) as [-> ->].
  destruct (c48_distances_nonzero lon lat n m LO LA Hn Hm G Hla Sla Slo i j Hi Hj) as [Z0 Z1].
  change (@ndiv fl NumFl) with fl_div. cbn [values_of]. split.
  - rewrite (nslope_ext t _ (fun _ => Fin (F i))), nslope_fin, slope_const by (auto; intros; apply HF; auto).
    rewrite (nslope_ext n _ (fun q => Fin (arc_series (LA q)))) by (auto; intros; now rewrite arc_fin).
    rewrite nslope_fin, fdiv_fin by auto. f_equal. unfold Rdiv. ring.
  - rewrite (nslope_ext n _ (fun q => Fin (F q))), nslope_fin by (auto; intros; apply HF; auto).
    rewrite (nslope_ext m _ (fun q => Fin (lon_arc (LO q) (LA i)))) by (auto; intros; now rewrite arc_lon_fin).
    now rewrite nslope_fin, fdiv_fin by auto.
Qed.
Lemma c72_labelled (d : da fl) lon lat t n m LO LA : (2 <= t)%nat -> (2 <= n)%nat -> (2 <= m)%nat ->
  shp (dat d) = [t; n; m] -> finite_grid lon lat n m LO LA -> gradient (VDa d) (Some lon) (Some lat) = Err ValueError.
Proof.
  intros Ht Hn Hm Hs G.
  destruct (gradient3_ok (VDa d) lon lat t n m _ _ ltac:(discriminate) Hs Ht Hn Hm G) as (r0 & r1 & _ & _ & _ & E). exact E.
Qed.
