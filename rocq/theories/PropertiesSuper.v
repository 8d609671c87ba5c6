(** C128: interpolated fields add up, keep their order and keep their distance. *)
From Coq Require Import Reals List Bool Arith ZArith Lra Lia String Permutation.
From Verif Require Import PyBase PyFacts Num NumFacts Arr ArrFacts XrFacts Spec Hybrid HybridFacts Interp1d InterpHyb InterpHybFacts InterpApi InterpProps InterpFinal
  InterpSigma InterpSigmaFacts InterpMulti InterpGrid SpecSuper Superpose PropertiesInterp PropertiesInterp2 PropertiesLevels PropertiesMultidim.
Import ListNotations.
Local Open Scope R_scope.

(** C128, interp_hybrid_to_pressure without extrapolation: three fields on the same grid, whose values in the column of the cell are V, W and U. *)
Theorem C128_interp_hybrid_to_pressure :
  forall (d1 d2 d3 ps hyam hybm : da fl) l lb ax n A B levels p0 a m,
  hyb_call d1 ps hyam hybm l lb ax n A B levels a m -> hyb_call d2 ps hyam hybm l lb ax n A B levels a m ->
  hyb_call d3 ps hyam hybm l lb ax n A B levels a m -> a_extrapolate a = false ->
  dims d2 = dims d1 -> dims d3 = dims d1 -> shp (dat d2) = shp (dat d1) -> shp (dat d3) = shp (dat d1) ->
  exists o1 o2 o3,
    interp_hybrid_to_pressure (VDa d1) (VDa ps) (VDa hyam) (VDa hybm) (map Fin levels) (Fin p0) a = Ok o1 /\
    interp_hybrid_to_pressure (VDa d2) (VDa ps) (VDa hyam) (VDa hybm) (map Fin levels) (Fin p0) a = Ok o2 /\
    interp_hybrid_to_pressure (VDa d3) (VDa ps) (VDa hyam) (VDa hybm) (map Fin levels) (Fin p0) a = Ok o3 /\
    shp (dat o2) = shp (dat o1) /\ shp (dat o3) = shp (dat o1) /\
    forall i s V W U, inb (shp (dat o1)) i -> getn ps (env_of (dims d1) i) = Fin s ->
      let p := hyb_pressure A B p0 s in
      distinct_levels p n -> (m = MLog -> (forall k, (k < n)%nat -> 0 < p k) /\ Forall (Rlt 0) levels) ->
      (forall k, (k < n)%nat -> get (dat d1) (upd i ax k) = Fin (V k) /\ get (dat d2) (upd i ax k) = Fin (W k) /\ get (dat d3) (upd i ax k) = Fin (U k)) ->
      superposes (fun k => (k < n)%nat) V W U (get (dat o1) i) (get (dat o2) i) (get (dat o3) i).
Proof. exact c128_pressure. Qed.
Print Assumptions C128_interp_hybrid_to_pressure.

(** C128, interp_sigma_to_hybrid *)
Theorem C128_interp_sigma_to_hybrid :
  forall (d1 d2 d3 ps hyam hybm : da fl) (sig : list R) l h ax n nh A B p0 lev_dim cf m,
  sig_wf d1 ps hyam hybm (map Fin sig) l h ax n nh -> sig_wf d2 ps hyam hybm (map Fin sig) l h ax n nh -> sig_wf d3 ps hyam hybm (map Fin sig) l h ax n nh ->
  lev_dim = Some l \/ (lev_dim = None /\ cf = Some l) -> (2 <= n)%nat -> (0 < nh <= n)%nat -> NoDup sig ->
  (forall k, (k < nh)%nat -> get (dat hyam) [k] = Fin (A k)) -> (forall k, (k < nh)%nat -> get (dat hybm) [k] = Fin (B k)) ->
  dims d2 = dims d1 -> dims d3 = dims d1 -> shp (dat d2) = shp (dat d1) -> shp (dat d3) = shp (dat d1) ->
  exists o1 o2 o3,
    interp_sigma_to_hybrid d1 (map Fin sig) ps hyam hybm (Fin p0) lev_dim cf (meth_name m) = Ok o1 /\
    interp_sigma_to_hybrid d2 (map Fin sig) ps hyam hybm (Fin p0) lev_dim cf (meth_name m) = Ok o2 /\
    interp_sigma_to_hybrid d3 (map Fin sig) ps hyam hybm (Fin p0) lev_dim cf (meth_name m) = Ok o3 /\
    shp (dat o2) = shp (dat o1) /\ shp (dat o3) = shp (dat o1) /\
    forall i s V W U, inb (shp (dat o1)) i -> getn ps (env_of (dims d1) i) = Fin s -> s <> 0 ->
      (m = MLog -> Forall (Rlt 0) sig /\ Forall (Rlt 0) (map (hyb_sigma A B p0 s) (seq 0 nh))) ->
      (forall k, (k < n)%nat -> get (dat d1) (upd i ax k) = Fin (V k) /\ get (dat d2) (upd i ax k) = Fin (W k) /\ get (dat d3) (upd i ax k) = Fin (U k)) ->
      superposes (fun k => (k < n)%nat) V W U (get (dat o1) i) (get (dat o2) i) (get (dat o3) i).
Proof. exact c128_sigma. Qed.
Print Assumptions C128_interp_sigma_to_hybrid.

(** C128, interp_multidim with the linear method, targets inside the grid.  The points are the (row, column) pairs of the grid. *)
Theorem C128_interp_multidim :
  forall (D1 D2 D3 : val fl) la lo ds (a1 a2 a3 : arr fl) s LAT LON yo xo fill (V W U : list nat -> R),
  grid_input D1 la lo ds a1 s LAT LON -> grid_input D2 la lo ds a2 s LAT LON -> grid_input D3 la lo ds a3 s LAT LON ->
  (2 <= List.length LAT)%nat -> (2 <= List.length LON)%nat -> NoDup LAT -> NoDup LON ->
  (forall i, inb (shp a1) i -> get a1 i = Fin (V i)) -> (forall i, inb (shp a2) i -> get a2 i = Fin (W i)) -> (forall i, inb (shp a3) i -> get a3 i = Fin (U i)) ->
  exists o1 o2 o3,
    interp_multidim MdLinear D1 (map Fin yo) (map Fin xo) la lo false None fill = Ok o1 /\
    interp_multidim MdLinear D2 (map Fin yo) (map Fin xo) la lo false None fill = Ok o2 /\
    interp_multidim MdLinear D3 (map Fin yo) (map Fin xo) la lo false None fill = Ok o3 /\
    shp (dat o2) = shp (dat o1) /\ shp (dat o3) = shp (dat o1) /\
    forall q jy jx, inb s q -> (jy < List.length yo)%nat -> (jx < List.length xo)%nat ->
      ~ out_of_range (fun k => nth k LAT 0) (List.length LAT) (nth jy yo 0) -> ~ out_of_range (fun k => nth k LON 0) (List.length LON) (nth jx xo 0) ->
      superposes (fun kc : nat * nat => (fst kc < List.length LAT)%nat /\ (snd kc < List.length LON)%nat)
        (fun kc => V (q ++ [fst kc; snd kc])) (fun kc => W (q ++ [fst kc; snd kc])) (fun kc => U (q ++ [fst kc; snd kc]))
        (get (dat o1) (q ++ [jy; jx])) (get (dat o2) (q ++ [jy; jx])) (get (dat o3) (q ++ [jy; jx])).
Proof. exact c128_multi. Qed.
Print Assumptions C128_interp_multidim.

(** a rising profile, a falling profile and the first plus twice the second, at a pressure between the two levels *)
Definition both (k : nat) : R := up k + 2 * down k.
Example C128_example : exists o1 o2 o3 r1 r2,
  interp_hybrid_to_pressure (VDa (two up up)) (VDa ex_scalar) (VDa (two_bare up)) (VDa (two_bare zero)) (map Fin [3]) (Fin 1) (two_args false) = Ok o1 /\
  interp_hybrid_to_pressure (VDa (two down up)) (VDa ex_scalar) (VDa (two_bare up)) (VDa (two_bare zero)) (map Fin [3]) (Fin 1) (two_args false) = Ok o2 /\
  interp_hybrid_to_pressure (VDa (two both up)) (VDa ex_scalar) (VDa (two_bare up)) (VDa (two_bare zero)) (map Fin [3]) (Fin 1) (two_args false) = Ok o3 /\
  get (dat o1) [0%nat] = Fin r1 /\ get (dat o2) [0%nat] = Fin r2 /\ get (dat o3) [0%nat] = Fin (1 * r1 + 2 * r2).
Proof.
  destruct (C128_interp_hybrid_to_pressure (two up up) (two down up) (two both up) ex_scalar (two_bare up) (two_bare zero) "lev" "lev" 0%nat 2%nat up zero [3] 1
    (two_args false) MLinear (two_call up up up [3] false ltac:(discriminate)) (two_call down up up [3] false ltac:(discriminate))
    (two_call both up up [3] false ltac:(discriminate)) eq_refl eq_refl eq_refl eq_refl eq_refl) as (o1 & o2 & o3 & E1 & E2 & E3 & _ & _ & G).
  destruct (c17_any _ _ _ _ _ _ _ _ _ _ _ 1 _ _ (two_call up up up [3] false ltac:(discriminate)) eq_refl) as (o & sv & Eo & _ & So & _).
  assert (o = o1) by congruence. subst o.
  assert (Hi : inb (shp (dat o1)) [0%nat]) by (rewrite So; repeat constructor).
  assert (D : distinct_levels (hyb_pressure up zero 1 1) 2) by (apply two_distinct; cbn; lra).
  destruct (G [0%nat] 1 up down both Hi eq_refl D ltac:(discriminate)) as (Sup & _ & _).
  { intros [|[|k]] Hk; try lia; repeat split; reflexivity. }
  destruct (Sup 1 2 ltac:(intros; unfold both; ring)) as [(N & _)|(r1 & r2 & F1 & F2 & F3)].
  - exfalso. destruct (C14_interp_nan_iff_out_of_range _ _ _ _ _ _ _ _ _ _ _ 1 _ _ (two_call up up up [3] false ltac:(discriminate)) eq_refl) as (o' & Eo' & _ & _ & G').
    + left. intros i j Hij. cbn in Hij. lia.
    + assert (o' = o1) by congruence. subst o'.
      destruct (G' [0%nat] 1 Hi eq_refl D ltac:(discriminate)) as [_ K].
      destruct (K ltac:(intros [|[|k]] Hk; try lia; eexists; reflexivity) N) as [Q|Q]; [specialize (Q 1%nat ltac:(lia))|specialize (Q 0%nat ltac:(lia))]; cbn in Q; unfold hyb_pressure, up, zero in Q; lra.
  - exists o1, o2, o3, r1, r2. auto 10.
Qed.

(** the grid of C23: a field, itself and the sum of both, targets inside the grid *)
Example C128_example_grid : exists o, interp_multidim MdLinear (VDa ex_grid) (map Fin [5]) (map Fin [100]) None None false None None = Ok o /\
  ~ out_of_range (fun k => nth k ex_lat 0) 3 5 /\ ~ out_of_range (fun k => nth k ex_lon 0) 4 100 /\ within 0 (get (dat o) [0; 0]%nat) (get (dat o) [0; 0]%nat).
Proof.
  assert (F : exists V, forall i, inb (shp (dat ex_grid)) i -> get (dat ex_grid) i = Fin (V i)) by (eexists; intros; reflexivity).
  destruct F as [V F].
  destruct C23_to_C25_example_axes as (Na & Ic & _).
  assert (No : NoDup ex_lon) by (repeat constructor; cbn; intuition lra).
  assert (Oy : ~ out_of_range (fun k => nth k ex_lat 0) 3 5) by (intros [H|H]; [specialize (H 0%nat ltac:(lia))|specialize (H 1%nat ltac:(lia))]; cbn in H; lra).
  assert (Ox : ~ out_of_range (fun k => nth k ex_lon 0) 4 100) by (intros [H|H]; [specialize (H 3%nat ltac:(lia))|specialize (H 0%nat ltac:(lia))]; cbn in H; lra).
  destruct (C128_interp_multidim _ _ _ _ _ _ _ _ _ _ _ _ [5] [100] None V V V C23_to_C25_example_grid C23_to_C25_example_grid C23_to_C25_example_grid
    ltac:(cbn; lia) ltac:(cbn; lia) Na No F F F) as (o1 & o2 & o3 & E1 & E2 & _ & _ & _ & G).
  assert (o2 = o1) by congruence. subst o2. exists o1. split; [exact E1|]. split; [exact Oy|]. split; [exact Ox|].
  destruct (G [] 0%nat 0%nat ltac:(constructor) ltac:(cbn; lia) ltac:(cbn; lia) Oy Ox) as (_ & _ & H). apply H. intros k _. replace (_ - _) with 0 by ring. rewrite Rabs_R0. lra.
Qed.
