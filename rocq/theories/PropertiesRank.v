(** C129: delta_pressure and the rank of the level array. *)
From Coq Require Import Reals List Bool Arith ZArith Lra Lia String.
From Verif Require Import PyBase PyFacts Num NumFacts Arr ArrFacts DeltaP DeltaPRank DeltaPRankFacts.
Import ListNotations.

(** C129.  One axis: the function C01-C06 are about. *)
Theorem C129_one_axis :
  forall (T : Type) (N : Num T) (lev : levels_nd T) s t n, shp (ln_arr lev) = [n] ->
  delta_pressure_any lev s t = delta_pressure (mkLevels (ln_da lev) (ravel (ln_arr lev)) (ln_attrs lev)) s t.
Proof. exact @one_axis. Qed.
Print Assumptions C129_one_axis.

(** C129.  Any other rank: no thickness is ever returned.  A call that succeeds got no surface cell and returns an array without cells. *)
Theorem C129_never_other_ranks :
  forall (T : Type) (N : Num T) (lev : levels_nd T) s t out, delta_pressure_any lev s t = Ok out ->
  List.length (shp (ln_arr lev)) = 1%nat \/ (exists a, s = SNd a /\ size (shp a) = 0%nat /\ size (shp (out_arr out)) = 0%nat).
Proof. exact @c129_only_one_axis. Qed.
Print Assumptions C129_never_other_ranks.

(** C129.  With a surface cell there is always an exception: ValueError if the levels are a table with two or more rows, TypeError only for
    a single level and an array of surface pressures. *)
Theorem C129_exception :
  forall (T : Type) (N : Num T) (lev : levels_nd T) s t a,
  List.length (shp (ln_arr lev)) <> 1%nat -> surf_arr s = Some a -> size (shp a) <> 0%nat ->
  exists e, delta_pressure_any lev s t = Err e /\
    ((2 <= List.length (shp (ln_arr lev)))%nat -> (2 <= hd 0%nat (shp (ln_arr lev)))%nat -> e = ValueError) /\
    (e = TypeError -> shp (ln_arr lev) = [] /\ forall x, s <> SScalar x).
Proof. exact @c129_exception. Qed.
Print Assumptions C129_exception.

Local Open Scope R_scope.
(** a single number, a one-row table and a two-row table of levels above a surface at 1000; the single number above an array *)
Example C129_example :
  delta_pressure_any (mkLevelsNd false (scalar (Fin 500)) []) (SScalar (Fin 1000)) None = Err IndexError /\
  delta_pressure_any (mkLevelsNd false (scalar (Fin 500)) []) (SNd (vec NaN [Fin 1000])) None = Err TypeError /\
  delta_pressure_any (mkLevelsNd false (mkArr [1; 2]%nat (fun i => Fin 500)) []) (SScalar (Fin 1000)) (Some (Fin 0)) = Err IndexError /\
  delta_pressure_any (mkLevelsNd true (mkArr [2; 1]%nat (fun i => Fin 500)) []) (SScalar (Fin 1000)) None = Err ValueError /\
  (exists out, delta_pressure_any (mkLevelsNd false (mkArr [2; 2]%nat (fun i => Fin 500)) []) (SNd (mkArr [0]%nat (fun _ => NaN))) None = Ok out).
Proof.
  assert (A : nlt (Fin 500) (ofZ 0) = false) by (cbn; apply rltb_false; cbn; lra).
  assert (B : ngt (Fin 500) (Fin 1000) = false) by (cbn; apply rltb_false; lra).
  assert (C : nlt (Fin 0) (ofZ 0) = false) by (cbn; apply rltb_false; cbn; lra).
  assert (D : ngt (Fin 0) (Fin 1000) = false) by (cbn; apply rltb_false; lra).
  assert (E : ngt (Fin 0) (Fin 500) = false) by (cbn; apply rltb_false; lra).
  assert (M0 : lev_min (ln_flat (mkLevelsNd false (scalar (Fin 500)) [])) = Ok (Fin 500)) by reflexivity.
  assert (S5 : forall n, nminl (Fin 500) (repeat (Fin 500) n) = Fin 500).
  { unfold nminl. induction n as [|n IH]; [reflexivity|]. cbn [repeat fold_left]. replace (nmin (Fin 500) (Fin 500)) with (Fin 500); [exact IH|].
    cbn. destruct (rleb 500 500); reflexivity. }
  unfold delta_pressure_any, delta_pressure1D_nd. split; [|split; [|split; [|split]]].
  - rewrite M0. cbn [bind ln_arr scalar shp]. rewrite A, B. reflexivity.
  - rewrite M0. reflexivity.
  - replace (lev_min _) with (Ok (Fin 500)) by (cbn -[nminl]; rewrite <- (S5 1%nat) at 1; reflexivity). cbn [bind]. rewrite E. cbn [bind ln_arr shp]. rewrite C, D. reflexivity.
  - replace (lev_min _) with (Ok (Fin 500)) by (cbn -[nminl]; rewrite <- (S5 1%nat) at 1; reflexivity). cbn [bind ln_arr shp]. rewrite A, B. reflexivity.
  - eexists. replace (lev_min _) with (Ok (Fin 500)) by (cbn -[nminl]; rewrite <- (S5 3%nat) at 1; reflexivity). reflexivity.
Qed.
