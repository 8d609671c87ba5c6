(** C114, C115: every interpolated value depends on its own column or its own horizontal slice and nothing else. *)
From Coq Require Import Reals List Bool Arith ZArith Lra Lia String Permutation.
From Verif Require Import PyBase PyFacts Num NumFacts Arr ArrFacts XrFacts Hybrid HybridFacts Interp1d InterpHyb InterpHybFacts InterpApi InterpSigma InterpSigmaFacts InterpMulti ColumnLocal MultiLocal.
Import ListNotations.

(** C114.  Two calls of interp_hybrid_to_pressure with the same requested levels, on any two datasets (any shapes, any
    order of the dimensions, any chunking, any number type): wherever the two columns (data, surface pressure, hybrid
    coefficients, and the surface fields when extrapolating) are equal, so are the values returned, missing values
    included.  [ihp_wf]: InterpHybFacts.v; [extrap_labels]: ColumnLocal.v. *)
Theorem C114_columns_independent :
  forall (T : Type) (N : Num T) data ps hyam hybm l lb ax n data' ps' hyam' hybm' l' lb' ax' levels p0 a a' m out out',
  ihp_wf data ps hyam hybm l lb ax n -> ihp_wf data' ps' hyam' hybm' l' lb' ax' n ->
  levels <> [] -> (2 <= n)%nat -> args_ok a l m -> args_ok a' l' m -> chunks_ok a (shp (dat data)) -> chunks_ok a' (shp (dat data')) ->
  a_extrapolate a' = a_extrapolate a -> a_variable a' = a_variable a ->
  extrap_labels data hyam hybm l lb a -> extrap_labels data' hyam' hybm' l' lb' a' ->
  (a_extrapolate a = true -> index_labels hyam' l' = index_labels hyam l) ->
  (forall k, (k < n)%nat -> get (dat hyam') [k] = get (dat hyam) [k] /\ get (dat hybm') [k] = get (dat hybm) [k]) ->
  interp_hybrid_to_pressure (VDa data) (VDa ps) (VDa hyam) (VDa hybm) levels p0 a = Ok out ->
  interp_hybrid_to_pressure (VDa data') (VDa ps') (VDa hyam') (VDa hybm') levels p0 a' = Ok out' ->
  forall i i', inb (shp (dat out)) i -> inb (shp (dat out')) i' -> nth ax' i' 0%nat = nth ax i 0%nat ->
    getn ps' (env_of (dims data') i') = getn ps (env_of (dims data) i) ->
    (forall k, (k < n)%nat -> get (dat data') (upd i' ax' k) = get (dat data) (upd i ax k)) ->
    (a_extrapolate a = true -> (forall L, index_labels hyam l = Some L -> List.length L = n) /\
       (a_variable a = Some "other"%string \/ (exists t t' phi phi', a_t_bot a = Some t /\ a_t_bot a' = Some t' /\ a_phi_sfc a = Some phi /\ a_phi_sfc a' = Some phi' /\
          getn t' (env_of (dims out') i') = getn t (env_of (dims out) i) /\ getn phi' (env_of (dims out') i') = getn phi (env_of (dims out) i)))) ->
    get (dat out') i' = get (dat out) i.
Proof. exact @c114_lemma. Qed.
Print Assumptions C114_columns_independent.

(** C114.  The same for interp_sigma_to_hybrid. *)
Theorem C114_sigma_columns_independent :
  forall (T : Type) (N : Num T) (data ps hyam hybm : da T) sig l h ax n nh data' ps' hyam' hybm' l' h' ax' p0 lev_dim cf_name lev_dim' cf_name' m out out',
  sig_wf data ps hyam hybm sig l h ax n nh -> sig_wf data' ps' hyam' hybm' sig l' h' ax' n nh ->
  lev_dim = Some l \/ (lev_dim = None /\ cf_name = Some l) -> lev_dim' = Some l' \/ (lev_dim' = None /\ cf_name' = Some l') ->
  (2 <= n)%nat -> (0 < nh)%nat ->
  (forall k, (k < nh)%nat -> get (dat hyam') [k] = get (dat hyam) [k] /\ get (dat hybm') [k] = get (dat hybm) [k]) ->
  interp_sigma_to_hybrid data sig ps hyam hybm p0 lev_dim cf_name (meth_name m) = Ok out ->
  interp_sigma_to_hybrid data' sig ps' hyam' hybm' p0 lev_dim' cf_name' (meth_name m) = Ok out' ->
  forall i i', inb (shp (dat out)) i -> inb (shp (dat out')) i' -> nth ax' i' 0%nat = nth ax i 0%nat ->
    getn ps' (env_of (dims data') i') = getn ps (env_of (dims data) i) ->
    (forall k, (k < n)%nat -> get (dat data') (upd i' ax' k) = get (dat data) (upd i ax k)) ->
    get (dat out') i' = get (dat out) i.
Proof. exact @c114_sigma. Qed.
Print Assumptions C114_sigma_columns_independent.

(** C115.  Two calls of interp_multidim on the same grid of longitudes and latitudes, with any target lists and any leading
    dimensions: at equal target points, and where the two horizontal slices are equal, the values are equal.  [on_grid d s ys xs]
    (MultiLocal.v): the last two dimensions of d are labelled ys and xs, s are the sizes of the leading ones. *)
Theorem C115_targets_and_slices_independent :
  forall (T : Type) (N : Num T) md cyclic missing fill (d d' : da T) s s' ys xs yo xo yo' xo' la lo la' lo' out out',
  on_grid d s ys xs -> on_grid d' s' ys xs ->
  interp_multidim md (VDa d) yo xo la lo cyclic missing fill = Ok out ->
  interp_multidim md (VDa d') yo' xo' la' lo' cyclic missing fill = Ok out' ->
  forall q q' a b a' b', List.length q = List.length s -> List.length q' = List.length s' ->
    nth a' yo' nnan = nth a yo nnan -> nth b' xo' nnan = nth b xo nnan ->
    (forall k c, (k < List.length ys)%nat -> (c < List.length xs)%nat -> get (dat d') (q' ++ [k; c]) = get (dat d) (q ++ [k; c])) ->
    get (dat out') (q' ++ [a'; b']) = get (dat out) (q ++ [a; b]).
Proof. exact @c115_lemma. Qed.
Print Assumptions C115_targets_and_slices_independent.

(** Cases: a field (x, lev) of two columns, the second of them with a missing value, and that column alone. *)
Definition lx : da fl := mkDa ["x"; "lev"]%string (mkArr [2; 2]%nat (fun i => match i with [O; k] => Fin (INR k) | [_; O] => Fin 7 | _ => NaN end)) [] [] None.
Definition lx_ps : da fl := mkDa ["x"]%string (mkArr [2]%nat (fun i => Fin (INR (900 + nth 0 i 0)%nat))) [] [] None.
Definition lc : da fl := mkDa ["lev"]%string (mkArr [2]%nat (fun i => match i with [O] => Fin 7 | _ => NaN end)) [] [] None.
Definition lc_ps : da fl := mkDa [] (mkArr [] (fun _ => Fin (INR 901))) [] [] None.
Definition l_hy : da fl := mkDa ["lev"]%string (mkArr [2]%nat (fun i => Fin (INR (1 + nth 0 i 0)%nat))) [] [] None.
Definition l_args : ihp_args fl := mkIhp "linear" (Some "lev"%string) false None None None None None false true.

Example C114_example : exists out out',
  interp_hybrid_to_pressure (VDa lx) (VDa lx_ps) (VDa l_hy) (VDa l_hy) [Fin 1000; Fin 1500] (Fin 100) l_args = Ok out /\
  interp_hybrid_to_pressure (VDa lc) (VDa lc_ps) (VDa l_hy) (VDa l_hy) [Fin 1000; Fin 1500] (Fin 100) l_args = Ok out' /\
  forall j, (j < 2)%nat -> get (dat out') [j] = get (dat out) [1; j]%nat.
Proof.
  assert (W : ihp_wf lx lx_ps l_hy l_hy "lev" "lev" 1%nat 2%nat).
  { constructor; try reflexivity; auto; try (split; [reflexivity|]; repeat constructor; cbn; intuition discriminate); try exact I.
    - repeat constructor; cbn; lia.
    - apply perm_swap.
    - intros d [<-|[]]. reflexivity.
    - intros c [].
    - left. cbn. intuition discriminate.
    - intros c []. }
  assert (W' : ihp_wf lc lc_ps l_hy l_hy "lev" "lev" 0%nat 2%nat).
  { constructor; try reflexivity; auto; try (split; [reflexivity|]; repeat constructor; cbn; intuition discriminate); try exact I.
    - repeat constructor; cbn; lia.
    - intros d [].
    - intros c [].
    - left. cbn. intuition discriminate.
    - intros c []. }
  assert (A : args_ok l_args "lev" MLinear) by (constructor; cbn; auto; discriminate).
  assert (L : [Fin 1000; Fin 1500] <> []) by discriminate.
  destruct (ihp_core _ _ _ _ _ _ _ _ [Fin 1000; Fin 1500] (Fin 100) l_args MLinear W L ltac:(lia) eq_refl) as (p1 & o1 & _ & _ & _ & _ & _ & _ & S1 & _ & _ & _ & _ & E1).
  destruct (ihp_core _ _ _ _ _ _ _ _ [Fin 1000; Fin 1500] (Fin 100) l_args MLinear W' L ltac:(lia) eq_refl) as (p2 & o2 & _ & _ & _ & _ & _ & _ & S2 & _ & _ & _ & _ & E2).
  specialize (E1 l_args eq_refl eq_refl eq_refl). specialize (E2 l_args eq_refl eq_refl eq_refl). cbn [a_extrapolate l_args] in E1, E2.
  rewrite <- (call_unfold _ _ _ _ _ _ _ _ _ A) in E1. rewrite <- (call_unfold _ _ _ _ _ _ _ _ _ A) in E2.
  exists o1, o2. split; [exact E1|]. split; [exact E2|]. intros j Hj.
  apply (C114_columns_independent _ _ lx lx_ps l_hy l_hy "lev" "lev" 1%nat 2%nat lc lc_ps l_hy l_hy "lev" "lev" 0%nat [Fin 1000; Fin 1500] (Fin 100) l_args l_args MLinear o1 o2); auto; try discriminate; try reflexivity.
  - rewrite S1. cbn. repeat (apply Forall2_cons; [lia|]). apply Forall2_nil.
  - rewrite S2. cbn. repeat (apply Forall2_cons; [lia|]). apply Forall2_nil.
Qed.

(** two time slices of a 2 x 2 grid, the second with a missing corner, and that slice alone, asked for one of the targets *)
Definition lg_coords : list (string * coordv fl) :=
  [("lat"%string, mkCoord ["lat"%string] (vec NaN [Fin 0; Fin 10])); ("lon"%string, mkCoord ["lon"%string] (vec NaN [Fin 0; Fin 20]))].
Definition lg3 : da fl := mkDa ["time"; "lat"; "lon"]%string (mkArr [2; 2; 2]%nat (fun i => match i with [O; k; _] => Fin (INR k) | [_; O; O] => NaN | _ => Fin 5 end)) lg_coords [] None.
Definition lg2 : da fl := mkDa ["lat"; "lon"]%string (mkArr [2; 2]%nat (fun i => match i with [O; O] => NaN | _ => Fin 5 end)) lg_coords [] None.
Example C115_example md missing fill : exists out out',
  interp_multidim md (VDa lg3) [Fin 3; Fin 10] [Fin 7; Fin 8] None None false missing fill = Ok out /\
  interp_multidim md (VDa lg2) [Fin 10] [Fin 8; Fin 7] None None false missing fill = Ok out' /\
  get (dat out') [0; 1]%nat = get (dat out) [1; 1; 0]%nat.
Proof.
  do 2 eexists. split; [destruct missing; reflexivity|]. split; [destruct missing; reflexivity|].
  match goal with |- get (dat ?o') _ = get (dat ?o) _ =>
    apply (C115_targets_and_slices_independent _ _ md false missing fill lg3 lg2 [2%nat] [] [Fin 0; Fin 10] [Fin 0; Fin 20] [Fin 3; Fin 10] [Fin 7; Fin 8] [Fin 10] [Fin 8; Fin 7] None None None None o o')
      with (q := [1%nat]) (q' := []) (a := 1%nat) (b := 0%nat) (a' := 0%nat) (b' := 1%nat) end; auto; try (destruct missing; reflexivity).
  - constructor; [|reflexivity]. exists ["time"%string], "lat"%string, "lon"%string. repeat split; discriminate.
  - constructor; [|reflexivity]. exists [], "lat"%string, "lon"%string. repeat split; discriminate.
Qed.
