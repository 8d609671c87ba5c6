(** C12-C21: interp_hybrid_to_pressure. *)
From Coq Require Import Reals List Bool Arith ZArith Lra Lia String Permutation.
From Verif Require Import PyBase PyFacts Num NumFacts Arr ArrFacts XrFacts Spec Hybrid HybridFacts Interp1d Interp1dFacts InterpHyb ChunkFacts
  InterpHybFacts InterpColumn InterpApi InterpProps ExtrapFacts InterpExtrap InterpFinal.
Import ListNotations.
Local Open Scope R_scope.

(** Throughout, [hyb_call] (InterpProps.v) says: data has at least two levels on axis [ax] named [l];
    ps has data's other dimensions, in any order, with the same sizes; hyam and hybm hold the real
    coefficients A and B; arguments pass the checks; the chunking, if any, is a chunking of data.
    [call_satisfies .. P] (InterpFinal.v): the call succeeds, the level axis is replaced by one of
    the requested size, and [P p v x y] holds at each output position where ps is finite and the
    column's pressures are distinct (for the log method positive too): p the column's pressures,
    v its data, x the requested level, y the value returned. *)

(** C12 *)
Theorem C12_interp_reproduces_model_levels :
  forall data ps hyam hybm l lb ax n A B levels p0 a m,
  hyb_call data ps hyam hybm l lb ax n A B levels a m -> a_extrapolate a = false -> one_direction levels ->
  call_satisfies data ps hyam hybm ax n A B levels p0 a m
    (fun p v x y => forall V k, (forall j, (j < n)%nat -> v j = Fin (V j)) -> (k < n)%nat -> x = p k -> y = Fin (V k)).
Proof. exact c12_lemma. Qed.
Print Assumptions C12_interp_reproduces_model_levels.

(** C13 *)
Theorem C13_interp_between_neighbours :
  forall data ps hyam hybm l lb ax n A B levels p0 a m,
  hyb_call data ps hyam hybm l lb ax n A B levels a m -> a_extrapolate a = false -> one_direction levels ->
  call_satisfies data ps hyam hybm ax n A B levels p0 a m
    (fun p v x y => ~ out_of_range p n x ->
       exists i j, neighbours p n i j /\ p i <= x <= p j /\
         forall vi vj, v i = Fin vi -> v j = Fin vj ->
           exists r, y = Fin r /\ Rmin vi vj <= r <= Rmax vi vj).
Proof. exact c13_lemma. Qed.
Print Assumptions C13_interp_between_neighbours.

(** C14 *)
Theorem C14_interp_nan_iff_out_of_range :
  forall data ps hyam hybm l lb ax n A B levels p0 a m,
  hyb_call data ps hyam hybm l lb ax n A B levels a m -> a_extrapolate a = false -> one_direction levels ->
  call_satisfies data ps hyam hybm ax n A B levels p0 a m
    (fun p v x y => (out_of_range p n x -> y = NaN) /\
       ((forall j, (j < n)%nat -> finite (v j)) -> y = NaN -> out_of_range p n x)).
Proof. exact c14_lemma. Qed.
Print Assumptions C14_interp_nan_iff_out_of_range.

(** C15 ([vcoord m p] is p for the linear method and ln p for the log method) *)
Theorem C15_interp_exact_on_linear_profiles :
  forall data ps hyam hybm l lb ax n A B levels p0 a m,
  hyb_call data ps hyam hybm l lb ax n A B levels a m -> a_extrapolate a = false -> one_direction levels ->
  call_satisfies data ps hyam hybm ax n A B levels p0 a m
    (fun p v x y => forall c0 c1, (forall k, (k < n)%nat -> v k = Fin (c0 + c1 * vcoord m (p k))) ->
       ~ out_of_range p n x -> y = Fin (c0 + c1 * vcoord m x)).
Proof. exact c15_lemma. Qed.
Print Assumptions C15_interp_exact_on_linear_profiles.

(** C16: any number type; the same exception, or equal labelled arrays *)
Theorem C16_interp_chunk_independent :
  forall (T : Type) (N : Num T) (data ps hyam hybm : da T) l lb ax n levels p0 a a' m,
  ihp_wf data ps hyam hybm l lb ax n -> args_ok a l m ->
  a_method a' = a_method a -> a_lev_dim a' = a_lev_dim a -> a_extrapolate a' = a_extrapolate a ->
  a_variable a' = a_variable a -> a_t_bot a' = a_t_bot a -> a_phi_sfc a' = a_phi_sfc a -> cf_name a' = cf_name a ->
  chunks_ok a (shp (dat data)) -> chunks_ok a' (shp (dat data)) ->
  same_outcome (interp_hybrid_to_pressure (VDa data) (VDa ps) (VDa hyam) (VDa hybm) levels p0 a)
               (interp_hybrid_to_pressure (VDa data) (VDa ps) (VDa hyam) (VDa hybm) levels p0 a').
Proof. exact @c16_lemma. Qed.
Print Assumptions C16_interp_chunk_independent.

(** C17: levels listed in one direction *)
Theorem C17_interp_levels_independent :
  forall data ps hyam hybm l lb ax n A B levels p0 a m,
  hyb_call data ps hyam hybm l lb ax n A B levels a m -> a_extrapolate a = false -> one_direction levels ->
  exists out, interp_hybrid_to_pressure (VDa data) (VDa ps) (VDa hyam) (VDa hybm) (map Fin levels) (Fin p0) a = Ok out /\
    forall j, (j < List.length levels)%nat ->
    exists out1, interp_hybrid_to_pressure (VDa data) (VDa ps) (VDa hyam) (VDa hybm) [Fin (nth j levels 0)] (Fin p0) a = Ok out1 /\
      forall i s, inb (shp (dat out)) i -> nth ax i 0%nat = j -> getn ps (env_of (dims data) i) = Fin s ->
      let p := hyb_pressure A B p0 s in
      distinct_levels p n -> (m = MLog -> (forall k, (k < n)%nat -> 0 < p k) /\ Forall (Rlt 0) levels) ->
      get (dat out) i = get (dat out1) (upd i ax 0%nat).
Proof. exact c17_lemma. Qed.
Print Assumptions C17_interp_levels_independent.

(** C17, any list: position j holds the value for the j-th entry of the list sorted ascending
    (descending if the last entry is below the first), not for levels[j] *)
Theorem C17_interp_serves_levels_sorted :
  forall data ps hyam hybm l lb ax n A B levels p0 a m,
  hyb_call data ps hyam hybm l lb ax n A B levels a m -> a_extrapolate a = false ->
  exists out served, interp_hybrid_to_pressure (VDa data) (VDa ps) (VDa hyam) (VDa hybm) (map Fin levels) (Fin p0) a = Ok out /\
    served_order levels served /\
    shp (dat out) = upd (shp (dat data)) ax (List.length levels) /\
    in_every_column data ps A B p0 ax n m served out (fun p v x y => column_value (vcoord m) p v n x y).
Proof. exact c17_any. Qed.
Print Assumptions C17_interp_serves_levels_sorted.

(** C18 *)
Theorem C18_extrapolation_only_below_lowest_level :
  forall data ps hyam hybm l lb ax n kb A B levels p0 a m,
  hyb_call data ps hyam hybm l lb ax n A B levels a m -> a_extrapolate a = true ->
  bottom_level hyam hybm l lb n kb ->
  NoDup (map fst (coords data)) -> slookup l (coords data) <> None ->
  ~ In "plev"%string (map fst (coords data)) \/ l = "plev"%string -> labels_agree ps data = true ->
  (forall F, a_t_bot a = Some F \/ a_phi_sfc a = Some F -> surface_field F data l) ->
  exists out0 out,
    interp_hybrid_to_pressure (VDa data) (VDa ps) (VDa hyam) (VDa hybm) (map Fin levels) (Fin p0)
      (mkIhp (a_method a) (a_lev_dim a) false (a_variable a) (a_t_bot a) (a_phi_sfc a) (cf_name a) (chunks a) (other_dask a) (mb_ok a)) = Ok out0 /\
    interp_hybrid_to_pressure (VDa data) (VDa ps) (VDa hyam) (VDa hybm) (map Fin levels) (Fin p0) a = Ok out /\
    dims out = dims out0 /\ shp (dat out) = shp (dat out0) /\ coords out = coords out0 /\
    shp (dat out) = upd (shp (dat data)) ax (List.length levels) /\
    forall i s, inb (shp (dat out)) i -> getn ps (env_of (dims data) i) = Fin s ->
      let psfc := hyb_pressure A B p0 s kb in
      let x := nth (nth ax i 0%nat) levels 0 in
      let here (F : da fl) := getn F (env_of (dims data) i) in
      (x <= psfc -> get (dat out) i = get (dat out0) i) /\
      (psfc < x ->
         (a_variable a = Some "other"%string -> get (dat out) i = get (dat data) (upd i ax kb)) /\
         (forall t phi tb ph, a_t_bot a = Some t -> a_phi_sfc a = Some phi -> here t = Fin tb -> here phi = Fin ph ->
            0 < s -> 0 < psfc ->
            (a_variable a = Some "temperature"%string -> get (dat out) i = Fin (ec_temperature tb x psfc s ph)) /\
            (a_variable a = Some "geopotential"%string -> get (dat out) i = Fin (ec_height tb x psfc s ph)))).
Proof. exact c18_lemma. Qed.
Print Assumptions C18_extrapolation_only_below_lowest_level.

(** C19 ([ec_temperature] and its parts are in Spec.v) *)
Theorem C19_temperature_extrapolation :
  forall tb lev pl ps phi, 0 < lev -> 0 < ps -> pl <> 0 ->
  temp_extrapolate (Fin tb) (Fin lev) (Fin pl) (Fin ps) (Fin phi) = Fin (ec_temperature tb lev pl ps phi).
Proof. exact temp_extrapolate_spec. Qed.
Print Assumptions C19_temperature_extrapolation.
Theorem C19_temperature_at_the_surface :
  forall tb pl ps phi, 0 < ps -> pl <> 0 ->
  temp_extrapolate (Fin tb) (Fin ps) (Fin pl) (Fin ps) (Fin phi) = Fin (ec_tstar tb pl ps).
Proof. exact temp_extrapolate_surface. Qed.
Print Assumptions C19_temperature_at_the_surface.

(** the three terrain regimes occur: sea level, 2250 m, 3000 m *)
Example C19_example :
  ec_y 280 0 1010 1000 = ec_alpha * ln (1010 / 1000) /\
  (ec_plateau 280 2250 = 2 / 1000 * (250 * (280 + lapse * 2250) + 250 * Rmin 298 (280 + lapse * 2250))) /\
  ec_plateau 300 3000 = 298.
Proof.
  unfold ec_y, ec_plateau, lapse, grav. split; [|split].
  - destruct (Rlt_dec (0 / 9.80616) 2000) as [_|H]; [reflexivity|exfalso; apply H; unfold Rdiv; lra].
  - destruct (Rlt_dec 2500 2250) as [H|_]; [lra|]. cbv zeta. lra.
  - destruct (Rlt_dec 2500 3000) as [_|H]; [|lra]. cbv zeta. apply Rmin_left. lra.
Qed.

(** C20 *)
Theorem C20_geopotential_extrapolation :
  forall tb lev pl ps phi, 0 < lev -> 0 < ps -> pl <> 0 ->
  geo_height_extrapolate (Fin tb) (Fin lev) (Fin pl) (Fin ps) (Fin phi) = Fin (ec_height tb lev pl ps phi).
Proof. exact geo_height_extrapolate_spec. Qed.
Print Assumptions C20_geopotential_extrapolation.
Theorem C20_geopotential_at_and_below_the_surface :
  forall tb pl ps phi, 0 < ps -> 0 < pl ->
  geo_height_extrapolate (Fin tb) (Fin ps) (Fin pl) (Fin ps) (Fin phi) = Fin (phi / grav) /\
  forall lev, 0 < tb -> ps < lev ->
    exists h, geo_height_extrapolate (Fin tb) (Fin lev) (Fin pl) (Fin ps) (Fin phi) = Fin h /\ h < phi / grav.
Proof. exact geo_height_surface_below. Qed.
Print Assumptions C20_geopotential_at_and_below_the_surface.

(** C21: any number type, whatever the arrays *)
Theorem C21_interp_type_error :
  forall (T : Type) (N : Num T) (data ps hyam hybm : val T) levels p0 a,
  ~ same_class data ps hyam hybm ->
  interp_hybrid_to_pressure data ps hyam hybm levels p0 a = Err TypeError.
Proof. exact @c21_type. Qed.
Print Assumptions C21_interp_type_error.
Theorem C21_interp_value_error :
  forall (T : Type) (N : Num T) (data ps hyam hybm : val T) levels p0 a,
  same_class data ps hyam hybm -> bad_args a ->
  interp_hybrid_to_pressure data ps hyam hybm levels p0 a = Err ValueError.
Proof. exact @c21_value. Qed.
Print Assumptions C21_interp_value_error.
(** nothing else is rejected by the checks: well-formed data with arguments that are not bad *)
Theorem C21_interp_accepts_the_rest :
  forall data ps hyam hybm lb ax n A B levels p0 a,
  ~ bad_args a -> a_extrapolate a = false ->
  (forall l, a_lev_dim a = Some l \/ (a_lev_dim a = None /\ cf_name a = Some l) ->
     ihp_wf data ps hyam hybm l lb ax n) ->
  (2 <= n)%nat -> levels <> [] -> chunks_ok a (shp (dat data)) ->
  (forall k, (k < n)%nat -> get (dat hyam) [k] = Fin (A k)) ->
  (forall k, (k < n)%nat -> get (dat hybm) [k] = Fin (B k)) ->
  exists out, interp_hybrid_to_pressure (VDa data) (VDa ps) (VDa hyam) (VDa hybm) (map Fin levels) (Fin p0) a = Ok out.
Proof. exact c21_accept. Qed.
Print Assumptions C21_interp_accepts_the_rest.

(** ** a call meeting the hypotheses: (time, lev, lat) data, ps stored (lat, time), three hybrid
       levels labelled 10, 20, 30, pressures 100, 50 + s/2, s with s in 900..911 *)
Definition exA (k : nat) : R := nth k [1/10; 1/20; 0] 0.
Definition exB (k : nat) : R := nth k [0; 1/2; 1] 0.
Definition ex_lev : coordv fl := mkCoord ["lev"%string] (mkArr [3]%nat (fun i => Fin (INR (10 + 10 * hd 0%nat i)))).
Definition ex_data : da fl :=
  mkDa ["time"; "lev"; "lat"]%string
    (mkArr [2; 3; 2]%nat (fun i => Fin (INR (hd 0%nat i + 7 * nth 1 i 0%nat + nth 2 i 0%nat)))) [("lev"%string, ex_lev)] [] None.
Definition ex_psfc : da fl :=
  mkDa ["lat"; "time"]%string (mkArr [2; 2]%nat (fun i => Fin (900 + INR (10 * hd 0%nat i + nth 1 i 0%nat)))) [] [] None.
Definition ex_coef (f : nat -> R) : da fl :=
  mkDa ["lev"%string] (mkArr [3]%nat (fun i => Fin (f (hd 0%nat i)))) [("lev"%string, ex_lev)] [] None.
Definition ex_args (method : string) (ext : bool) : ihp_args fl :=
  mkIhp method (Some "lev"%string) ext (Some "temperature"%string) (Some ex_psfc) (Some ex_psfc) None
    (Some [[1; 1]; [2; 1]; [2]]%nat) false false.
Definition ex_levels : list R := [200; 700; 1000].

Example C12_to_C18_example_call m ext :
  hyb_call ex_data ex_psfc (ex_coef exA) (ex_coef exB) "lev" "lev" 1%nat 3%nat exA exB ex_levels
    (ex_args (meth_name m) ext) m /\ one_direction ex_levels.
Proof.
  split.
  - constructor; try (intros; reflexivity); try lia; try discriminate.
    + constructor; try reflexivity; cbn.
      * split; [reflexivity|]. repeat constructor; cbn; intuition discriminate.
      * repeat constructor; lia.
      * split; [reflexivity|]. repeat constructor; cbn; intuition discriminate.
      * change (Permutation ["lev"; "lat"; "time"]%string ["time"; "lev"; "lat"]%string).
        apply Permutation_trans with ["lev"; "time"; "lat"]%string; [apply perm_skip, perm_swap|apply perm_swap].
      * intros d [<-|[<-|[]]]; reflexivity.
      * intros c [<-|[]]. apply incl_refl.
      * congruence.
      * rewrite !reqb_true by reflexivity. reflexivity.
      * left. intuition discriminate.
      * intros c [<-|[]]; cbn. congruence.
    + constructor; cbn; auto.
      * right. right. split; auto. split; discriminate.
      * discriminate.
    + cbn. repeat constructor; lia.
  - left. intros i j Hij. cbn in Hij. unfold ex_levels.
    do 3 (destruct i; [do 3 (destruct j; [cbn; try lia; lra|]); lia|]). lia.
Qed.
(** and its columns have distinct positive pressures; the extrapolation hypotheses hold *)
Example C12_to_C18_example_columns i j : (i < 2)%nat -> (j < 2)%nat ->
  exists s, getn ex_psfc (env_of (dims ex_data) [i; 0%nat; j]) = Fin s /\
    distinct_levels (hyb_pressure exA exB 1000 s) 3 /\ (forall k, (k < 3)%nat -> 0 < hyb_pressure exA exB 1000 s k).
Proof.
  intros Hi Hj. exists (900 + INR (10 * j + i)). split; [reflexivity|].
  assert (Hs : 900 <= 900 + INR (10 * j + i)) by (pose proof (pos_INR (10 * j + i)); lra).
  set (s := 900 + INR (10 * j + i)) in *. clearbody s. unfold hyb_pressure, exA, exB. split.
  - intros a b Ha Hb. do 3 (destruct a; [do 3 (destruct b; [cbn; intros E; try reflexivity; exfalso; lra|]); lia|]). lia.
  - intros k Hk. do 3 (destruct k; [cbn; lra|]). lia.
Qed.
Example C18_example :
  bottom_level (ex_coef exA) (ex_coef exB) "lev" "lev" 3 2 /\ labels_agree ex_psfc ex_data = true /\
  slookup "lev" (coords ex_data) <> None /\ surface_field ex_psfc ex_data "lev".
Proof.
  split; [|split; [reflexivity|split; [discriminate|]]].
  - split; [lia|]. left. exists (map (fun k => Fin (INR (10 + 10 * k))) (seq 0 3)), 30. split; [reflexivity|]. split; [reflexivity|].
    split; [cbn; f_equal; lra|]. intros k Hk. right. do 3 (destruct k; [eexists; split; [reflexivity|cbn; lra || (right; split; [lra|lia])]|]). lia.
  - split; [split; [reflexivity|repeat constructor; cbn; intuition discriminate]|]. split; [|reflexivity].
    intros d [<-|[<-|[]]]; cbn; intuition discriminate.
Qed.
(** labels 10, missing, 30, 20: the third level counts as the lowest *)
Example C18_missing_label_example : forall hybm l lb,
  let hyam := mkDa [l] (afull [4]%nat (Fin 0)) [(l, mkCoord [l] (vec NaN [Fin 10; NaN; Fin 30; Fin 20]))] [] None in
  bottom_level hyam hybm l lb 4 2.
Proof.
  intros hybm l lb hyam. split; [lia|]. left. exists [Fin 10; NaN; Fin 30; Fin 20], 30.
  split; [unfold index_labels; cbn; rewrite String.eqb_refl; cbn; rewrite String.eqb_refl; reflexivity|]. split; [reflexivity|]. split; [reflexivity|].
  intros k Hk. destruct k as [|[|[|[|k]]]]; [| | | |lia]; cbn; [right|left; reflexivity|right|right]; eexists; (split; [reflexivity|]); [left; lra| |left; lra].
  right. split; [lra|lia].
Qed.
Example C21_example :
  bad_args (mkIhp "linear" (Some "lev"%string) true (Some "geopotential"%string) (Some ex_psfc) None None None false false) /\
  ~ same_class (VDa ex_data) (VDa ex_psfc) (VDa ex_psfc) (VNd (dat ex_psfc)) /\
  ~ bad_args (mkIhp "log" None false None (None : option (da fl)) None (Some "lev"%string) None false false).
Proof.
  split; [eapply bad_missing_field; cbn; eauto|]. split.
  - intros [(?&?&?&?&?&?&?&?)|(?&?&?&?&?&?&?&?)]; discriminate.
  - intros [H1 H2|v H1 H2 H3|v H1 H2|H1 H2|H1 H2]; cbn in *; try discriminate. congruence.
Qed.

(** C17: an unsorted request comes back under the wrong labels: levels 1, 3, 2 of a profile with
    data equal to pressure; the value labelled 3 is 2 *)
Theorem C17_interp_unsorted_levels_refuted :
  exists data ps hyam hybm a out c,
    interp_hybrid_to_pressure (VDa data) (VDa ps) (VDa hyam) (VDa hybm) [Fin 1; Fin 3; Fin 2] (Fin 1) a = Ok out /\
    slookup "plev" (coords out) = Some c /\ get (cdat c) [1%nat] = Fin 3 /\
    get (dat out) [1%nat] = Fin 2 /\
    exists out1, interp_hybrid_to_pressure (VDa data) (VDa ps) (VDa hyam) (VDa hybm) [Fin 3] (Fin 1) a = Ok out1 /\
      get (dat out1) [0%nat] = Fin 3.
Proof. exact c17_refuted. Qed.
Print Assumptions C17_interp_unsorted_levels_refuted.
