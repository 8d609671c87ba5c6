(** C109, C110: the order in which interp_hybrid_to_pressure receives the model levels, and the labels of the levels. *)
From Coq Require Import Reals List Bool Arith ZArith Lra Lia String Permutation.
From Verif Require Import PyBase PyFacts Num NumFacts Arr ArrFacts XrFacts Hybrid HybridFacts Spec Interp1d InterpHyb InterpHybFacts InterpApi InterpProps InterpFinal InterpExtrap LevelOrder.
Import ListNotations.
Local Open Scope R_scope.

(** C109.  Data and coefficients given with their levels in another order: the same labelled result. *)
Theorem C109_level_order_irrelevant :
  forall (data data' ps hyam hybm hyam' hybm' : da fl) l lb lb' ax n A B A' B' levels p0 a a' m sg,
  hyb_call data ps hyam hybm l lb ax n A B levels a m -> hyb_call data' ps hyam' hybm' l lb' ax n A' B' levels a' m ->
  a_extrapolate a = false -> a_extrapolate a' = false ->
  same_levels data data' l ax n sg ->
  (forall k, (k < n)%nat -> A' k = A (sg k) /\ B' k = B (sg k)) ->
  exists out out',
    interp_hybrid_to_pressure (VDa data) (VDa ps) (VDa hyam) (VDa hybm) (map Fin levels) (Fin p0) a = Ok out /\
    interp_hybrid_to_pressure (VDa data') (VDa ps) (VDa hyam') (VDa hybm') (map Fin levels) (Fin p0) a' = Ok out' /\
    dims out' = dims out /\ shp (dat out') = shp (dat out) /\ coords out' = coords out /\ attrs out' = attrs out /\ daname out' = daname out /\
    forall i s, inb (shp (dat out)) i -> getn ps (env_of (dims data) i) = Fin s ->
      let p := hyb_pressure A B p0 s in
      distinct_levels p n -> (m = MLog -> (forall k, (k < n)%nat -> 0 < p k) /\ Forall (Rlt 0) levels) ->
      get (dat out') i = get (dat out) i.
Proof. exact c109_lemma. Qed.
Print Assumptions C109_level_order_irrelevant.

(** C109 with extrapolation: the same, provided both calls take the same level for the lowest. *)
Theorem C109_level_order_irrelevant_extrapolating :
  forall (data data' ps hyam hybm hyam' hybm' : da fl) l lb lb' ax n kb kb' A B A' B' levels p0 a a' m sg,
  hyb_call data ps hyam hybm l lb ax n A B levels a m -> hyb_call data' ps hyam' hybm' l lb' ax n A' B' levels a' m ->
  a_extrapolate a = true -> a_extrapolate a' = true ->
  a_variable a' = a_variable a -> a_t_bot a' = a_t_bot a -> a_phi_sfc a' = a_phi_sfc a ->
  same_levels data data' l ax n sg ->
  (forall k, (k < n)%nat -> A' k = A (sg k) /\ B' k = B (sg k)) ->
  bottom_level hyam hybm l lb n kb -> bottom_level hyam' hybm' l lb' n kb' -> sg kb' = kb ->
  NoDup (map fst (coords data)) -> slookup l (coords data) <> None ->
  ~ In "plev"%string (map fst (coords data)) \/ l = "plev"%string -> labels_agree ps data = true -> labels_agree ps data' = true ->
  (forall F, a_t_bot a = Some F \/ a_phi_sfc a = Some F -> surface_field F data l /\ surface_field F data' l) ->
  exists out out',
    interp_hybrid_to_pressure (VDa data) (VDa ps) (VDa hyam) (VDa hybm) (map Fin levels) (Fin p0) a = Ok out /\
    interp_hybrid_to_pressure (VDa data') (VDa ps) (VDa hyam') (VDa hybm') (map Fin levels) (Fin p0) a' = Ok out' /\
    dims out' = dims out /\ shp (dat out') = shp (dat out) /\ coords out' = coords out /\
    forall i s, inb (shp (dat out)) i -> getn ps (env_of (dims data) i) = Fin s ->
      let p := hyb_pressure A B p0 s in
      distinct_levels p n -> (m = MLog -> (forall k, (k < n)%nat -> 0 < p k) /\ Forall (Rlt 0) levels) ->
      get (dat out') i = get (dat out) i.
Proof. exact c109_extrapolation. Qed.
Print Assumptions C109_level_order_irrelevant_extrapolating.

(** C109 fails without level labels on the coefficients: the level listed last counts as the lowest, and every requested
    pressure above its pressure gets its value.  With the bottom listed first that is the model top, and the whole column
    is filled with the value at the top. *)
Theorem C109_last_level_counts_as_lowest :
  forall (data ps hyam hybm : da fl) l lb ax kb A B levels p0 a m,
  hyb_call data ps hyam hybm l lb ax (S kb) A B levels a m -> a_extrapolate a = true -> a_variable a = Some "other"%string ->
  slookup l (coords hyam) = None -> slookup lb (coords hybm) = None ->
  NoDup (map fst (coords data)) -> slookup l (coords data) <> None ->
  ~ In "plev"%string (map fst (coords data)) \/ l = "plev"%string -> labels_agree ps data = true ->
  (forall F, a_t_bot a = Some F \/ a_phi_sfc a = Some F -> surface_field F data l) ->
  exists out,
    interp_hybrid_to_pressure (VDa data) (VDa ps) (VDa hyam) (VDa hybm) (map Fin levels) (Fin p0) a = Ok out /\
    shp (dat out) = upd (shp (dat data)) ax (List.length levels) /\
    forall i s, inb (shp (dat out)) i -> getn ps (env_of (dims data) i) = Fin s ->
      let p := hyb_pressure A B p0 s in
      p kb < nth (nth ax i 0%nat) levels 0 -> get (dat out) i = get (dat data) (upd i ax kb).
Proof. exact c109_unlabelled. Qed.
Print Assumptions C109_last_level_counts_as_lowest.

(** C110.  The labels of the data's level dimension have no influence: any number type, any arguments, successful or not. *)
Theorem C110_level_labels_ignored :
  forall (T : Type) (N : Num T) (data data' : da T) (ps hyam hybm : val T) levels p0 a l,
  a_lev_dim a = Some l \/ (a_lev_dim a = None /\ cf_name a = Some l) ->
  dims data' = dims data -> dat data' = dat data -> attrs data' = attrs data -> daname data' = daname data ->
  Forall2 (fun p q => fst p = fst q /\ (fst p <> l -> snd p = snd q)) (coords data) (coords data') ->
  interp_hybrid_to_pressure (VDa data') ps hyam hybm levels p0 a = interp_hybrid_to_pressure (VDa data) ps hyam hybm levels p0 a.
Proof. exact c110_lemma. Qed.
Print Assumptions C110_level_labels_ignored.

(** ** a column of two levels: pressures and values f, level labels g *)
Definition two (f : nat -> R) (g : nat -> R) : da fl :=
  mkDa ["lev"%string] (mkArr [2]%nat (fun i => Fin (f (hd 0%nat i)))) [("lev"%string, mkCoord ["lev"%string] (mkArr [2]%nat (fun i => Fin (g (hd 0%nat i)))))] [] None.
Definition two_bare (f : nat -> R) : da fl := mkDa ["lev"%string] (mkArr [2]%nat (fun i => Fin (f (hd 0%nat i)))) [] [] None.
Definition up (k : nat) : R := match k with O => 0 | _ => 10 end.
Definition zero (k : nat) : R := 0.
Definition flip (k : nat) : nat := match k with O => 1%nat | _ => O end.
Definition down (k : nat) : R := up (flip k).
Definition two_args ext : ihp_args fl := mkIhp "linear" (Some "lev"%string) ext (Some "other"%string) None None None None false false.


Lemma two_call v g f levels ext : levels <> [] ->
  hyb_call (two v g) ex_scalar (two_bare f) (two_bare zero) "lev" "lev" 0%nat 2%nat f zero levels (two_args ext) MLinear.
Proof.
  intros Hl. constructor; try (intros; reflexivity); try lia; auto.
  - constructor; try (intros; reflexivity); cbn.
    + split; [reflexivity|]. repeat constructor; cbn; intuition discriminate.
    + repeat constructor; lia.
    + split; [reflexivity|constructor].
    + intros d [].
    + intros c [].
    + left. intuition discriminate.
    + intros c [<-|[]]; cbn. congruence.
  - constructor; cbn; auto; congruence.
Qed.
Lemma two_call_labelled v g f h levels ext : levels <> [] ->
  hyb_call (two v g) ex_scalar (two f h) (two zero h) "lev" "lev" 0%nat 2%nat f zero levels (two_args ext) MLinear.
Proof.
  intros Hl. constructor; try (intros; reflexivity); try lia; auto.
  - constructor; try (intros; reflexivity); cbn.
    + split; [reflexivity|]. repeat constructor; cbn; intuition discriminate.
    + repeat constructor; lia.
    + split; [reflexivity|constructor].
    + intros d [].
    + intros c [<-|[]]. apply incl_refl.
    + congruence.
    + rewrite !reqb_true by reflexivity. reflexivity.
    + left. intuition discriminate.
    + intros c [<-|[]]; cbn. congruence.
  - constructor; cbn; auto; congruence.
Qed.
Lemma two_same : same_levels (two up up) (two down down) "lev" 0 2 flip.
Proof.
  constructor; try reflexivity.
  - split; [|split]; unfold flip.
    + intros [|k] Hk; lia.
    + intros [|[|j]] [|[|k]] Hj Hk; lia || auto.
    + intros [|[|j]] Hj; [exists 1%nat|exists 0%nat|lia]; split; auto.
  - intros i Hi. pose proof (inb_length _ _ Hi) as L. destruct i as [|k [|k' i]]; try discriminate. reflexivity.
  - constructor; [split; [reflexivity|cbn; congruence]|constructor].
Qed.
Lemma two_distinct f s : f 0%nat <> f 1%nat -> distinct_levels (hyb_pressure f zero 1 s) 2.
Proof. intros N. unfold hyb_pressure, zero. intros [|[|j]] [|[|k]] Hj Hk E; try lia; exfalso; apply N; lra. Qed.

(** without extrapolation the two orders agree on this column *)
Example C109_example : exists out out',
  interp_hybrid_to_pressure (VDa (two up up)) (VDa ex_scalar) (VDa (two_bare up)) (VDa (two_bare zero)) [Fin 5] (Fin 1) (two_args false) = Ok out /\
  interp_hybrid_to_pressure (VDa (two down down)) (VDa ex_scalar) (VDa (two_bare down)) (VDa (two_bare zero)) [Fin 5] (Fin 1) (two_args false) = Ok out' /\
  get (dat out') [0%nat] = get (dat out) [0%nat].
Proof.
  destruct (C109_level_order_irrelevant (two up up) (two down down) ex_scalar (two_bare up) (two_bare zero) (two_bare down) (two_bare zero)
    "lev" "lev" "lev" 0%nat 2%nat up zero down zero [5] 1 (two_args false) (two_args false) MLinear flip
    (two_call up up up [5] false ltac:(discriminate)) (two_call down down down [5] false ltac:(discriminate)) eq_refl eq_refl two_same ltac:(auto)) as (out & out' & E & E' & D & Sh & _ & _ & _ & G).
  exists out, out'. split; [exact E|]. split; [exact E'|]. apply (G [0%nat] 1); auto.
  - destruct (c17_any _ _ _ _ _ _ _ _ _ _ _ 1 _ _ (two_call up up up [5] false ltac:(discriminate)) eq_refl) as (o & sv & Eo & _ & So & _).
    assert (o = out) by congruence. subst o. rewrite So. repeat constructor.
  - apply two_distinct. cbn. lra.
  - discriminate.
Qed.

(** with labels on the coefficients also with extrapolation, here below the lowest level *)
Example C109_example_extrapolating : exists out out',
  interp_hybrid_to_pressure (VDa (two up up)) (VDa ex_scalar) (VDa (two up up)) (VDa (two zero up)) [Fin 5; Fin 20] (Fin 1) (two_args true) = Ok out /\
  interp_hybrid_to_pressure (VDa (two down down)) (VDa ex_scalar) (VDa (two down down)) (VDa (two zero down)) [Fin 5; Fin 20] (Fin 1) (two_args true) = Ok out' /\
  shp (dat out') = shp (dat out).
Proof.
  destruct (C109_level_order_irrelevant_extrapolating (two up up) (two down down) ex_scalar (two up up) (two zero up) (two down down) (two zero down)
    "lev" "lev" "lev" 0%nat 2%nat 1%nat 0%nat up zero down zero [5; 20] 1 (two_args true) (two_args true) MLinear flip
    (two_call_labelled up up up up [5; 20] true ltac:(discriminate)) (two_call_labelled down down down down [5; 20] true ltac:(discriminate)) eq_refl eq_refl eq_refl eq_refl eq_refl two_same ltac:(auto))
    as (out & out' & E & E' & D & Sh & _ & G); try reflexivity.
  - split; [lia|]. left. exists [Fin 0; Fin 10], 10. do 3 (split; [reflexivity|]). intros [|[|k]] Hk; [| |lia]; right; eexists; (split; [reflexivity|]); [left; lra|right; split; auto].
  - split; [lia|]. left. exists [Fin 10; Fin 0], 10. do 3 (split; [reflexivity|]). intros [|[|k]] Hk; [| |lia]; right; eexists; (split; [reflexivity|]); [right; split; auto|left; lra].
  - repeat constructor; cbn; auto.
  - discriminate.
  - left. cbn. intuition discriminate.
  - cbn. intros F [Q|Q]; discriminate.
  - exists out, out'. split; [exact E|]. split; [exact E'|]. exact Sh.
Qed.

(** C109 refuted: with extrapolate=True and coefficients without labels, the same column listed from the bottom up gives
    another value at its lowest level, the value at its top. *)
Theorem C109_unlabelled_order_refuted :
  exists out out',
  interp_hybrid_to_pressure (VDa (two up up)) (VDa ex_scalar) (VDa (two_bare up)) (VDa (two_bare zero)) [Fin 10] (Fin 1) (two_args true) = Ok out /\
  interp_hybrid_to_pressure (VDa (two down down)) (VDa ex_scalar) (VDa (two_bare down)) (VDa (two_bare zero)) [Fin 10] (Fin 1) (two_args true) = Ok out' /\
  same_levels (two up up) (two down down) "lev" 0 2 flip /\
  get (dat out) [0%nat] = Fin 10 /\ get (dat out') [0%nat] = Fin 0.
Proof.
  assert (ND : forall g v, NoDup (map fst (coords (two v g)))) by (intros; repeat constructor; cbn; auto).
  destruct (C109_last_level_counts_as_lowest (two down down) ex_scalar (two_bare down) (two_bare zero) "lev" "lev" 0%nat 1%nat down zero [10] 1 (two_args true) MLinear
    (two_call down down down [10] true ltac:(discriminate)) eq_refl eq_refl eq_refl eq_refl (ND _ _) ltac:(discriminate) ltac:(left; cbn; intuition discriminate) eq_refl ltac:(cbn; intros F [Q|Q]; discriminate))
    as (out' & E' & So' & G').
  destruct (c18_core (two up up) ex_scalar (two_bare up) (two_bare zero) "lev" "lev" 0%nat 2%nat 1%nat up zero [10] 1 (two_args true) MLinear
    (two_call up up up [10] true ltac:(discriminate)) eq_refl ltac:(split; [lia|right; auto]) (ND _ _) ltac:(discriminate) ltac:(left; cbn; intuition discriminate) eq_refl ltac:(cbn; intros F [Q|Q]; discriminate))
    as (o0 & out & E0 & E & _ & Sh & _ & _ & So & G).
  destruct (c12_lemma _ _ _ _ _ _ _ _ _ _ _ 1 _ _ (no_extrap_call _ _ _ _ _ _ _ _ _ _ _ _ _ (two_call up up up [10] true ltac:(discriminate))) eq_refl
    ltac:(left; intros i j Hij; cbn in Hij; lia)) as (o1 & E1 & _ & S1 & G1).
  assert (o1 = o0) by (unfold the_call in E0; congruence). subst o1.
  exists out, out'. split; [exact E|]. split; [exact E'|]. split; [apply two_same|]. split.
  - destruct (G [0%nat] 1) as [Q _]; [rewrite Sh, So; repeat constructor|reflexivity|]. rewrite Q by (cbn; unfold hyb_pressure, zero, up; lra).
    specialize (G1 [0%nat] 1). rewrite S1 in G1. specialize (G1 ltac:(repeat constructor) eq_refl (two_distinct up 1 ltac:(cbn; lra)) ltac:(discriminate)).
    rewrite (G1 up 1%nat); [reflexivity| |lia|cbn; unfold hyb_pressure, zero, up; lra]. intros j Hj. reflexivity.
  - rewrite (G' [0%nat] 1); [reflexivity|rewrite So'; repeat constructor|reflexivity|]. cbn. unfold hyb_pressure, zero, down, up, flip. lra.
Qed.
Print Assumptions C109_unlabelled_order_refuted.

(** C110 refuted: level 10 of the data lies at pressure 10 according to the labels of the coefficients, but the value returned
    at pressure 10 is the one of level 0. *)
Theorem C110_matching_by_label_refuted :
  exists out,
  interp_hybrid_to_pressure (VDa (two up up)) (VDa ex_scalar) (VDa (two down down)) (VDa (two zero down)) [Fin 10] (Fin 1) (two_args false) = Ok out /\
  index_labels (two up up) "lev" = Some [Fin 0; Fin 10] /\ get (dat (two up up)) [1%nat] = Fin 10 /\
  index_labels (two down down) "lev" = Some [Fin 10; Fin 0] /\ get (dat (two down down)) [0%nat] = Fin 10 /\
  get (dat out) [0%nat] = Fin 0.
Proof.
  destruct (c12_lemma _ _ _ _ _ _ _ _ _ _ _ 1 _ _ (two_call_labelled up up down down [10] false ltac:(discriminate)) eq_refl
    ltac:(left; intros i j Hij; cbn in Hij; lia)) as (o1 & E1 & _ & S1 & G1).
  exists o1. split; [exact E1|]. do 4 (split; [reflexivity|]).
  specialize (G1 [0%nat] 1). rewrite S1 in G1. specialize (G1 ltac:(repeat constructor) eq_refl (two_distinct down 1 ltac:(cbn; lra)) ltac:(discriminate)).
  rewrite (G1 up 0%nat); [reflexivity| |lia|cbn; unfold hyb_pressure, zero, down, flip, up; lra]. intros j Hj. reflexivity.
Qed.
Print Assumptions C110_matching_by_label_refuted.
