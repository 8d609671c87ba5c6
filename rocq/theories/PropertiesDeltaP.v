(** C01-C06: pressure layer thickness (delta_pressure, dpres_plev). *)
From Coq Require Import Reals List Bool Arith ZArith Lra Lia String.
From Verif Require Import PyBase Num NumFacts Arr ArrFacts Spec DeltaP DeltaPFacts DeltaPApi.
Import ListNotations.
Local Open Scope R_scope.

(** C01.  [l] lists the levels from the top down; the caller passes them in that order ([down]) or
    bottom up.  [s] is the surface pressure as scalar, ndarray or DataArray of any shape. *)
Theorem C01_delta_pressure_conserves_mass :
  forall isda at' l (down : bool) s a t top ps0,
  increasing l -> (2 <= List.length l)%nat -> 0 <= top <= at_ l 0 ->
  t = Some (Fin top) \/ t = None /\ top = at_ l 0 ->
  surf_arr s = Some a ->
  (forall idx, inb (shp a) idx -> get a idx = Fin (ps0 idx) /\ interface top l 1 < ps0 idx) ->
  exists out, delta_pressure (mkLevels isda (map Fin (if down then l else rev l)) at') s t = Ok out /\
    shp (out_arr out) = shp a ++ [List.length l] /\
    forall idx, inb (shp a) idx ->
      sum_finite (column (out_arr out) idx (List.length l)) = ps0 idx - top.
Proof. exact c01_lemma. Qed.
Print Assumptions C01_delta_pressure_conserves_mass.

Ltac inc3 := unfold increasing, at_; intros [|[|[|i]]] [|[|[|j]]]; simpl; intros; try lia; try lra.

(** three levels, a 2-cell surface field, one cell with an underground level *)
Example C01_example :
  let l := [100; 500; 1000] in
  let a := vec NaN [Fin 700; Fin 1013] in
  let ps0 := fun idx => nth (hd 0%nat idx) [700; 1013] 0 in
  increasing l /\ (2 <= List.length l)%nat /\ 0 <= 50 <= at_ l 0 /\ surf_arr (SNd a) = Some a /\
  (forall idx, inb (shp a) idx -> get a idx = Fin (ps0 idx) /\ interface 50 l 1 < ps0 idx).
Proof.
  cbv zeta. split; [inc3|]. split; [simpl; lia|]. split; [unfold at_; simpl; lra|]. split; [reflexivity|].
  intros idx H. inversion H as [|k n r s' Hk Hr]; subst. inversion Hr; subst. simpl in *.
  destruct k as [|[|k]]; simpl in *; try lia; split; auto; unfold at_; simpl; lra.
Qed.

(** C02.  Level k counted from the top; NaN exactly for underground levels, otherwise the positive
    distance between the layer's two interfaces. *)
Theorem C02_delta_pressure_nan_set_and_sign :
  forall isda at' l (down : bool) s a t top ps0,
  increasing l -> (2 <= List.length l)%nat -> 0 <= top <= at_ l 0 ->
  t = Some (Fin top) \/ t = None /\ top = at_ l 0 ->
  surf_arr s = Some a ->
  (forall idx, inb (shp a) idx -> get a idx = Fin (ps0 idx) /\ interface top l 1 < ps0 idx) ->
  exists out, delta_pressure (mkLevels isda (map Fin (if down then l else rev l)) at') s t = Ok out /\
    forall idx k, inb (shp a) idx -> (k < List.length l)%nat ->
      let d := get (out_arr out) (idx ++ [if down then k else (List.length l - 1 - k)%nat]) in
      (underground top (ps0 idx) l k -> d = NaN) /\
      (~ underground top (ps0 idx) l k ->
         exists r, d = Fin r /\ 0 < r /\
                   r = lower_interface top (ps0 idx) l k - interface top l k).
Proof. exact c02_lemma. Qed.
Print Assumptions C02_delta_pressure_nan_set_and_sign.

(** same situation as C01_example: level 2 is underground in cell 0 and not in cell 1 *)
Example C02_example : underground 50 700 [100; 500; 1000] 2 /\ ~ underground 50 1013 [100; 500; 1000] 2.
Proof. unfold underground, interface, at_; simpl. split; [split; [lia|lra]|]. intros [_ H]. lra. Qed.

(** C03.  Any surface pressure at all (NaN, infinite, too small): both calls succeed or both fail. *)
Theorem C03_delta_pressure_follows_level_order :
  forall isda at' l s a t,
  increasing l -> (2 <= List.length l)%nat -> surf_arr s = Some a ->
  (forall out, delta_pressure (mkLevels isda (map Fin l) at') s t = Ok out ->
     exists out', delta_pressure (mkLevels isda (map Fin (rev l)) at') s t = Ok out' /\
       shp (out_arr out') = shp (out_arr out) /\
       forall idx k, inb (shp a) idx -> (k < List.length l)%nat ->
         get (out_arr out') (idx ++ [k]) = get (out_arr out) (idx ++ [(List.length l - 1 - k)%nat])) /\
  ((exists e, delta_pressure (mkLevels isda (map Fin l) at') s t = Err e) ->
   exists e, delta_pressure (mkLevels isda (map Fin (rev l)) at') s t = Err e).
Proof. exact c03_lemma. Qed.
Print Assumptions C03_delta_pressure_follows_level_order.

Example C03_example : increasing [100; 500; 1000] /\ (2 <= List.length [100; 500; 1000])%nat.
Proof. split; [inc3|simpl; lia]. Qed.

(** C04.  No assumption on levels, values, rank or shape. *)
Theorem C04_delta_pressure_cells_independent :
  forall lev s a t out,
  surf_arr s = Some a -> delta_pressure lev s t = Ok out ->
  let n := List.length (lev_vals lev) in
  shp (out_arr out) = shp a ++ [n] /\
  forall idx, inb (shp a) idx ->
    exists c, delta_pressure lev (SScalar (get a idx)) t = Ok (ONd c) /\ shp c = [n] /\
      forall k, (k < n)%nat -> get (out_arr out) (idx ++ [k]) = get c [k].
Proof. exact c04_ok_lemma. Qed.
Print Assumptions C04_delta_pressure_cells_independent.

Theorem C04_delta_pressure_fails_iff_a_cell_fails :
  forall lev s a t,
  surf_arr s = Some a -> (exists idx, inb (shp a) idx) ->
  (exists e, delta_pressure lev s t = Err e) <->
  exists idx e, inb (shp a) idx /\ delta_pressure lev (SScalar (get a idx)) t = Err e.
Proof. exact c04_err_lemma. Qed.
Print Assumptions C04_delta_pressure_fails_iff_a_cell_fails.

Theorem C04_delta_pressure_labels :
  forall lev d t out,
  delta_pressure lev (SDa d) t = Ok out ->
  exists o, out = ODa o /\ dims o = dims d ++ ["lev"%string] /\
    slookup "lev"%string (coords o) = Some (mkCoord ["lev"%string] (vec nnan (lev_vals lev))) /\
    (forall c, c <> "lev"%string -> slookup c (coords o) = slookup c (coords d)) /\
    slookup "long name"%string (attrs o) = Some "pressure layer thickness"%string /\
    (forall k, k <> "long name"%string ->
       slookup k (attrs o) = slookup k (if lev_da lev then lev_attrs lev else attrs d)) /\
    daname o = Some "delta pressure"%string.
Proof. exact c04_labels_lemma. Qed.
Print Assumptions C04_delta_pressure_labels.

(** a rank-2 labelled surface field meets the hypotheses of all three *)
Example C04_example :
  let d := mkDa ["lat"; "lon"]%string (mkArr [2; 2]%nat (fun _ => Fin 1013)) [] [] None in
  let lev := mkLevels false (map Fin (if true then [100; 500; 1000] else [])) [] in
  surf_arr (SDa d) = Some (dat d) /\ (exists idx, inb (shp (dat d)) idx) /\
  exists out, delta_pressure lev (SDa d) (Some (Fin 50)) = Ok out.
Proof.
  cbv zeta. split; [reflexivity|]. split; [exists [0; 0]%nat; repeat constructor|].
  destruct (c01_lemma false [] [100; 500; 1000] true
               (SDa (mkDa ["lat"; "lon"]%string (mkArr [2; 2]%nat (fun _ => Fin 1013)) [] [] None))
               (mkArr [2; 2]%nat (fun _ => Fin 1013)) (Some (Fin 50)) 50 (fun _ => 1013)) as (out & H & _).
  - inc3.
  - simpl; lia.
  - unfold at_; simpl; lra.
  - auto.
  - reflexivity.
  - intros. split; auto. unfold interface, at_; simpl; lra.
  - exists out. exact H.
Qed.

(** C05. *)
Theorem C05_top_above_lowest_level_rejected :
  forall isda at' l s t m,
  l <> [] -> In m l -> (forall y, In y l -> m <= y) -> m < t ->
  delta_pressure (mkLevels isda (map Fin l) at') s (Some (Fin t)) = Err ValueError.
Proof. exact c05_top_above_levels. Qed.
Print Assumptions C05_top_above_lowest_level_rejected.

Theorem C05_negative_top_rejected :
  forall isda at' l s a t,
  l <> [] -> surf_arr s = Some a -> (exists idx, inb (shp a) idx) -> t < 0 ->
  delta_pressure (mkLevels isda (map Fin l) at') s (Some (Fin t)) = Err ValueError.
Proof. exact c05_negative_top. Qed.
Print Assumptions C05_negative_top_rejected.

Theorem C05_surface_above_top_rejected :
  forall isda at' l (down : bool) s a t top idx ps,
  increasing l -> (1 <= List.length l)%nat -> top <= at_ l 0 ->
  t = Some (Fin top) \/ t = None /\ top = at_ l 0 ->
  surf_arr s = Some a -> inb (shp a) idx -> get a idx = Fin ps -> ps < top ->
  exists e, delta_pressure (mkLevels isda (map Fin (if down then l else rev l)) at') s t = Err e.
Proof. exact c05_top_below_surface. Qed.
Print Assumptions C05_surface_above_top_rejected.

Theorem C05_surface_above_top_rejected_scalar :
  forall isda at' l (down : bool) t top ps,
  increasing l -> (1 <= List.length l)%nat -> top <= at_ l 0 ->
  t = Some (Fin top) \/ t = None /\ top = at_ l 0 -> ps < top ->
  delta_pressure (mkLevels isda (map Fin (if down then l else rev l)) at') (SScalar (Fin ps)) t = Err ValueError.
Proof. exact c05_scalar_ps. Qed.
Print Assumptions C05_surface_above_top_rejected_scalar.

Theorem C05_default_top_is_lowest_level :
  forall isda at' l s m,
  l <> [] -> In m l -> (forall y, In y l -> m <= y) ->
  delta_pressure (mkLevels isda (map Fin l) at') s None
  = delta_pressure (mkLevels isda (map Fin l) at') s (Some (Fin m)).
Proof. exact c05_default. Qed.
Print Assumptions C05_default_top_is_lowest_level.

Theorem C05_dpres_plev_is_delta_pressure :
  forall (lev : levels fl) s t, dpres_plev lev s t = delta_pressure lev s t.
Proof. exact (fun lev s t => eq_refl). Qed.
Print Assumptions C05_dpres_plev_is_delta_pressure.

Example C05_example :
  [500; 100; 1000] <> [] /\ In 100 [500; 100; 1000] /\ (forall y, In y [500; 100; 1000] -> 100 <= y) /\ 100 < 200.
Proof. repeat split; try discriminate; simpl; try lra; auto. intros y [<-|[<-|[<-|[]]]]; lra. Qed.

(** C06 (refuted).  Whenever the surface lies above the first interface the only finite thickness is
    ps - (first + last level)/2, which is never positive and is not ps - top. *)
Theorem C06_single_level_thickness_wrong :
  forall isda at' l (down : bool) t top ps,
  increasing l -> (2 <= List.length l)%nat -> 0 <= top <= at_ l 0 ->
  t = Some (Fin top) \/ t = None /\ top = at_ l 0 ->
  top <= ps -> 0 < ps -> ps <= interface top l 1 ->
  exists c, delta_pressure (mkLevels isda (map Fin (if down then l else rev l)) at') (SScalar (Fin ps)) t
            = Ok (ONd c) /\ shp c = [List.length l] /\
    (forall k, (1 <= k < List.length l)%nat -> get c [if down then k else (List.length l - 1 - k)%nat] = NaN) /\
    get c [if down then 0%nat else (List.length l - 1)%nat]
    = Fin (ps - (at_ l 0 + at_ l (List.length l - 1)) / 2) /\
    ps - (at_ l 0 + at_ l (List.length l - 1)) / 2 <= 0.
Proof. exact c06_lemma. Qed.
Print Assumptions C06_single_level_thickness_wrong.

Theorem C06_conservation_refuted :
  exists l ps top c, increasing l /\ (2 <= List.length l)%nat /\ 0 <= top <= at_ l 0 /\ top < ps /\
    delta_pressure (mkLevels false (map Fin l) []) (SScalar (Fin ps)) (Some (Fin top)) = Ok (ONd c) /\
    sum_finite (column c [] (List.length l)) <> ps - top.
Proof. exact c06_refuted. Qed.
Print Assumptions C06_conservation_refuted.
