(** Level arrays of any rank in delta_pressure (C129). *)
From Coq Require Import Reals List Bool Arith ZArith Lra Lia String.
From Verif Require Import PyBase PyFacts Num NumFacts Arr ArrFacts DeltaP DeltaPRank.
Import ListNotations.

Section Any.
  Context {T : Type} {N : Num T}.
  Lemma one_axis (lev : levels_nd T) s t n : shp (ln_arr lev) = [n] -> delta_pressure_any lev s t = delta_pressure (ln_flat lev) s t.
  Proof.
    intros E. unfold delta_pressure_any, delta_pressure. destruct (lev_min (ln_flat lev)) as [m|e]; [|reflexivity]. cbn [bind].
    destruct (match t with None => _ | Some _ => _ end) as [top|e]; [|reflexivity]. cbn [bind]. cbv zeta.
    assert (L : List.length (lev_vals (ln_flat lev)) = n).
    { cbn [lev_vals ln_flat]. rewrite ravel_length, E. cbn. lia. }
    assert (F : forall e, delta_pressure1D_nd (ln_arr lev) e top = delta_pressure1D (lev_vals (ln_flat lev)) e top).
    { intros e. unfold delta_pressure1D_nd. rewrite E. reflexivity. }
    assert (M : forall l, mapM (fun e => delta_pressure1D_nd (ln_arr lev) e top) l = mapM (fun e => delta_pressure1D (lev_vals (ln_flat lev)) e top) l).
    { intros l. induction l as [|x l IH]; [reflexivity|]. cbn [mapM]. rewrite F, IH. reflexivity. }
    destruct s as [x|a|d|]; [rewrite F; reflexivity| | |reflexivity]; rewrite M, E; cbn [List.length Nat.eqb negb hd]; unfold delta_pressure_nd; rewrite L.
    - reflexivity.
    - destruct (mapM _ _); reflexivity.
  Qed.

  Lemma never_1d (lev : arr T) x top : List.length (shp lev) <> 1%nat ->
    exists e, delta_pressure1D_nd lev x top = Err e /\ (e = ValueError \/ (e = IndexError /\ (hd 0 (shp lev) < 2)%nat)).
  Proof.
    intros H. unfold delta_pressure1D_nd. destruct (shp lev) as [|n [|m s]]; [|contradiction H; reflexivity|]; cbn [hd].
    - destruct (nlt top (ofZ 0)); [eauto 6|]. destruct (ngt top x); [eauto 6|]. cbn. exists IndexError. split; [reflexivity|]. right. split; [reflexivity|lia].
    - destruct (nlt top (ofZ 0)); [eauto 6|]. destruct (ngt top x); [eauto 6|]. destruct (Nat.ltb_spec n 2); [eauto 6|].
      destruct (negb _); eauto 6.
  Qed.
  Lemma rows_fail (lev : arr T) top l : List.length (shp lev) <> 1%nat -> l <> [] ->
    exists e, mapM (fun e => delta_pressure1D_nd lev e top) l = Err e /\ (e = ValueError \/ (e = IndexError /\ (hd 0 (shp lev) < 2)%nat)).
  Proof. intros H Hl. destruct l as [|x l]; [congruence|]. cbn [mapM]. destruct (never_1d lev x top H) as (e & -> & K). exists e. split; [reflexivity|exact K]. Qed.
  Lemma no_cells (a : arr T) : ravel a = [] -> size (shp a) = 0%nat.
  Proof. intros E. rewrite <- ravel_length, E. reflexivity. Qed.

  (** a result for levels of another rank has no cell in it *)
  Lemma c129_only_one_axis (lev : levels_nd T) s t out : delta_pressure_any lev s t = Ok out ->
    List.length (shp (ln_arr lev)) = 1%nat \/ (exists a, s = SNd a /\ size (shp a) = 0%nat /\ size (shp (out_arr out)) = 0%nat).
  Proof.
    intros E. destruct (Nat.eq_dec (List.length (shp (ln_arr lev))) 1) as [|Hn]; [auto|]. right. revert E. unfold delta_pressure_any.
    destruct (lev_min (ln_flat lev)) as [m|e]; [|discriminate]. cbn [bind].
    destruct (match t with None => _ | Some _ => _ end) as [top|e]; [|discriminate]. cbn [bind]. cbv zeta.
    destruct s as [x|a|d|]; [| | |discriminate].
    - destruct (never_1d (ln_arr lev) x top Hn) as (e & -> & _). discriminate.
    - destruct (Nat.eqb (List.length (shp (ln_arr lev))) 0); [discriminate|].
      destruct (ravel a) as [|x l] eqn:R.
      + cbn. intros Q. injection Q as <-. exists a. split; [reflexivity|]. pose proof (no_cells a R) as Z. split; [exact Z|].
        cbn [out_arr of_flat shp]. revert Z. unfold size. rewrite fold_right_app. cbn [fold_right]. generalize (hd 0%nat (shp (ln_arr lev)) * 1)%nat. clear.
        induction (shp a) as [|k s IH]; cbn; intros w Z.
        * discriminate.
        * apply Nat.mul_eq_0 in Z. destruct Z as [->|Z]; [reflexivity|]. rewrite (IH w Z). lia.
      + destruct (rows_fail (ln_arr lev) top (x :: l) Hn ltac:(discriminate)) as (e & -> & _). discriminate.
    - destruct (Nat.eqb (List.length (shp (ln_arr lev))) 0); [discriminate|].
      destruct (mapM _ _) as [rows|e]; [|discriminate]. cbn [bind]. replace (Nat.eqb (List.length (shp (ln_arr lev))) 1) with false by (symmetry; apply Nat.eqb_neq; auto). discriminate.
  Qed.

  Lemma c129_exception (lev : levels_nd T) s t a : List.length (shp (ln_arr lev)) <> 1%nat -> surf_arr s = Some a -> size (shp a) <> 0%nat ->
    exists e, delta_pressure_any lev s t = Err e /\
      ((2 <= List.length (shp (ln_arr lev)))%nat -> (2 <= hd 0%nat (shp (ln_arr lev)))%nat -> e = ValueError) /\
      (e = TypeError -> shp (ln_arr lev) = [] /\ forall x, s <> SScalar x).
  Proof.
    intros Hn Hs Hc. unfold delta_pressure_any.
    assert (ME : forall e, lev_min (ln_flat lev) = Err e -> e = ValueError).
    { intros e. unfold lev_min. destruct (if lev_da (ln_flat lev) then _ else _); [|discriminate]. destruct (lev_vals (ln_flat lev)); [congruence|discriminate]. }
    destruct (lev_min (ln_flat lev)) as [m|e]; [|rewrite (ME e eq_refl); exists ValueError; repeat split; auto; discriminate]. cbn [bind].
    assert (TE : forall e, (match t with None => Ok m | Some v => if ngt v m then Err ValueError else Ok v end) = Err e -> e = ValueError).
    { intros e. destruct t as [v|]; [destruct (ngt v m); congruence|discriminate]. }
    destruct (match t with None => _ | Some _ => _ end) as [top|e]; [|rewrite (TE e eq_refl); exists ValueError; repeat split; auto; discriminate]. cbn [bind]. cbv zeta.
    assert (K : forall e : exc, e = ValueError \/ (e = IndexError /\ (hd 0 (shp (ln_arr lev)) < 2)%nat) ->
      ((2 <= List.length (shp (ln_arr lev)))%nat -> (2 <= hd 0%nat (shp (ln_arr lev)))%nat -> e = ValueError) /\ (e = TypeError -> shp (ln_arr lev) = [] /\ forall x, s <> SScalar x)).
    { intros e [->|[-> Q]]; split; auto; try discriminate. intros _ Q'. lia. }
    assert (Rv : ravel a <> []). { intros Q. apply Hc, no_cells, Q. }
    destruct s as [x|b|d|]; cbn in Hs; [| | |discriminate]; injection Hs as <-.
    - destruct (never_1d (ln_arr lev) x top Hn) as (e & -> & Q). exists e. split; [reflexivity|]. apply K, Q.
    - destruct (Nat.eqb_spec (List.length (shp (ln_arr lev))) 0) as [Z|Z]; cbn [bind].
      + exists TypeError. split; [reflexivity|]. split; [lia|]. intros _. split; [apply length_zero_iff_nil, Z|discriminate].
      + destruct (rows_fail (ln_arr lev) top (ravel b) Hn Rv) as (e & -> & Q). exists e. split; [reflexivity|]. apply K, Q.
    - destruct (Nat.eqb_spec (List.length (shp (ln_arr lev))) 0) as [Z|Z]; cbn [bind].
      + exists TypeError. split; [reflexivity|]. split; [lia|]. intros _. split; [apply length_zero_iff_nil, Z|discriminate].
      + destruct (rows_fail (ln_arr lev) top (ravel (dat d)) Hn Rv) as (e & -> & Q). exists e. split; [reflexivity|]. apply K, Q.
  Qed.
End Any.
