(** interp_multidim with method='nearest'. *)
From Coq Require Import Reals List Bool Arith ZArith Lra Lia String Permutation.
From Verif Require Import PyBase PyFacts Num NumFacts Arr ArrFacts ListFacts Spec Hybrid HybridFacts Interp1d Interp1dFacts InterpMulti InterpMultiFacts InterpSigmaFacts InterpGrid InterpCyclic SpecMulti.
Import ListNotations.
Local Open Scope R_scope.

Lemma nearest_unique p n x i j : distinct_levels p n -> nearest p n x i -> nearest p n x j -> i = j.
Proof.
  intros D [Hi A] [Hj B]. destruct (A j Hj) as [A1 A2], (B i Hi) as [B1 B2]. apply D; auto.
  destruct (Rtotal_order (p i) (p j)) as [H|[H|H]]; auto; [specialize (B2 H)|specialize (A2 H)]; lra.
Qed.

Definition halves (l : list R) : list R := map (fun q => snd q / 2 + fst q / 2) (combine l (tl l)).
Lemma halves_fl (l : list R) :
  map (fun q => nadd (ndiv (snd q) (ofZ 2)) (ndiv (fst q) (ofZ 2))) (combine (map Fin l) (tl (map Fin l))) = map Fin (halves l).
Proof.
  unfold halves. induction l as [|a l IH]; auto. destruct l as [|b l]; auto.
  cbn [map tl combine fst snd] in IH |- *. rewrite IH. f_equal.
  change (@ndiv fl NumFl) with fl_div. change (@ofZ fl NumFl 2) with (Fin 2). rewrite !fdiv_fin by lra. reflexivity.
Qed.
Lemma halves_length l : List.length (halves l) = (List.length l - 1)%nat.
Proof. unfold halves. rewrite map_length, combine_length. destruct l; cbn [tl List.length]; lia. Qed.
Lemma halves_nth l k : (S k < List.length l)%nat -> nth k (halves l) 0 = nth (S k) l 0 / 2 + nth k l 0 / 2.
Proof.
  revert k. induction l as [|a l IH]; intros k Hk; cbn in Hk; [lia|]. destruct l as [|b l]; cbn in Hk; [lia|].
  destruct k as [|k]; [reflexivity|]. unfold halves in *. cbn [map tl combine nth] in *. apply IH. cbn. lia.
Qed.
Lemma halves_sorted l : sorted_lt l -> sorted_lt (halves l).
Proof.
  intros H i j Hij. rewrite halves_length in Hij. rewrite !halves_nth by lia.
  pose proof (H i j ltac:(lia)). pose proof (H (S i) (S j) ltac:(lia)). lra.
Qed.

Section Dim.
  Variables (l : list R) (var : list fl).
  Hypothesis Hlen : List.length var = List.length l.
  Hypothesis Hn : (2 <= List.length l)%nat.
  Hypothesis Hnd : NoDup l.
  Let n := List.length l.
  Let p (k : nat) := nth k l 0.
  Let s := isort (combine (map Fin l) var).
  Let L : List.length s = n := s_length l var Hlen Hn.
  Let So : sorted_lt (map keyr s) := s_sorted l var Hlen Hn Hnd.

  Lemma near_none x : exists i, nearest p n x i /\ interp1d_nearest None s (Fin x) = nth i var NaN.
  Proof.
    unfold interp1d_nearest. rewrite L. pose proof (s_fst l var Hlen Hn) as F. fold s in F. rewrite F, halves_fl.
    destruct (searchsorted_spec (halves (map keyr s)) x (halves_sorted _ So)) as (M1 & M2 & M3).
    set (m := searchsorted _ _) in *. rewrite halves_length, map_length, L in M1, M3.
    replace (Nat.min m (n - 1)) with m by lia.
    assert (Hm : (m < n)%nat) by (fold n in Hn; lia).
    destruct (Interp1dFacts.s_nth l var Hlen Hn m Hm) as (i & Hi & Ei & Ki). fold s in Ei, Ki.
    exists i. split; [|cbn [nnan NumFl]; rewrite Ei; reflexivity].
    split; auto. intros k Hk. destruct (Interp1dFacts.s_pos l var Hlen Hn k Hk) as (q & Hq & Eq). fold s n in Eq, Hq. fold (p k) in Eq. fold (p i) in Ki.
    rewrite <- Ki, <- Eq.
    destruct (Nat.lt_trichotomy q m) as [H|[->|H]].
    - assert (nth q (map keyr s) 0 < nth m (map keyr s) 0) by (apply So; rewrite map_length, L; lia).
      assert (Hb : nth (m - 1) (halves (map keyr s)) 0 < x) by (apply M2; lia).
      rewrite halves_nth in Hb by (rewrite map_length, L; lia). replace (S (m - 1)) with m in Hb by lia.
      assert (nth q (map keyr s) 0 <= nth (m - 1) (map keyr s) 0).
      { destruct (Nat.eq_dec q (m - 1)) as [->|]; [lra|]. apply Rlt_le, So. rewrite map_length, L. lia. }
      unfold Rabs. destruct (Rcase_abs _), (Rcase_abs _); lra.
    - lra.
    - assert (nth m (map keyr s) 0 < nth q (map keyr s) 0) by (apply So; rewrite map_length, L; lia).
      assert (Hb : x <= nth m (halves (map keyr s)) 0) by (apply M3; lia).
      rewrite halves_nth in Hb by (rewrite map_length, L; lia).
      assert (nth (S m) (map keyr s) 0 <= nth q (map keyr s) 0).
      { destruct (Nat.eq_dec q (S m)) as [->|]; [lra|]. apply Rlt_le, So. rewrite map_length, L. lia. }
      unfold Rabs. destruct (Rcase_abs _), (Rcase_abs _); lra.
  Qed.
  Lemma near_guard x f : interp1d_nearest (Some f) s (Fin x) =
    if rltb x (nth 0 (map keyr s) 0) || rltb (nth (n - 1) (map keyr s) 0) x then f else interp1d_nearest None s (Fin x).
  Proof.
    unfold interp1d_nearest. rewrite L.
    destruct (Interp1dFacts.s_nth l var Hlen Hn 0 ltac:(lia)) as (i & Hi & Ei & Ki).
    destruct (Interp1dFacts.s_nth l var Hlen Hn (n - 1) ltac:(fold n; lia)) as (j & Hj & Ej & Kj).
    fold s in Ei, Ej, Ki, Kj. cbn [nnan NumFl]. rewrite Ei, Ej, Ki, Kj. reflexivity.
  Qed.
  Lemma near_in fill x i : fill = None \/ ~ out_of_range p n x -> nearest p n x i ->
    interp_dim MdNearest fill (map Fin l) var (Fin x) = nth i var NaN.
  Proof.
    intros Hf Hi. cbn [interp_dim]. fold s. destruct (near_none x) as (j & Nj & E).
    assert (i = j) by (eapply nearest_unique; eauto; apply nodup_distinct; auto). subst j.
    destruct fill as [f|]; auto. rewrite near_guard, E.
    destruct Hf as [|Hr]; [discriminate|].
    destruct (range_cases l var Hlen Hn Hnd x) as [?|(a & b & Ha & Hb & Hx)]; [contradiction|].
    pose proof (first_low l var Hlen Hn Hnd a Ha). pose proof (last_high l var Hlen Hn Hnd b Hb). fold s n p in H, H0.
    unfold p in *. rewrite !rltb_false by lra. reflexivity.
  Qed.
  Lemma near_out f x : out_of_range p n x -> interp_dim MdNearest (Some f) (map Fin l) var (Fin x) = f.
  Proof.
    intros Hx. cbn [interp_dim]. fold s. rewrite near_guard. destruct Hx as [Hx|Hx].
    - destruct (last_is l var Hlen Hn) as (i & Hi & E). fold s n in E, Hi. fold (p i) in E. rewrite E, (rltb_true (p i)), orb_true_r by (apply Hx; auto). reflexivity.
    - destruct (first_is l var Hlen Hn) as (i & Hi & E). fold s n in E, Hi. fold (p i) in E. rewrite E, rltb_true by (apply Hx; auto). reflexivity.
  Qed.
  (** a nearest point exists *)
  Lemma near_ex x : exists i, nearest p n x i.
  Proof. destruct (near_none x) as (i & H & _). eauto. Qed.
End Dim.

Lemma nearest_ex (l : list R) x : (2 <= List.length l)%nat -> NoDup l -> exists i, nearest (fun k => nth k l 0) (List.length l) x i.
Proof.
  intros Hn Hnd. apply (near_ex l (map (fun _ => NaN) l)); auto. rewrite map_length. auto.
Qed.

Lemma surf_near fill a q LAT LON y x i c : (2 <= List.length LAT)%nat -> (2 <= List.length LON)%nat -> NoDup LAT -> NoDup LON ->
  fill = None \/ (~ out_of_range (fun k => nth k LAT 0) (List.length LAT) y /\ ~ out_of_range (fun k => nth k LON 0) (List.length LON) x) ->
  nearest (fun k => nth k LAT 0) (List.length LAT) y i -> nearest (fun k => nth k LON 0) (List.length LON) x c ->
  surf_at MdNearest fill a q LAT LON (Fin y) (Fin x) = a (q ++ [i; c]).
Proof.
  intros Ny Nx Hy Hx Hf Hi Hc. unfold surf_at.
  rewrite (near_in LAT _ (row_length LAT _) Ny Hy fill y i) by (auto; tauto).
  rewrite nth_map_seq by (apply Hi). unfold row_at.
  rewrite (near_in LON _ (row_length LON _) Nx Hx fill x c) by (auto; tauto).
  rewrite nth_map_seq by (apply Hc). reflexivity.
Qed.
Lemma surf_near_out f a q LAT LON y x : (2 <= List.length LAT)%nat -> (2 <= List.length LON)%nat -> NoDup LAT -> NoDup LON ->
  out_of_range (fun k => nth k LAT 0) (List.length LAT) y \/ out_of_range (fun k => nth k LON 0) (List.length LON) x ->
  surf_at MdNearest (Some f) a q LAT LON (Fin y) (Fin x) = f.
Proof.
  intros Ny Nx Hy Hx Ho. unfold surf_at.
  destruct (range_cases LAT (map (fun k => row_at MdNearest (Some f) a q LON k (Fin x)) (seq 0 (List.length LAT))) (row_length _ _) Ny Hy y) as [H|(i0 & j0 & Hi0 & Hj0 & Hr)].
  - apply near_out; auto using row_length.
  - destruct Ho as [Ho|Ho].
    { apply near_out; auto using row_length. }
    destruct (nearest_ex LAT y Ny Hy) as (i & Hi).
    assert (Hnr : ~ out_of_range (fun k => nth k LAT 0) (List.length LAT) y).
    { intros [H|H]; [specialize (H j0 Hj0)|specialize (H i0 Hi0)]; lra. }
    rewrite (near_in LAT _ (row_length LAT _) Ny Hy (Some f) y i) by auto.
    rewrite nth_map_seq by (apply Hi). unfold row_at. apply near_out; auto using row_length.
Qed.

Lemma post_pre missing v : post_value missing (pre_value missing v) = missing_of missing v.
Proof.
  destruct missing as [m|]; auto. cbn [post_value pre_value missing_of]. unfold nwhere.
  destruct (neqb v m) eqn:E; [destruct (isnan v); reflexivity|reflexivity].
Qed.

Lemma c90_nearest data la lo ds (a : arr fl) s LAT LON yo xo missing fill :
  grid_input data la lo ds a s LAT LON -> (2 <= List.length LAT)%nat -> (2 <= List.length LON)%nat -> NoDup LAT -> NoDup LON ->
  exists out, interp_multidim MdNearest data (map Fin yo) (map Fin xo) la lo false missing fill = Ok out /\ dims out = ds /\
    shp (dat out) = s ++ [List.length yo; List.length xo] /\
    forall q jy jx, inb s q -> (jy < List.length yo)%nat -> (jx < List.length xo)%nat ->
      let y := nth jy yo 0 in let x := nth jx xo 0 in let v := get (dat out) (q ++ [jy; jx]) in
      let outside := out_of_range (fun k => nth k LAT 0) (List.length LAT) y \/ out_of_range (fun k => nth k LON 0) (List.length LON) x in
      (fill = None \/ ~ outside ->
         exists i c, nearest (fun k => nth k LAT 0) (List.length LAT) y i /\ nearest (fun k => nth k LON 0) (List.length LON) x c /\
           v = missing_of missing (get a (q ++ [i; c]))) /\
      (forall f, fill = Some f -> outside -> v = match missing with Some m => if isnan f then m else f | None => f end).
Proof.
  intros G Ny Nx Hy Hx.
  destruct (grid_core MdNearest data la lo ds a s LAT LON (map Fin yo) (map Fin xo) missing fill G) as (out & E & Do & So & _ & Go);
    try (intros ->; cbn in *; lia).
  exists out. split; auto. split; auto. split; [rewrite So, !map_length; reflexivity|].
  intros q jy jx Hq Hjy Hjx y x v outside.
  assert (Ev : v = post_value missing (surf_at MdNearest fill (fun i => pre_value missing (get a i)) q LAT LON (Fin y) (Fin x))).
  { unfold v. rewrite Go by (apply inb_length; auto). rewrite (nth_map_in Fin yo jy 0), (nth_map_in Fin xo jx 0) by auto. reflexivity. }
  split.
  - intros Hf. destruct (nearest_ex LAT y Ny Hy) as (i & Hi), (nearest_ex LON x Nx Hx) as (c & Hc). exists i, c. split; auto. split; auto.
    rewrite Ev, (surf_near fill _ q LAT LON y x i c); auto; [apply post_pre|]. unfold outside in Hf. tauto.
  - intros f -> Ho. rewrite Ev, surf_near_out by auto. destruct missing; reflexivity.
Qed.

Lemma wrap_lookup LON m : LON <> [] -> (m < List.length LON + 2)%nat ->
  exists t, nth m (wrap_lons LON) 0 = nth (pad_src (List.length LON) m) LON 0 + 360 * IZR t /\ (pad_src (List.length LON) m < List.length LON)%nat.
Proof.
  intros Hne Hm. assert (0 < List.length LON)%nat by (destruct LON; [contradiction|cbn; lia]).
  destruct m as [|m].
  - exists (-1)%Z. rewrite wrap_first, pad_src_0. split; [lra|lia].
  - destruct (Nat.eq_dec m (List.length LON)) as [->|].
    + exists 1%Z. rewrite wrap_last, pad_src_end. split; [lra|lia].
    + exists 0%Z. rewrite wrap_nth, pad_src_S by lia. split; [lra|lia].
Qed.

Lemma circle_near LON x c : LON <> [] -> increasing LON ->
  let n := List.length LON in let w := nth 0 LON 0 in let e := nth (n - 1) LON 0 in
  e - w < 360 -> e - 360 <= x <= w + 360 -> nearest_on_circle (fun k => nth k LON 0) n x c ->
  exists m, nearest (fun k => nth k (wrap_lons LON) 0) (n + 2) x m /\ pad_src n m = c.
Proof.
  intros Hne Hinc n w e Hs Hx (Hc & t & H).
  assert (pos : (0 < n)%nat) by lia.
  assert (Lo : forall k, (k < n)%nat -> w <= nth k LON 0).
  { intros [|k] Hk; [unfold w; lra|]. apply Rlt_le, Hinc; [lia|auto]. }
  assert (Hi : forall k, (k < n)%nat -> nth k LON 0 <= e).
  { intros k Hk. destruct (Nat.eq_dec k (n - 1)) as [->|]; [unfold e; lra|]. apply Rlt_le, Hinc; fold n; lia. }
  pose proof (Lo c Hc) as Lc. pose proof (Hi c Hc) as Hic.
  assert (T : (exists m, (m < n + 2)%nat /\ pad_src n m = c /\ nth m (wrap_lons LON) 0 = nth c LON 0 + 360 * IZR t)).
  { destruct (Z.lt_trichotomy t 0) as [Ht|[->|Ht]].
    - assert (Ht' : IZR t <= -1) by (apply IZR_le; lia).
      destruct (H (n - 1)%nat (-1)%Z ltac:(lia)) as [A _]. fold e in A.
      assert (nth c LON 0 + 360 * IZR t = e - 360).
      { destruct (Rle_lt_or_eq_dec (nth c LON 0 + 360 * IZR t) (e - 360)) as [B|B]; auto; [lra|].
        exfalso. revert A. unfold Rabs. destruct (Rcase_abs _), (Rcase_abs _); lra. }
      assert (nth c LON 0 = e) by lra.
      assert (c = n - 1)%nat.
      { destruct (Nat.eq_dec c (n - 1)); auto. assert (nth c LON 0 < e) by (apply Hinc; fold n; lia). lra. }
      exists 0%nat. split; [lia|]. split; [rewrite pad_src_0; lia|]. rewrite wrap_first. fold n e. lra.
    - exists (S c). split; [lia|]. split; [apply pad_src_S; auto|]. rewrite wrap_nth by auto. lra.
    - assert (Ht' : 1 <= IZR t) by (apply IZR_le; lia).
      destruct (H 0%nat 1%Z ltac:(lia)) as [A _]. fold w in A.
      assert (nth c LON 0 + 360 * IZR t = w + 360).
      { destruct (Rle_lt_or_eq_dec (w + 360) (nth c LON 0 + 360 * IZR t)) as [B|B]; auto; [lra|].
        exfalso. revert A. unfold Rabs. destruct (Rcase_abs _), (Rcase_abs _); lra. }
      assert (nth c LON 0 = w) by lra.
      assert (c = 0)%nat.
      { destruct c as [|c]; auto. assert (w < nth (S c) LON 0) by (apply Hinc; auto; lia). lra. }
      subst c. exists (S n). split; [lia|]. split; [apply pad_src_end|]. unfold n. rewrite wrap_last. fold n w. lra. }
  destruct T as (m & Hm & Pm & Em). exists m. split; auto. split; auto.
  intros k Hk. destruct (wrap_lookup LON k Hne Hk) as (u & Eu & Hu). rewrite Em, Eu. apply H. exact Hu.
Qed.

Lemma c90_cyclic data la lo ds (a : arr fl) LAT LON yo xo missing fill :
  grid_input data la lo ds a [] LAT LON -> NoDup ds -> (2 <= List.length LAT)%nat -> NoDup LAT -> LON <> [] -> increasing LON ->
  let n := List.length LON in let w := nth 0 LON 0 in let e := nth (n - 1) LON 0 in
  e - w < 360 ->
  exists out, interp_multidim MdNearest data (map Fin yo) (map Fin xo) la lo true missing fill = Ok out /\ dims out = ds /\
    shp (dat out) = [List.length yo; List.length xo] /\
    forall jy jx i c, (jy < List.length yo)%nat -> (jx < List.length xo)%nat ->
      ~ out_of_range (fun k => nth k LAT 0) (List.length LAT) (nth jy yo 0) -> e - 360 <= nth jx xo 0 <= w + 360 ->
      nearest (fun k => nth k LAT 0) (List.length LAT) (nth jy yo 0) i -> nearest_on_circle (fun k => nth k LON 0) n (nth jx xo 0) c ->
      get (dat out) [jy; jx] = missing_of missing (get a [i; c]).
Proof.
  intros G Hnd Ny Hy Hne Hinc n w e Hspan.
  destruct (cyclic_core MdNearest data la lo ds a LAT LON (map Fin yo) (map Fin xo) missing fill G) as (out & E & Do & So & Go); auto.
  { intros ->; cbn in *; lia. }
  exists out. split; auto. split; auto. split; [rewrite So, !map_length; reflexivity|].
  intros jy jx i c Hjy Hjx Hr Hx Hi Hc. rewrite Go, (nth_map_in Fin yo jy 0), (nth_map_in Fin xo jx 0) by auto.
  destruct (circle_near LON (nth jx xo 0) c Hne Hinc Hspan Hx Hc) as (m & Nm & Pm).
  rewrite (surf_near fill _ [] LAT (wrap_lons LON) _ _ i m); auto.
  - rewrite <- post_pre. unfold pad_field. cbn [app nth]. rewrite Pm. reflexivity.
  - rewrite wrap_length. fold n. assert (0 < n)%nat by (destruct Hc; lia). lia.
  - apply increasing_nodup, wrap_increasing; auto.
  - right. split; auto. rewrite wrap_length. fold n. intros [K|K].
    + specialize (K (S n) ltac:(lia)). unfold n in K at 1. rewrite wrap_last in K. fold n w in K. lra.
    + specialize (K 0%nat ltac:(lia)). rewrite wrap_first in K. fold n e in K. lra.
  - rewrite wrap_length. exact Nm.
Qed.
