(** max_daylight in double and single precision. *)
From Coq Require Import Reals List Bool Arith ZArith String Lia Lra.
From Flocq Require Import Core BinarySingleNaN.
From Verif Require Import PyBase Num NumB64 Arr ArrFacts Meteo SpecB64 B64Facts DaylightPrec.
Import ListNotations.
Local Open Scope R_scope.

(** rounding to the nearest binary32 number, and the reals that are binary32 numbers *)
Definition rn32 (x : R) : R := round radix2 (FLT_exp (-149) 24) ZnearestE x.
Definition fmt32 (x : R) : Prop := generic_format radix2 (FLT_exp (-149) 24) x.
Definition big32 : R := bpow radix2 127.

Lemma finite_F2R {p e} (s : bool) m k (B : SpecFloat.bounded p e m k = true) : B2R (B754_finite s m k B) = F2R (Float radix2 (SpecFloat.cond_Zopp s (Zpos m)) k).
Proof. reflexivity. Qed.
Lemma big32_fmt : fmt32 big32.
Proof. apply generic_format_bpow. unfold FLT_exp. cbn. lia. Qed.
Lemma rn32_small x : Rabs x <= big32 -> Rabs (rn32 x) < bpow radix2 128.
Proof.
  intros H. eapply Rle_lt_trans; [apply abs_round_le_generic; [typeclasses eauto|typeclasses eauto|apply big32_fmt|exact H]|]. apply bpow_lt. lia.
Qed.
Lemma down_is x r : is x r -> Rabs r <= big32 -> is_finite (down x) = true /\ B2R (down x) = rn32 r.
Proof.
  intros [Fx <-] H. destruct x as [s|s| |s m k B]; try discriminate Fx; [split; [reflexivity|]; cbn; symmetry; apply round_0; typeclasses eauto|].
  unfold down, convert. pose proof (binary_normalize_correct 24 128 _ _ mode_NE (SpecFloat.cond_Zopp s (Zpos m)) k s) as C. cbv zeta in C.
  rewrite <- (finite_F2R s m k B) in C.
  change (round radix2 (SpecFloat.fexp 24 128) (round_mode mode_NE) (B2R (B754_finite s m k B))) with (rn32 (B2R (B754_finite s m k B))) in C.
  rewrite Rlt_bool_true in C by (apply rn32_small, H). destruct C as (C1 & C2 & _). split; assumption.
Qed.
Lemma fmt32_fmt r : fmt32 r -> fmt r.
Proof.
  apply generic_inclusion_mag. intros _. unfold FLT_exp. lia.
Qed.
Lemma b32_fmt (y : b32) : fmt32 (B2R y).
Proof. apply (generic_format_B2R 24 128 y). Qed.
Lemma up_is (y : b32) : is_finite y = true -> is (up y) (B2R y) /\ Bsign (up y) = Bsign y.
Proof.
  intros Fy. destruct y as [s|s| |s m k B]; try discriminate Fy; [repeat split|].
  unfold up, convert. pose proof (binary_normalize_correct 53 1024 _ _ mode_NE (SpecFloat.cond_Zopp s (Zpos m)) k s) as C. cbv zeta in C.
  rewrite <- (finite_F2R s m k B) in C.
  change (round radix2 (SpecFloat.fexp 53 1024) (round_mode mode_NE) (B2R (B754_finite s m k B))) with (rn (B2R (B754_finite s m k B))) in C.
  rewrite (rn_fmt _ (fmt32_fmt _ (b32_fmt (B754_finite s m k B)))) in C.
  rewrite Rlt_bool_true in C by (eapply Rlt_trans; [apply (abs_B2R_lt_emax 24 128)|apply bpow_lt; lia]).
  destruct C as (C1 & C2 & C3). split; [split; assumption|]. rewrite C3, finite_F2R.
  destruct s; cbn [SpecFloat.cond_Zopp Bsign].
  - rewrite Rcompare_Lt; auto. apply F2R_lt_0. cbn. lia.
  - rewrite Rcompare_Gt; auto. apply F2R_gt_0. cbn. lia.
Qed.
Lemma down_up (y : b32) : down (up y) = y.
Proof.
  destruct (is_finite y) eqn:Fy; [|destruct y; try discriminate Fy; reflexivity].
  destruct (up_is y Fy) as [[F V] S]. unfold down. destruct (up y) as [s|s| |s m k B] eqn:E; try discriminate F.
  - cbn in V, S. destruct y as [s'|s'| |s' m' k' B']; try discriminate Fy; cbn in S; [subst; reflexivity|].
    exfalso. symmetry in V. apply eq_0_F2R in V. destruct s'; discriminate V.
  - unfold convert. pose proof (binary_normalize_correct 24 128 _ _ mode_NE (SpecFloat.cond_Zopp s (Zpos m)) k s) as C. cbv zeta in C.
    rewrite <- (finite_F2R s m k B), V in C.
    rewrite round_generic in C by (try typeclasses eauto; apply (b32_fmt y)).
    rewrite Rlt_bool_true in C by apply (abs_B2R_lt_emax 24 128). destruct C as (C1 & C2 & C3). apply B2R_Bsign_inj; auto.
    rewrite C3, <- S, <- V, finite_F2R. destruct s; cbn [SpecFloat.cond_Zopp Bsign].
    + rewrite Rcompare_Lt; auto. apply F2R_lt_0. cbn. lia.
    + rewrite Rcompare_Gt; auto. apply F2R_gt_0. cbn. lia.
Qed.
Lemma to_single_twice x : to_single (to_single x) = to_single x.
Proof. unfold to_single. rewrite down_up. reflexivity. Qed.
Lemma to_single_is x r : is x r -> Rabs r <= big32 -> is (to_single x) (rn32 r).
Proof. intros H B. destruct (down_is x r H B) as [F <-]. apply up_is, F. Qed.
Lemma rn32_id r : rn32 r = r <-> fmt32 r.
Proof.
  split; [intros <-; apply generic_format_round; typeclasses eauto|intros H; apply round_generic; [typeclasses eauto|exact H]].
Qed.

(** the argument is one-dimensional and its k-th value is the finite number r k, small enough for single precision *)
Definition holds (v : inp b64) (n : nat) (r : nat -> R) : Prop :=
  shp (as_arr v) = [n] /\ forall k, (k < n)%nat -> is (get (as_arr v) [k]) (r k) /\ Rabs (r k) <= big32.
(** the number max_daylight works with: ndarrays are used as they are, everything else is rounded to single precision *)
Definition seen (v : inp b64) (r : nat -> R) (k : nat) : R := match v with INd _ => r k | _ => rn32 (r k) end.
(** arguments of the same kind, not ndarrays, that agree after rounding to single precision *)
Definition same_single (v v' : inp b64) : Prop :=
  kind_of v = kind_of v' /\ kind_of v <> KNd /\ shp (as_arr v) = shp (as_arr v') /\
  forall i, inb (shp (as_arr v)) i -> to_single (get (as_arr v) i) = to_single (get (as_arr v') i).

Lemma duck_holds v n r : holds v n r -> List.length (ravel (duck to_single v)) = n /\ ndim (duck to_single v) = 1%nat /\
  forall d k, (k < n)%nat -> is (nth k (ravel (duck to_single v)) d) (seen v r k).
Proof.
  intros [S H]. assert (S' : shp (duck to_single v) = [n]) by (destruct v; exact S).
  split; [rewrite ravel_length, S'; cbn; lia|]. split; [unfold ndim; rewrite S'; reflexivity|].
  intros d k Hk. assert (I : inb (shp (duck to_single v)) [k]) by (rewrite S'; repeat constructor; auto).
  pose proof (nth_ravel d _ _ I) as E. rewrite S' in E. cbn in E. replace (k * 1 + 0)%nat with k in E by lia. rewrite E.
  destruct (H k Hk) as [V B]. destruct v; cbn [duck converted as_arr amap get seen] in *; try exact V; apply to_single_is; auto.
Qed.

Lemma weak_Z (L : libm) (s : bool) z : (Z.abs z <= 2 ^ 24)%Z -> is (weak to_single s (@ofZ _ (NumB L) z)) (IZR z).
Proof.
  intros H. assert (V : is (b64_ofZ z) (IZR z)) by (apply ofZ_exact; lia). destruct s; [|exact V]. cbn [weak].
  replace (IZR z) with (rn32 (IZR z)).
  - apply to_single_is; [exact V|]. unfold big32. apply Rle_trans with (bpow radix2 24); [|apply bpow_le; lia].
    rewrite <- abs_IZR. change (bpow radix2 24) with (IZR (2 ^ 24)). apply IZR_le, H.
  - apply rn32_id. apply generic_format_FLT. destruct (Z.eq_dec (Z.abs z) (2 ^ 24)) as [E|E].
    + exists (Float radix2 (z / 2) 1).
      * unfold F2R. cbn [Fnum Fexp]. change (bpow radix2 1) with (IZR 2). rewrite <- mult_IZR. f_equal.
        destruct (Zabs_spec z) as [[? Ez]|[? Ez]]; rewrite Ez in E; [subst z; reflexivity|]. replace z with (- 2 ^ 24)%Z by lia. reflexivity.
      * cbn [Fnum]. change (radix2 ^ 24)%Z with (2 ^ 24)%Z. destruct (Zabs_spec z) as [[? Ez]|[? Ez]]; rewrite Ez in E; [subst z|replace z with (- 2 ^ 24)%Z by lia]; reflexivity.
      * cbn. lia.
    + exists (Float radix2 z 0); [unfold F2R; cbn; lra|change (radix2 ^ 24)%Z with (2 ^ 24)%Z; cbn [Fnum]; lia|cbn; lia].
Qed.

Section Api.
  Variables (L L' : libm).
  Notation md := (max_daylight_np L L').

  Lemma gt_iff (s : bool) z v r : (Z.abs z <= 2 ^ 24)%Z -> is v r ->
    @nlt _ (arith (NumB L) (NumS L') s) (weak to_single s (@ofZ _ (NumB L) z)) (@nabs _ (arith (NumB L) (NumS L') s) v) = true <-> IZR z < Rabs r.
  Proof.
    intros Hz V. assert (A : is (Babs v) (Rabs r)). { destruct V as [F <-]. split; [rewrite is_finite_Babs; exact F|apply B2R_Babs]. }
    replace (@nlt _ (arith (NumB L) (NumS L') s) (weak to_single s (@ofZ _ (NumB L) z)) (@nabs _ (arith (NumB L) (NumS L') s) v))
      with (Bltb (weak to_single s (@ofZ _ (NumB L) z)) (Babs v)) by (destruct s; reflexivity).
    rewrite (lt_is _ _ _ _ (weak_Z L s z Hz) A). destruct (Rlt_bool_spec (IZR z) (Rabs r)); split; auto; try discriminate; intros; lra.
  Qed.
  Lemma le_iff (s : bool) z v r : (Z.abs z <= 2 ^ 24)%Z -> is v r ->
    @nle _ (arith (NumB L) (NumS L') s) (@nabs _ (arith (NumB L) (NumS L') s) v) (weak to_single s (@ofZ _ (NumB L) z)) = true <-> Rabs r <= IZR z.
  Proof.
    intros Hz V. assert (A : is (Babs v) (Rabs r)). { destruct V as [F <-]. split; [rewrite is_finite_Babs; exact F|apply B2R_Babs]. }
    replace (@nle _ (arith (NumB L) (NumS L') s) (@nabs _ (arith (NumB L) (NumS L') s) v) (weak to_single s (@ofZ _ (NumB L) z)))
      with (Bleb (Babs v) (weak to_single s (@ofZ _ (NumB L) z))) by (destruct s; reflexivity).
    rewrite (le_is _ _ _ _ A (weak_Z L s z Hz)). destruct (Rle_bool_spec (Rabs r) (IZR z)); split; auto; try discriminate; intros; lra.
  Qed.

  Lemma forallb_seen (P : b64 -> bool) (Q : R -> Prop) lat m rl : holds lat m rl -> (forall v r, is v r -> P v = true <-> Q r) ->
    forallb P (ravel (duck to_single lat)) = true <-> forall k, (k < m)%nat -> Q (seen lat rl k).
  Proof.
    intros H PQ. destruct (duck_holds lat m rl H) as (Ln & _ & G). rewrite forallb_forall. split.
    - intros A k Hk. apply (PQ _ _ (G B754_nan k Hk)). apply A, nth_In. lia.
    - intros A x Hx. destruct (In_nth _ x B754_nan Hx) as (k & Hk & <-). rewrite Ln in Hk. apply (PQ _ _ (G B754_nan k Hk)). auto.
  Qed.

  (** what the function computes, for arguments it accepts *)
  Lemma run jday lat n m rj rl : holds jday n rj -> holds lat m rl ->
    exists wn out, md jday lat = Ok (wn, out) /\ shp (as_arr out) = [n; m] /\
    (wn = Some WLimited <-> forall k, (k < m)%nat -> 55 < Rabs (seen lat rl k) <= 66) /\
    (wn = Some WImpossible <-> (0 < m)%nat /\ forall k, (k < m)%nat -> 66 < Rabs (seen lat rl k)) /\
    match jday with
    | IDa _ => exists o cd cl, out = IDa o /\ dims o = ["doy"; "lat"]%string /\
        coords o = [("doy"%string, mkCoord ["doy"%string] cd); ("lat"%string, mkCoord ["lat"%string] cl)] /\ shp cd = [n] /\ shp cl = [m] /\
        (forall k, (k < n)%nat -> is (get cd [k]) (seen jday rj k)) /\ (forall k, (k < m)%nat -> is (get cl [k]) (seen lat rl k))
    | _ => kind_of out = KNd
    end.
  Proof.
    intros Hj Hl. destruct (duck_holds jday n rj Hj) as (Lj & Dj & Gj). destruct (duck_holds lat m rl Hl) as (Ll & Dl & Gl).
    unfold max_daylight_np, max_daylight_prec. cbv zeta. rewrite Dj, Dl. cbn [Nat.ltb Nat.leb orb Nat.eqb].
    match goal with |- context [if ?a then Some WLimited else if ?b then _ else _] => set (c1 := a); set (c2 := b) end.
    assert (C1 : c1 = true <-> forall k, (k < m)%nat -> 55 < Rabs (seen lat rl k) <= 66).
    { unfold c1. rewrite andb_true_iff.
      rewrite (forallb_seen _ (fun r => 55 < Rabs r) lat m rl Hl) by (intros v r V; apply gt_iff; [lia|exact V]).
      rewrite (forallb_seen _ (fun r => Rabs r <= 66) lat m rl Hl) by (intros v r V; apply le_iff; [lia|exact V]).
      split; [intros [A B] k Hk; split; auto|intros A; split; intros k Hk; apply A; auto]. }
    assert (C2 : c2 = true <-> forall k, (k < m)%nat -> 66 < Rabs (seen lat rl k)).
    { apply (forallb_seen _ (fun r => 66 < Rabs r) lat m rl Hl). intros v r V. apply gt_iff; [lia|exact V]. }
    assert (W : forall wn, wn = (if c1 then Some WLimited else if c2 then Some WImpossible else None) ->
      (wn = Some WLimited <-> forall k, (k < m)%nat -> 55 < Rabs (seen lat rl k) <= 66) /\
      (wn = Some WImpossible <-> (0 < m)%nat /\ forall k, (k < m)%nat -> 66 < Rabs (seen lat rl k))).
    { intros wn ->. rewrite <- C1, <- C2. destruct c1.
      - split; [tauto|]. split; [discriminate|]. intros [H0 H2]. exfalso. pose proof (proj1 C1 eq_refl 0%nat H0). pose proof (proj1 C2 H2 0%nat H0). lra.
      - destruct c2; (split; [split; discriminate|]); split; try discriminate; try tauto; [|intros [_ H]; discriminate].
        intros _. split; auto. destruct (Nat.eq_dec m 0) as [E|]; [|lia]. exfalso. assert (false = true); [|discriminate]. apply C1. intros k Hk. lia. }
    destruct jday as [d|a|a|x|x]; do 2 eexists; (split; [reflexivity|]); cbn [as_arr dat shp];
      (split; [rewrite Lj, Ll; reflexivity|]); (split; [apply W; reflexivity|]); (split; [apply W; reflexivity|]); try reflexivity.
    do 3 eexists. split; [reflexivity|]. split; [reflexivity|]. split; [reflexivity|]. unfold vec. cbn [shp get hd]. rewrite Lj, Ll.
    split; [reflexivity|]. split; [reflexivity|]. split; intros k Hk; [apply Gj|apply Gl]; auto.
  Qed.

  Lemma c104_warnings jday lat n m rj rl : holds jday n rj -> holds lat m rl -> exists wn out,
    md jday lat = Ok (wn, out) /\ shp (as_arr out) = [n; m] /\
    (wn = Some WLimited <-> forall k, (k < m)%nat -> 55 < Rabs (seen lat rl k) <= 66) /\
    (wn = Some WImpossible <-> (0 < m)%nat /\ forall k, (k < m)%nat -> 66 < Rabs (seen lat rl k)).
  Proof. intros Hj Hl. destruct (run jday lat n m rj rl Hj Hl) as (wn & out & A & B & C & D & _). exists wn, out. auto. Qed.

  Lemma ravel_same v v' : same_single v v' -> ravel (duck to_single v) = ravel (duck to_single v') /\ ndim (duck to_single v) = ndim (duck to_single v') /\
    converted v = true /\ converted v' = true.
  Proof.
    intros (K & Kn & S & G). assert (C : converted v = true) by (destruct v; cbn in *; congruence).
    assert (C' : converted v' = true) by (destruct v, v'; cbn in *; congruence).
    unfold duck. rewrite C, C'. split; [|split; auto]; [|unfold ndim; cbn [amap shp]; rewrite S; reflexivity].
    unfold ravel. cbn [amap shp get]. rewrite <- S. apply map_ext_in. intros i Hi. apply G, all_idx_inb, Hi.
  Qed.
  Lemma c104_single jday jday' lat lat' : same_single jday jday' -> same_single lat lat' -> md jday lat = md jday' lat'.
  Proof.
    intros Hj Hl. destruct (ravel_same _ _ Hj) as (Rj & Dj & Cj & Cj'). destruct (ravel_same _ _ Hl) as (Rl & Dl & Cl & Cl').
    unfold max_daylight_np, max_daylight_prec. cbv zeta. rewrite Rj, Rl, Dj, Dl, Cj, Cj', Cl, Cl'.
    destruct Hj as (K & _). destruct jday, jday'; cbn in K; try discriminate K; reflexivity.
  Qed.

  Lemma c103_labels d lat n m rj rl : holds (IDa d) n rj -> holds lat m rl -> exists wn out cd cl,
    md (IDa d) lat = Ok (wn, IDa out) /\ dims out = ["doy"; "lat"]%string /\ shp (dat out) = [n; m] /\
    coords out = [("doy"%string, mkCoord ["doy"%string] cd); ("lat"%string, mkCoord ["lat"%string] cl)] /\ shp cd = [n] /\ shp cl = [m] /\
    (forall k, (k < n)%nat -> is (get cd [k]) (rn32 (rj k))) /\
    (forall k, (k < m)%nat -> is (get cl [k]) (match lat with INd _ => rl k | _ => rn32 (rl k) end)).
  Proof.
    intros Hj Hl. destruct (run _ _ _ _ _ _ Hj Hl) as (wn & out & E & S & _ & _ & o & cd & cl & -> & A & B & C & D & F & G).
    exists wn, o, cd, cl. repeat (split; [assumption|]). exact G.
  Qed.
  Lemma c103_refuted d lat n m rj rl : holds (IDa d) n rj -> holds lat m rl -> exists wn out cd cl,
    md (IDa d) lat = Ok (wn, IDa out) /\ slookup "doy" (coords out) = Some (mkCoord ["doy"%string] cd) /\
    slookup "lat" (coords out) = Some (mkCoord ["lat"%string] cl) /\
    (forall k, (k < n)%nat -> is (get cd [k]) (rj k) <-> fmt32 (rj k)) /\
    (kind_of lat <> KNd -> forall k, (k < m)%nat -> is (get cl [k]) (rl k) <-> fmt32 (rl k)).
  Proof.
    intros Hj Hl. destruct (c103_labels _ _ _ _ _ _ Hj Hl) as (wn & out & cd & cl & E & _ & _ & C & _ & _ & F & G).
    exists wn, out, cd, cl. rewrite C. split; [exact E|]. split; [reflexivity|]. split; [reflexivity|].
    assert (Q : forall x r, is x (rn32 r) -> is x r <-> fmt32 r).
    { intros x r [Fx V]. rewrite <- rn32_id. unfold is. rewrite V. tauto. }
    split; [intros k Hk; apply Q, F, Hk|]. intros Hn k Hk. apply Q. specialize (G k Hk). destruct lat; cbn in Hn; congruence || exact G.
  Qed.
End Api.

(** 66.000001: in single precision it is 66 *)
Definition lat66 : b64 := b64_dec 66000001 6.
Definition lat66s : arr b64 := vec B754_nan [lat66].
Lemma lat66_is : exists r, is lat66 r /\ 66 < r /\ Rabs r <= big32 /\ rn32 r = 66.
Proof.
  exists (B2R lat66). assert (F : is_finite lat66 = true) by (vm_compute; reflexivity). split; [split; auto|].
  assert (G : 66 < B2R lat66 < 67).
  { pose proof (lt_is (b64_ofZ 66) lat66 _ _ (ofZ_exact 66 ltac:(lia)) (conj F eq_refl)) as A.
    pose proof (lt_is lat66 (b64_ofZ 67) _ _ (conj F eq_refl) (ofZ_exact 67 ltac:(lia))) as B.
    replace (Bltb (b64_ofZ 66) lat66) with true in A by (vm_compute; reflexivity).
    replace (Bltb lat66 (b64_ofZ 67)) with true in B by (vm_compute; reflexivity).
    destruct (Rlt_bool_spec 66 (B2R lat66)), (Rlt_bool_spec (B2R lat66) 67); try discriminate. lra. }
  split; [lra|]. assert (H : Rabs (B2R lat66) <= big32).
  { rewrite Rabs_right by lra. apply Rle_trans with (bpow radix2 7); [change (bpow radix2 7) with 128; lra|apply bpow_le; lia]. }
  split; [exact H|]. pose proof (to_single_is lat66 _ (conj F eq_refl) H) as Ts.
  pose proof (eq_is (to_single lat66) (b64_ofZ 66) _ _ Ts (ofZ_exact 66 ltac:(lia))) as A.
  replace (Beqb (to_single lat66) (b64_ofZ 66)) with true in A by (vm_compute; reflexivity).
  destruct (Req_bool_spec (rn32 (B2R lat66)) 66); [assumption|discriminate].
Qed.
Lemma c104_refuted (L L' : libm) jday n rj : holds jday n rj -> exists o o',
  max_daylight_np L L' jday (INd lat66s) = Ok (Some WImpossible, o) /\ max_daylight_np L L' jday (IList lat66s) = Ok (Some WLimited, o').
Proof.
  intros Hj. destruct lat66_is as (r & V & G & B & E).
  assert (H1 : forall v, as_arr v = lat66s -> holds v 1 (fun _ => r)).
  { intros v Ev. unfold holds. rewrite Ev. split; [reflexivity|]. intros k Hk. replace k with 0%nat by lia. split; [exact V|exact B]. }
  destruct (run L L' jday (INd lat66s) _ _ _ _ Hj (H1 (INd lat66s) eq_refl)) as (wn & o & E1 & _ & _ & W1 & _).
  destruct (run L L' jday (IList lat66s) _ _ _ _ Hj (H1 (IList lat66s) eq_refl)) as (wn' & o' & E2 & _ & W2 & _ & _).
  exists o, o'. rewrite E1, E2. rewrite (proj2 W1), (proj2 W2); auto.
  - intros k _. cbn [seen]. rewrite E, Rabs_right by lra. lra.
  - split; [lia|]. intros k _. cbn [seen]. rewrite Rabs_right by lra. lra.
Qed.

(** when float32 is float64 this is the function of Meteo.v *)
Lemma prec_exact {T} (N : Num T) jday lat : max_daylight_prec N N (fun x => x) jday lat = max_daylight jday lat.
Proof.
  assert (D : forall v : inp T, duck (fun x => x) v = as_arr v) by (intros v; unfold duck; destruct (converted v); [destruct (as_arr v)|]; reflexivity).
  unfold max_daylight_prec, max_daylight. cbv zeta. rewrite !D.
  destruct (Nat.ltb 1 (ndim (as_arr lat)) || Nat.ltb 1 (ndim (as_arr jday))); [reflexivity|].
  unfold cell, minus_tan_lat, tan_sdec, arith, weak, rad, pi2yr, con, daylight_cell. 
  destruct jday, lat; cbn [converted andb]; reflexivity.
Qed.

(** ** precision of the values *)
Lemma mul_is_single (L' : libm) x y : exists z : b32, @nmul _ (NumS L') x y = up z.
Proof. eexists. reflexivity. Qed.
Lemma kind_converted {T} (v : inp T) : converted v = false <-> kind_of v = KNd.
Proof. destruct v; cbn; split; congruence. Qed.
Lemma c104_precision (L L' : libm) jday lat n m rj rl : holds jday n rj -> holds lat m rl -> exists wn out,
  max_daylight_np L L' jday lat = Ok (wn, out) /\ shp (as_arr out) = [n; m] /\
  (kind_of jday <> KNd -> kind_of lat <> KNd -> forall i j, (i < n)%nat -> (j < m)%nat -> exists z : b32, get (as_arr out) [i; j] = up z) /\
  (kind_of jday = KNd \/ kind_of lat = KNd -> forall i j, (i < n)%nat -> (j < m)%nat -> exists y,
     get (as_arr out) [i; j] = Bmult mode_NE (Bdiv mode_NE (b64_ofZ 24) (@npi _ (NumB L))) (m_acos L y)) /\
  (kind_of jday = KNd -> kind_of lat = KNd -> @max_daylight _ (NumB L) jday lat = Ok (wn, out)).
Proof.
  intros Hj Hl. destruct (duck_holds _ _ _ Hj) as (Lj & Nj & _). destruct (duck_holds _ _ _ Hl) as (Ll & Nl & _).
  destruct (c104_warnings L L' jday lat n m rj rl Hj Hl) as (wn & out & E & Sh & _).
  exists wn, out. split; auto. split; auto.
  assert (V : forall i j, (i < n)%nat -> (j < m)%nat -> exists a b, get (as_arr out) [i; j] = cell (NumB L) (NumS L') to_single (converted lat) (converted jday) a b).
  { unfold max_daylight_np, max_daylight_prec in E. cbv zeta in E. rewrite Nj, Nl in E. cbn [Nat.ltb Nat.leb Nat.eqb orb] in E.
    destruct jday; inversion E; subst; intros i j Hi Hj'; cbn [as_arr dat get nth]; do 2 eexists; reflexivity. }
  split; [|split].
  - intros Kj Kl i j Hi Hj'. destruct (V i j Hi Hj') as (a & b & ->).
    destruct (converted lat) eqn:Cl; [|apply kind_converted in Cl; contradiction]. destruct (converted jday) eqn:Cj; [|apply kind_converted in Cj; contradiction].
    unfold cell. cbn [andb]. apply mul_is_single.
  - intros K i j Hi Hj'. destruct (V i j Hi Hj') as (a & b & ->).
    assert (Es : converted lat && converted jday = false) by (destruct K as [K|K]; apply kind_converted in K; rewrite K; [apply andb_false_r|reflexivity]).
    unfold cell. cbv zeta. rewrite Es. cbn [arith weak]. eexists. reflexivity.
  - intros Kj Kl. rewrite <- E. destruct jday, lat; try discriminate. rewrite <- (prec_exact (NumB L)).
    unfold max_daylight_np, max_daylight_prec, duck. cbn [converted]. reflexivity.
Qed.
Lemma c104_rejected (L L' : libm) d lat : ndim (dat d) <> 1%nat \/ ndim (as_arr lat) <> 1%nat -> max_daylight_np L L' (IDa d) lat = Err ValueError.
Proof.
  intros H. unfold max_daylight_np, max_daylight_prec. cbv zeta.
  assert (D : forall v, ndim (duck to_single v) = ndim (as_arr v)) by (intros v; unfold duck; destruct (converted v); reflexivity).
  rewrite !D. cbn [as_arr].
  destruct (ndim (dat d)) as [|[|x]], (ndim (as_arr lat)) as [|[|y]]; cbn; auto. destruct H; congruence.
Qed.
Lemma c104_ranks (L L' : libm) jday lat : (1 < ndim (as_arr jday))%nat \/ (1 < ndim (as_arr lat))%nat -> max_daylight_np L L' jday lat = Err ValueError.
Proof.
  intros H. unfold max_daylight_np, max_daylight_prec. cbv zeta.
  assert (D : forall v, ndim (duck to_single v) = ndim (as_arr v)) by (intros v; unfold duck; destruct (converted v); reflexivity).
  rewrite !D. destruct (ndim (as_arr jday)) as [|[|x]], (ndim (as_arr lat)) as [|[|y]]; cbn; auto; lia.
Qed.
