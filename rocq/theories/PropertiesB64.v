(** Public theorems in binary64 arithmetic: the same model, instantiated with IEEE 754 numbers (numpy float64). *)
From Coq Require Import Reals List Bool Arith ZArith Lra Lia String Permutation.
From Flocq Require Import Core BinarySingleNaN.
From Verif Require Import PyBase Num NumFacts NumB64 Arr ArrFacts XrFacts Spec SpecSum SpecB64 B64Facts
  DeltaP DeltaPFacts DeltaPApi B64DeltaP Hybrid HybridFacts HybridProps B64Hybrid Interp1d InterpHyb InterpHybFacts InterpApi B64Blend B64Interp.
Import ListNotations.
Local Open Scope R_scope.

Lemma small_Z z : (0 <= z <= 2 ^ 53)%Z -> Rabs (IZR z) <= hi900.
Proof.
  intros H. rewrite Rabs_pos_eq by (apply IZR_le; lia). apply Rle_trans with (IZR (2 ^ 53)); [apply IZR_le; lia|].
  change (bpow radix2 53 <= hi900). apply bpow_le. lia.
Qed.
Ltac lit := apply ofZ_exact; apply Z.leb_le; reflexivity.
Ltac litfmt := apply fmt_Z; apply Z.leb_le; reflexivity.

(** C95.  delta_pressure in double precision: the layers that exist are those whose rounded upper midpoint is above the surface, they
    are finite and non-negative (positive except possibly the first when no room is left above the first level), the others are NaN,
    each is within 3 * 2^-53 of the surface pressure of the exact layer, and their sum within 4 * 2^-53 of it of ps - top. *)
Theorem C95_binary64_layers :
  forall (M : libm) isda at' (l : list b64) v (down : bool) s a t tb top ps0,
  Forall2 is l v -> increasing v -> (2 <= List.length v)%nat -> lo900 <= at_ v 0 -> at_ v (List.length v - 1) <= hi900 -> 0 <= top <= at_ v 0 ->
  t = Some tb /\ is tb top \/ t = None /\ top = at_ v 0 ->
  surf_arr s = Some a ->
  (forall idx, inb (shp a) idx -> is (get a idx) (ps0 idx) /\ rmid v 1 < ps0 idx <= hi900) ->
  exists out, @delta_pressure b64 (NumB M) (mkLevels isda (if down then l else rev l) at') s t = Ok out /\
    shp (out_arr out) = shp a ++ [List.length v] /\
    forall idx, inb (shp a) idx -> exists e d,
      let layer k := get (out_arr out) (idx ++ [if down then k else (List.length v - 1 - k)%nat]) in
      (1 <= e < List.length v)%nat /\
      (forall k, (1 <= k < List.length v)%nat -> (k <= e)%nat <-> rmid v k < ps0 idx) /\
      (forall k, (k <= e)%nat -> is (layer k) (d k) /\ 0 <= d k /\ Rabs (d k - xlayer v (ps0 idx) top e k) <= 3 * ulp1 * ps0 idx) /\
      (forall k, (1 <= k <= e)%nat -> 0 < d k) /\ (top < at_ v 0 -> 0 < d 0%nat) /\
      (forall k, (e < k < List.length v)%nat -> layer k = B754_nan) /\
      Rabs (bigsum (S e) d - (ps0 idx - top)) <= 4 * ulp1 * ps0 idx.
Proof. exact b64_delta_pressure. Qed.
Print Assumptions C95_binary64_layers.

Example C95_example :
  let l := map b64_ofZ [100; 500; 1000]%Z in let v := [100; 500; 1000] in
  Forall2 is l v /\ increasing v /\ lo900 <= at_ v 0 /\ at_ v (List.length v - 1) <= hi900 /\
  is (b64_ofZ 700) 700 /\ rmid v 1 < 700 <= hi900 /\ ~ rmid v 2 < 700.
Proof.
  cbv zeta. split; [repeat constructor; lit|]. split.
  { intros i j Hi Hj. unfold at_. destruct i as [|[|[|i]]], j as [|[|[|j]]]; cbn in *; try lia; lra. }
  assert (LE : lo900 <= 1) by (change 1 with (bpow radix2 0); apply bpow_le; lia).
  assert (HI : forall z, (0 <= z <= 2 ^ 53)%Z -> IZR z <= hi900).
  { intros z H. pose proof (small_Z z H) as Q. apply Rabs_le_inv in Q. lra. }
  assert (E1 : rmid [100; 500; 1000] 1 = 300).
  { unfold rmid, at_. cbn [Nat.sub nth]. replace (500 + 100) with 600 by lra. rewrite (rn_fmt 600) by litfmt. lra. }
  assert (E2 : rmid [100; 500; 1000] 2 = 750).
  { unfold rmid, at_. cbn [Nat.sub nth]. replace (1000 + 500) with 1500 by lra. rewrite (rn_fmt 1500) by litfmt. lra. }
  rewrite E1, E2. unfold at_. cbn [List.length Nat.sub nth]. split; [lra|]. split; [apply HI; split; apply Z.leb_le; reflexivity|]. split; [lit|].
  split; [split; [lra|apply HI; split; apply Z.leb_le; reflexivity]|lra].
Qed.

(** C96.  pressure_at_hybrid_levels and delta_pressure_hybrid in double precision. *)
Theorem C96_labelled_pressures :
  forall (M : libm) (vp va vb : val b64) psfc hya hyb p0b la lb n (a b : nat -> R) p0 (ps : list nat -> R),
  as_da vp = Some psfc -> as_da va = Some hya -> as_da vb = Some hyb ->
  dims hya = [la] -> dims hyb = [lb] -> shp (dat hya) = [n] -> shp (dat hyb) = [n] ->
  wf_da psfc -> ~ In la (dims psfc) -> slookup la (coords psfc) = None ->
  wf_coords hyb -> (la <> lb -> slookup la (coords hyb) = None) ->
  @same_labels b64 (NumB M) (index_labels hya la) (index_labels hyb lb) ->
  coeffs_are (dat hya) (dat hyb) a b n -> is p0b p0 ->
  (forall idx, inb (shp (dat psfc)) idx -> is (get (dat psfc) idx) (ps idx) /\ in_range a b p0 (ps idx) n) ->
  exists r (P : nat -> list nat -> R), @pressure_at_hybrid_levels b64 (NumB M) vp va vb p0b = Ok (negb (String.eqb la lb), VDa r) /\
    dims r = la :: dims psfc /\ shp (dat r) = n :: shp (dat psfc) /\
    (forall k idx, (k < n)%nat -> inb (shp (dat psfc)) idx ->
      is (get (dat r) (k :: idx)) (P k idx) /\ good_pressure (a k) (b k) p0 (ps idx) (P k idx)) /\
    (forall k idx idx', (k < n)%nat -> 0 <= b k -> ps idx <= ps idx' -> P k idx <= P k idx').
Proof. exact b64_pressure_labelled. Qed.
Print Assumptions C96_labelled_pressures.

Theorem C96_numpy_pressures :
  forall (M : libm) (psfc hya hyb : arr b64) p0b n (a b : nat -> R) p0 (ps : nat -> nat -> R),
  shp hya = [n] -> shp hyb = [n] -> (ndim psfc <= 2)%nat ->
  coeffs_are hya hyb a b n -> is p0b p0 ->
  (forall i j, inb (np_shape2 psfc) [i; j] -> is (np_cell psfc i j) (ps i j) /\ in_range a b p0 (ps i j) n) ->
  exists r (P : nat -> nat -> nat -> R), @pressure_at_hybrid_levels b64 (NumB M) (VNd psfc) (VNd hya) (VNd hyb) p0b = Ok (false, VNd r) /\
    shp r = n :: np_shape2 psfc /\
    (forall k i j, (k < n)%nat -> inb (np_shape2 psfc) [i; j] ->
      is (get r [k; i; j]) (P k i j) /\ good_pressure (a k) (b k) p0 (ps i j) (P k i j)) /\
    (forall k i j i' j', (k < n)%nat -> 0 <= b k -> ps i j <= ps i' j' -> P k i j <= P k i' j').
Proof. exact b64_pressure_numpy. Qed.
Print Assumptions C96_numpy_pressures.

Theorem C96_labelled_thickness :
  forall (M : libm) (psd : da b64) va vb hya hyb p0b la lb n (a b : nat -> R) p0 (ps : list nat -> R),
  @vda b64 (NumB M) va = hya -> @vda b64 (NumB M) vb = hyb -> exact_type va = true -> exact_type vb = true -> is_nd va = is_nd vb ->
  dims hya = [la] -> dims hyb = [lb] -> shp (dat hya) = [n] -> shp (dat hyb) = [n] ->
  (List.length (coords hya) <= 1)%nat -> (List.length (coords hyb) <= 1)%nat ->
  wf_da psd -> ~ In la (dims psd) -> slookup la (coords psd) = None -> @labels_refl b64 (NumB M) psd ->
  coeffs_are (dat hya) (dat hyb) a b n -> is p0b p0 ->
  (forall idx, inb (shp (dat psd)) idx -> is (get (dat psd) idx) (ps idx) /\ in_range a b p0 (ps idx) n) ->
  exists r, @delta_pressure_hybrid b64 (NumB M) (VDa psd) va vb true p0b = Ok (VDa r) /\
    dims r = la :: dims psd /\ shp (dat r) = (n - 1)%nat :: shp (dat psd) /\
    forall idx, inb (shp (dat psd)) idx -> exists P d,
      (forall k, (k < n - 1)%nat -> is (get (dat r) (k :: idx)) (d k)) /\
      (forall k, (k < n)%nat -> good_pressure (a k) (b k) p0 (ps idx) (P k)) /\
      good_column n P d.
Proof. exact b64_thickness_labelled. Qed.
Print Assumptions C96_labelled_thickness.

Theorem C96_numpy_thickness :
  forall (M : libm) (psd : arr b64) va vb hya hyb p0b n (a b : nat -> R) p0 (ps : nat -> nat -> R),
  @vvalues b64 (NumB M) va = hya -> @vvalues b64 (NumB M) vb = hyb -> exact_type va = true -> exact_type vb = true -> is_nd va = is_nd vb ->
  shp hya = [n] -> shp hyb = [n] -> (ndim psd <= 2)%nat ->
  coeffs_are hya hyb a b n -> is p0b p0 ->
  (forall i j, inb (np_shape2 psd) [i; j] -> is (np_cell psd i j) (ps i j) /\ in_range a b p0 (ps i j) n) ->
  exists r, @delta_pressure_hybrid b64 (NumB M) (VNd psd) va vb true p0b = Ok (VNd r) /\
    shp r = (n - 1)%nat :: np_shape2 psd /\
    forall i j, inb (np_shape2 psd) [i; j] -> exists P d,
      (forall k, (k < n - 1)%nat -> is (get r [k; i; j]) (d k)) /\
      (forall k, (k < n)%nat -> good_pressure (a k) (b k) p0 (ps i j) (P k)) /\
      good_column n P d.
Proof. exact b64_thickness_numpy. Qed.
Print Assumptions C96_numpy_thickness.

(** three interfaces: a purely pressure level, a mixed one, the surface *)
Definition ex96_a (k : nat) : R := match k with 0%nat => 2 | 1%nat => 1 | _ => 0 end.
Definition ex96_b (k : nat) : R := match k with 0%nat => 0 | _ => 1 end.
Definition ex96_arr (f : nat -> Z) : arr b64 := mkArr [3%nat] (fun i => b64_ofZ (f (hd 0%nat i))).
Definition ex96_hya := ex96_arr (fun k => match k with 0%nat => 2 | 1%nat => 1 | _ => 0 end)%Z.
Definition ex96_hyb := ex96_arr (fun k => match k with 0%nat => 0 | _ => 1 end)%Z.
Example C96_example :
  shp ex96_hya = [3%nat] /\ shp ex96_hyb = [3%nat] /\ coeffs_are ex96_hya ex96_hyb ex96_a ex96_b 3 /\
  is (b64_ofZ 1000) 1000 /\ is (b64_ofZ 101325) 101325 /\ in_range ex96_a ex96_b 1000 101325 3 /\
  (forall P, good_pressure (ex96_a 0) (ex96_b 0) 1000 101325 P -> P = 2000) /\
  (forall P, good_pressure (ex96_a 2) (ex96_b 2) 1000 101325 P -> P = 101325).
Proof.
  split; [reflexivity|]. split; [reflexivity|]. split.
  { intros k Hk. destruct k as [|[|[|k]]]; [| | |lia]; split; lit. }
  split; [lit|]. split; [lit|]. split.
  { intros k Hk. destruct k as [|[|[|k]]]; [| | |lia]; unfold ex96_a, ex96_b; rewrite <- !mult_IZR; split; apply small_Z; split; apply Z.leb_le; reflexivity. }
  split.
  - intros P (_ & _ & _ & H). rewrite H by reflexivity. unfold ex96_a. rewrite <- mult_IZR. apply rn_fmt. litfmt.
  - intros P (_ & _ & H & _). apply H; reflexivity.
Qed.

(** C97.  interp_hybrid_to_pressure in double precision.  For each output position, [q k] is the coordinate of model level k the method
    interpolates in (the computed pressure, or its computed logarithm), assumed finite and distinct between levels: outside their range
    the result is NaN; inside, it is the rounded blend of two neighbouring levels ([good_value], SpecB64.v): within 10 * 2^-53 (|a| + |b|)
    of exact interpolation in q, between a and a number within 3 * 2^-53 (|a| + |b|) of b - exactly between a and b when these have one
    sign and differ by at most a factor of two - and equal to a at the level with the lower coordinate. *)
Theorem C97_binary64_interpolation :
  forall (M : libm) (data ps hyam hybm : da b64) l lb ax n levels p0 a m lv,
  @ihp_wf b64 (NumB M) data ps hyam hybm l lb ax n -> (2 <= n)%nat ->
  args_ok a l m -> chunks_ok a (shp (dat data)) -> a_extrapolate a = false -> levels <> [] ->
  Forall2 is (map (vkey M m) levels) lv -> one_direction lv ->
  exists out, @interp_hybrid_to_pressure b64 (NumB M) (VDa data) (VDa ps) (VDa hyam) (VDa hybm) levels p0 a = Ok out /\
    dims out = upd (dims data) ax "plev"%string /\ shp (dat out) = upd (shp (dat data)) ax (List.length levels) /\
    forall i, inb (shp (dat out)) i -> forall q, distinct_levels q n ->
      (forall k, (k < n)%nat -> Rabs (q k) <= 2 * hi900 /\
         is (vkey M m (Bplus mode_NE (Bmult mode_NE (get (dat hyam) [k]) p0)
                                     (Bmult mode_NE (get (dat hybm) [k]) (getn ps (env_of (dims data) i))))) (q k)) ->
      let x := nth (nth ax i 0%nat) lv 0 in let y := get (dat out) i in
      (out_of_range q n x -> y = B754_nan) /\
      (~ out_of_range q n x -> exists lo hi, code_bracket q n lo hi x /\
         forall va vb, is (get (dat data) (upd i ax lo)) va -> is (get (dat data) (upd i ax hi)) vb -> Rabs va <= hi900 -> Rabs vb <= hi900 ->
           exists r, is y r /\ good_value va vb (q lo) (q hi) x r).
Proof.
  intros M data ps hyam hybm l lb ax n levels p0 a m lv H1 H2 H3 H4 H5 H6 H7 H8.
  destruct (b64_interp M data ps hyam hybm l lb ax n levels p0 a m lv H1 H2 H3 H4 H5 H6 H7 H8) as (out & E & D & Sh & G).
  exists out. split; [exact E|]. split; [exact D|]. split; [exact Sh|]. intros i Hi q Hq Hk. apply (G i Hi q Hq).
  intros k Hkn. destruct (Hk k Hkn) as [K1 K2]. split; [exact K2|exact K1].
Qed.
Print Assumptions C97_binary64_interpolation.

(** the linear method, the levels' pressures written out in the coefficients *)
Theorem C97_binary64_linear :
  forall (M : libm) (data ps hyam hybm : da b64) l lb ax n levels p0b p0 a lv A B,
  @ihp_wf b64 (NumB M) data ps hyam hybm l lb ax n -> (2 <= n)%nat ->
  args_ok a l MLinear -> chunks_ok a (shp (dat data)) -> a_extrapolate a = false -> levels <> [] ->
  coeffs_are (dat hyam) (dat hybm) A B n -> is p0b p0 ->
  Forall2 is levels lv -> one_direction lv ->
  exists out, @interp_hybrid_to_pressure b64 (NumB M) (VDa data) (VDa ps) (VDa hyam) (VDa hybm) levels p0b a = Ok out /\
    dims out = upd (dims data) ax "plev"%string /\ shp (dat out) = upd (shp (dat data)) ax (List.length levels) /\
    forall i s, inb (shp (dat out)) i -> is (getn ps (env_of (dims data) i)) s -> in_range A B p0 s n ->
      let q k := rhyb (A k) (B k) p0 s in distinct_levels q n ->
      let x := nth (nth ax i 0%nat) lv 0 in let y := get (dat out) i in
      (out_of_range q n x -> y = B754_nan) /\
      (~ out_of_range q n x -> exists lo hi, code_bracket q n lo hi x /\
         forall va vb, is (get (dat data) (upd i ax lo)) va -> is (get (dat data) (upd i ax hi)) vb -> Rabs va <= hi900 -> Rabs vb <= hi900 ->
           exists r, is y r /\ good_value va vb (q lo) (q hi) x r).
Proof. exact b64_interp_linear. Qed.
Print Assumptions C97_binary64_linear.

(** between the same two levels the rounded values keep the order of the requested levels *)
Theorem C97_binary64_monotone :
  forall a b pa pb x y, fmt pa -> fmt pb -> pa < pb -> x <= y ->
  (a <= b -> rblend a b pa pb x <= rblend a b pa pb y) /\ (b <= a -> rblend a b pa pb y <= rblend a b pa pb x).
Proof. exact blend_mono. Qed.
Print Assumptions C97_binary64_monotone.

(** a call meeting the hypotheses: levels at pressures 100, ps - 300 and ps, requested levels 200, 600, 850 *)
Definition exb_coef (l : list Z) : da b64 := mkDa ["lev"%string] (mkArr [3]%nat (fun i => b64_ofZ (nth (hd 0%nat i) l 0%Z))) [] [] None.
Definition exb_ps : da b64 := mkDa ["lat"%string] (mkArr [2]%nat (fun i => b64_ofZ (nth (hd 0%nat i) [900; 1000] 0)%Z)) [] [] None.
Definition exb_data (f : nat -> b64) : da b64 := mkDa ["lev"; "lat"]%string (mkArr [3; 2]%nat (fun i => f (hd 0%nat i))) [] [] None.
Definition exb_args : ihp_args b64 := mkIhp "linear" (Some "lev"%string) false None None None None None false false.
Definition exb_A (k : nat) : R := nth k [100; -300; 0] 0.
Definition exb_B (k : nat) : R := nth k [0; 1; 1] 0.
Lemma exb_rhyb k : (k < 3)%nat -> rhyb (exb_A k) (exb_B k) 1 900 = nth k [100; 600; 900] 0.
Proof.
  intros Hk. assert (C : forall x y p w, fmt x -> fmt y -> fmt p -> x * 1 + y * 900 = p -> rn (x * 1) = x -> rn (y * 900) = w -> x + w = p -> rhyb x y 1 900 = p).
  { intros x y p w Fx Fy Fp E E1 E2 E3. unfold rhyb. rewrite E1, E2, E3. apply rn_fmt. exact Fp. }
  destruct k as [|[|[|k]]]; [| | |lia]; unfold exb_A, exb_B; cbn [nth].
  - apply (C _ _ _ 0); try litfmt; try lra; rewrite ?Rmult_1_r, ?Rmult_0_l; apply rn_fmt; litfmt.
  - apply (C _ _ _ 900); try litfmt; try lra; rewrite ?Rmult_1_r, ?Rmult_1_l; apply rn_fmt; litfmt.
  - apply (C _ _ _ 900); try litfmt; try lra; rewrite ?Rmult_1_r, ?Rmult_1_l; apply rn_fmt; litfmt.
Qed.
Example C97_example (M : libm) (f : nat -> b64) :
  @ihp_wf b64 (NumB M) (exb_data f) exb_ps (exb_coef [100; -300; 0]%Z) (exb_coef [0; 1; 1]%Z) "lev" "lev" 0%nat 3%nat /\
  args_ok exb_args "lev" MLinear /\ chunks_ok exb_args (shp (dat (exb_data f))) /\
  coeffs_are (dat (exb_coef [100; -300; 0]%Z)) (dat (exb_coef [0; 1; 1]%Z)) exb_A exb_B 3 /\ is (b64_ofZ 1) 1 /\
  Forall2 is (map b64_ofZ [200; 600; 850]%Z) [200; 600; 850] /\ one_direction [200; 600; 850] /\
  is (getn exb_ps (env_of (dims (exb_data f)) [1; 0]%nat)) 900 /\ in_range exb_A exb_B 1 900 3 /\
  distinct_levels (fun k => rhyb (exb_A k) (exb_B k) 1 900) 3.
Proof.
  split; [constructor; try reflexivity; cbn; try congruence; try (intros c []); try (left; intuition discriminate)|].
  { split; [reflexivity|]. repeat constructor; cbn; intuition discriminate. }
  { repeat constructor; lia. }
  { split; [reflexivity|]. repeat constructor; cbn; intuition discriminate. }
  { subst c. reflexivity. }
  { contradiction. }
  split; [constructor; cbn; auto; discriminate|]. split; [reflexivity|].
  split. { intros k Hk. do 3 (destruct k; [split; cbn [get dat exb_coef hd nth exb_A exb_B]; lit|]). lia. }
  split; [lit|]. split; [repeat constructor; lit|].
  split. { left. intros i j Hij. cbn in Hij. do 3 (destruct i; [do 3 (destruct j; [cbn; try lia; lra|]); lia|]). lia. }
  split; [change (is (b64_ofZ 900) 900); lit|].
  split.
  { intros k Hk. unfold exb_A, exb_B. assert (H9 : 1000 <= hi900) by (pose proof (small_Z 1000 ltac:(split; apply Z.leb_le; reflexivity)) as Q; apply Rabs_le_inv in Q; lra).
    do 3 (destruct k; [split; cbn [nth]; apply Rabs_le; lra|]). lia. }
  intros j k Hj Hk. rewrite !exb_rhyb by auto. do 3 (destruct j; [do 3 (destruct k; [cbn; intros E; try reflexivity; exfalso; lra|]); lia|]). lia.
Qed.

(** C12 does not hold in double precision: with 3 and 0.1 at the first two levels, the value at the second level's own pressure is not
    0.1 (it is 0.10000000000000009) *)
Definition exb_tracer (k : nat) : b64 := match k with 0%nat => b64_ofZ 3 | 1%nat => b64_dec 1 1 | _ => b64_ofZ 4 end.
Theorem C97_exact_model_levels_refuted :
  forall M : libm, exists out v,
  @interp_hybrid_to_pressure b64 (NumB M) (VDa (exb_data exb_tracer)) (VDa exb_ps) (VDa (exb_coef [100; -300; 0]%Z)) (VDa (exb_coef [0; 1; 1]%Z))
    (map b64_ofZ [200; 600; 850]%Z) (b64_ofZ 1) exb_args = Ok out /\
  rhyb (exb_A 1) (exb_B 1) 1 900 = 600 /\ is (exb_tracer 1) v /\ ~ is (get (dat out) [1; 0]%nat) v.
Proof.
  intros M. destruct (C97_example M exb_tracer) as (W & Ha & Hc & Hco & Hp & Hl & Hd & Hs & Hr & Hq).
  assert (Hne : map b64_ofZ [200; 600; 850]%Z <> []) by discriminate.
  destruct (C97_binary64_linear M _ _ _ _ _ _ _ _ _ _ _ _ _ _ _ W ltac:(lia) Ha Hc eq_refl Hne Hco Hp Hl Hd) as (out & E & _ & Sh & G).
  set (v := B2R (exb_tracer 1)). assert (Iv : is (exb_tracer 1) v) by (split; reflexivity).
  exists out, v. split; [exact E|]. split; [rewrite exb_rhyb by lia; reflexivity|]. split; [exact Iv|].
  assert (Hi : inb (shp (dat out)) [1; 0]%nat) by (rewrite Sh; repeat constructor).
  destruct (G [1; 0]%nat 900 Hi Hs Hr Hq) as [_ G2]. cbn [nth] in G2.
  assert (I3 : is (exb_tracer 0) 3) by lit.
  assert (v01 : Rabs v <= 4).
  { assert (L : Bleb (exb_tracer 1) (b64_ofZ 4) = true) by reflexivity. assert (L2 : Bleb (b64_ofZ 0) (exb_tracer 1) = true) by reflexivity.
    rewrite (le_is _ _ v 4 Iv ltac:(lit)) in L. rewrite (le_is _ _ 0 v ltac:(lit) Iv) in L2.
    destruct (Rle_bool_spec v 4); [|discriminate]. destruct (Rle_bool_spec 0 v); [|discriminate]. apply Rabs_le. lra. }
  assert (H4 : 4 <= hi900) by (pose proof (small_Z 4 ltac:(split; apply Z.leb_le; reflexivity)) as Q; apply Rabs_le_inv in Q; lra).
  destruct G2 as (lo & hi & ((Hlo & Hhi & Hlt & Hnb) & Hx & Hlow) & Gv).
  { intros [Q|Q]; [specialize (Q 2%nat ltac:(lia))|specialize (Q 0%nat ltac:(lia))]; rewrite exb_rhyb in Q by lia; cbn in Q; lra. }
  pose proof (Hnb 1%nat ltac:(lia)) as N1. rewrite !exb_rhyb in * by lia. cbn [nth] in N1.
  assert (lo = 0%nat).
  { destruct Hlow as [Hlow|Hlow].
    - do 3 (destruct lo; [cbn [nth] in *; try reflexivity; exfalso; lra|]). lia.
    - specialize (Hlow 0%nat ltac:(lia)). rewrite !exb_rhyb in Hlow by lia. do 3 (destruct lo; [cbn [nth] in *; try reflexivity; exfalso; lra|]). lia. }
  subst lo. cbn [nth] in *.
  assert (hi = 1%nat) by (do 3 (destruct hi; [cbn [nth] in *; try reflexivity; exfalso; lra|]); lia). subst hi. cbn [nth] in *.
  destruct (Gv 3 v I3 Iv ltac:(apply Rabs_le; lra) ltac:(lra)) as (r & Ir & (Er & _)).
  rewrite blend_high in Er; try (apply (is_fmt (exb_tracer 0)); exact I3); try litfmt; try lra.
  assert (I5 : is (Bminus mode_NE (exb_tracer 1) (exb_tracer 0)) (rn (v - 3))).
  { apply sub_is; auto. apply Rabs_le_inv in v01. pose proof hi_big. apply Rabs_le. lra. }
  assert (I6 : is (Bplus mode_NE (exb_tracer 0) (Bminus mode_NE (exb_tracer 1) (exb_tracer 0))) r).
  { rewrite Er. apply add_is; auto. assert (Rabs (rn (v - 3)) <= 8). { apply rn_abs_le; [litfmt|]. apply Rabs_le_inv in v01. apply Rabs_le. lra. }
    pose proof hi_big. apply Rabs_le_inv in H. apply Rabs_le. lra. }
  assert (Nq : Beqb (Bplus mode_NE (exb_tracer 0) (Bminus mode_NE (exb_tracer 1) (exb_tracer 0))) (exb_tracer 1) = false) by reflexivity.
  rewrite (eq_is _ _ _ _ I6 Iv) in Nq. intros [_ Q]. destruct Ir as [_ Q2]. rewrite Q in Q2. destruct (Req_bool_spec r v); [discriminate|]. apply H. symmetry. exact Q2.
Qed.
Print Assumptions C97_exact_model_levels_refuted.
