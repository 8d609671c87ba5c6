(** C131: interp_sigma_to_hybrid in double precision. *)
From Coq Require Import Reals List Bool Arith ZArith Lra Lia String Permutation.
From Flocq Require Import Core BinarySingleNaN.
From Verif Require Import PyBase PyFacts Num NumFacts NumB64 Arr ArrFacts XrFacts Spec SpecSum SpecB64 SpecB64Sigma B64Facts B64DeltaP B64Hybrid B64Blend
  Hybrid HybridFacts Interp1d Interp1dFacts Interp1dGen InterpHyb ChunkFacts InterpHybFacts InterpApi InterpSigma InterpSigmaFacts B64Interp B64Sigma PropertiesB64.
Import ListNotations.
Local Open Scope R_scope.

(** C131.  Either method in double precision.  [want k] is what the key (sigma or its computed logarithm) of hybrid level k comes to in
    the column of [i]; [sr] are the keys of the sigma levels.  The call succeeds; the value is NaN when the key is outside the range of
    the sigma levels, and otherwise a good value ([good_value], SpecB64.v) between the two levels whose keys enclose it. *)
Theorem C131_binary64_sigma :
  forall (M : libm) (data ps hyam hybm : da b64) sig l h ax n nh p0 lev_dim cf_name m sr,
  @sig_wf b64 (NumB M) data ps hyam hybm sig l h ax n nh -> lev_dim = Some l \/ (lev_dim = None /\ cf_name = Some l) -> (2 <= n)%nat -> (0 < nh <= n)%nat ->
  Forall2 is (map (vkey M m) sig) sr -> NoDup sr -> Forall (fun z => Rabs z <= 2 * hi900) sr ->
  exists out, @interp_sigma_to_hybrid b64 (NumB M) data sig ps hyam hybm p0 lev_dim cf_name (meth_name m) = Ok out /\
    dims out = upd (dims data) ax "hlev"%string /\ shp (dat out) = upd (shp (dat data)) ax nh /\
    forall i want, inb (shp (dat out)) i ->
      (forall k, (k < nh)%nat ->
         is (vkey M m (Bplus mode_NE (Bdiv mode_NE (Bmult mode_NE (get (dat hyam) [k]) p0) (getn ps (env_of (dims data) i))) (get (dat hybm) [k]))) (want k)) ->
      one_direction (map want (seq 0 nh)) ->
      let q k := nth k sr 0 in let x := want (nth ax i 0%nat) in let y := get (dat out) i in
      (out_of_range q n x -> y = B754_nan) /\
      (~ out_of_range q n x -> exists lo hi, code_bracket q n lo hi x /\
         forall va vb, is (get (dat data) (upd i ax lo)) va -> is (get (dat data) (upd i ax hi)) vb -> Rabs va <= hi900 -> Rabs vb <= hi900 ->
           exists r, is y r /\ good_value va vb (q lo) (q hi) x r).
Proof. exact c131_lemma. Qed.
Print Assumptions C131_binary64_sigma.

(** C131.  The linear method with everything in real numbers: [rsig] (SpecB64Sigma.v) is hyam * p0 / ps + hybm rounded at each step. *)
Theorem C131_binary64_linear :
  forall (M : libm) (data ps hyam hybm : da b64) sig l h ax n nh p0 lev_dim cf_name sr a b p0r,
  @sig_wf b64 (NumB M) data ps hyam hybm sig l h ax n nh -> lev_dim = Some l \/ (lev_dim = None /\ cf_name = Some l) -> (2 <= n)%nat -> (0 < nh <= n)%nat ->
  Forall2 is sig sr -> NoDup sr -> Forall (fun z => Rabs z <= 2 * hi900) sr ->
  (forall k, (k < nh)%nat -> is (get (dat hyam) [k]) (a k) /\ is (get (dat hybm) [k]) (b k)) -> is p0 p0r ->
  exists out, @interp_sigma_to_hybrid b64 (NumB M) data sig ps hyam hybm p0 lev_dim cf_name "linear" = Ok out /\
    dims out = upd (dims data) ax "hlev"%string /\ shp (dat out) = upd (shp (dat data)) ax nh /\
    forall i s, inb (shp (dat out)) i -> is (getn ps (env_of (dims data) i)) s -> s <> 0 -> sig_in_range a b p0r s nh ->
      one_direction (map (fun k => rsig (a k) (b k) p0r s) (seq 0 nh)) ->
      let q k := nth k sr 0 in let j := nth ax i 0%nat in let x := rsig (a j) (b j) p0r s in let y := get (dat out) i in
      (out_of_range q n x -> y = B754_nan) /\
      (~ out_of_range q n x -> exists lo hi, code_bracket q n lo hi x /\
         forall va vb, is (get (dat data) (upd i ax lo)) va -> is (get (dat data) (upd i ax hi)) vb -> Rabs va <= hi900 -> Rabs vb <= hi900 ->
           exists r, is y r /\ good_value va vb (q lo) (q hi) x r).
Proof. exact c131_linear. Qed.
Print Assumptions C131_binary64_linear.

(** the hypotheses on a call: two columns with surface pressure p0 = 100000, sigma levels 0.000011, 1 and 2, hybrid levels (0.000011, 0) and (0, 1) *)
Definition exs_top : b64 := b64_dec 11 6.
Definition exs_hy (l : list b64) : da b64 := mkDa ["h"%string] (mkArr [2]%nat (fun i => nth (hd 0%nat i) l (b64_ofZ 0))) [] [] None.
Definition exs_ps : da b64 := mkDa ["lat"%string] (mkArr [2]%nat (fun _ => b64_ofZ 100000)) [] [] None.
Definition exs_data (f : nat -> b64) : da b64 := mkDa ["lev"; "lat"]%string (mkArr [3; 2]%nat (fun i => f (hd 0%nat i))) [] [] None.
Definition exs_sig : list b64 := [exs_top; b64_ofZ 1; b64_ofZ 2].
(** 0.000011 * 100000 / 100000 in double precision, and 0 added *)
Definition exs_low : b64 := Bplus mode_NE (Bdiv mode_NE (Bmult mode_NE exs_top (b64_ofZ 100000)) (b64_ofZ 100000)) (b64_ofZ 0).
Lemma exs_top_is : is exs_top (B2R exs_top). Proof. split; reflexivity. Qed.
Lemma exs_low_is : is exs_low (B2R exs_low). Proof. split; reflexivity. Qed.
Lemma exs_order : B2R exs_low < B2R exs_top < 1 /\ 0 < B2R exs_low.
Proof.
  assert (Q : Bltb exs_low exs_top = true) by reflexivity. assert (Q1 : Bltb exs_top (b64_ofZ 1) = true) by reflexivity. assert (Q0 : Bltb (b64_ofZ 0) exs_low = true) by reflexivity.
  rewrite (lt_is _ _ _ _ exs_low_is exs_top_is) in Q. rewrite (lt_is _ _ _ 1 exs_top_is ltac:(lit)) in Q1. rewrite (lt_is _ _ 0 _ ltac:(lit) exs_low_is) in Q0.
  destruct (Rlt_bool_spec (B2R exs_low) (B2R exs_top)); [|discriminate]. destruct (Rlt_bool_spec (B2R exs_top) 1); [|discriminate].
  destruct (Rlt_bool_spec 0 (B2R exs_low)); [|discriminate]. lra.
Qed.
Definition exs_want (k : nat) : R := nth k [B2R exs_low; 1] 0.
Example C131_example (M : libm) (f : nat -> b64) :
  @sig_wf b64 (NumB M) (exs_data f) exs_ps (exs_hy [exs_top; b64_ofZ 0]) (exs_hy [b64_ofZ 0; b64_ofZ 1]) exs_sig "lev" "h" 0%nat 3%nat 2%nat /\
  Forall2 is (map (vkey M MLinear) exs_sig) [B2R exs_top; 1; 2] /\ NoDup [B2R exs_top; 1; 2] /\ Forall (fun z => Rabs z <= 2 * hi900) [B2R exs_top; 1; 2] /\
  (forall k, (k < 2)%nat ->
     is (Bplus mode_NE (Bdiv mode_NE (Bmult mode_NE (get (dat (exs_hy [exs_top; b64_ofZ 0])) [k]) (b64_ofZ 100000)) (getn exs_ps (env_of (dims (exs_data f)) [0; 1]%nat)))
           (get (dat (exs_hy [b64_ofZ 0; b64_ofZ 1])) [k])) (exs_want k)) /\
  one_direction (map exs_want (seq 0 2)).
Proof.
  pose proof exs_order as Eo.
  split.
  { constructor; try reflexivity; cbn; try congruence; try (left; intuition discriminate).
    - split; [reflexivity|]. repeat constructor; cbn; intuition discriminate.
    - repeat constructor; lia.
    - split; [reflexivity|]. repeat constructor; cbn; intuition discriminate.
    - intros d [<-|[]]. reflexivity.
    - intuition discriminate. }
  split. { unfold exs_sig. constructor; [exact exs_top_is|]. repeat constructor; lit. }
  split.
  { apply NoDup_cons; [|apply NoDup_cons; [|apply NoDup_cons; [intros []|apply NoDup_nil]]]; intros Q; cbn [In] in Q; intuition lra. }
  split.
  { assert (H9 : 1000 <= hi900) by (pose proof (small_Z 1000 ltac:(split; apply Z.leb_le; reflexivity)) as Q; apply Rabs_le_inv in Q; lra).
    repeat (apply Forall_cons; [apply Rabs_le; lra|]). apply Forall_nil. }
  split.
  { intros [|[|k]] Hk; [| |lia]; unfold exs_want; cbn [nth get dat exs_hy hd getn exs_ps].
    { exact exs_low_is. }
    replace (Bplus mode_NE (Bdiv mode_NE (Bmult mode_NE (b64_ofZ 0) (b64_ofZ 100000)) (b64_ofZ 100000)) (b64_ofZ 1)) with (b64_ofZ 1) by reflexivity. lit. }
  left. intros i j H. cbn in H. destruct i as [|[|i]], j as [|[|j]]; try lia. unfold exs_want. cbn [map seq nth]. lra.
Qed.

(** the hypotheses of C131_binary64_linear on coefficients: (2, 0) and (0, 5) with p0 = 1000 over a surface at 500 give 4 and 5, between the
    sigma levels 3, 5 and 6 *)
Definition exl_a (k : nat) : R := nth k [2; 0] 0.
Definition exl_b (k : nat) : R := nth k [0; 5] 0.
Lemma exl_sig k : (k < 2)%nat -> rn (exl_a k * 1000) = exl_a k * 1000 /\ rsig (exl_a k) (exl_b k) 1000 500 = nth k [4; 5] 0.
Proof.
  assert (R0 : forall x z, (Z.abs z <=? 2 ^ 53)%Z = true -> x = IZR z -> rn x = x) by (intros x z Hz ->; apply rn_fmt, fmt_Z, Z.leb_le, Hz).
  intros Hk. unfold rsig, exl_a, exl_b. destruct k as [|[|k]]; [| |lia]; cbn [nth].
  - assert (E : rn (2 * 1000) = 2 * 1000) by (apply (R0 _ 2000%Z); [reflexivity|lra]). split; [exact E|]. rewrite E.
    rewrite (R0 (2 * 1000 / 500) 4%Z); [|reflexivity|lra]. rewrite (R0 (2 * 1000 / 500 + 0) 4%Z); [lra|reflexivity|lra].
  - assert (E : rn (0 * 1000) = 0 * 1000) by (apply (R0 _ 0%Z); [reflexivity|lra]). split; [exact E|]. rewrite E.
    rewrite (R0 (0 * 1000 / 500) 0%Z); [|reflexivity|lra]. rewrite (R0 (0 * 1000 / 500 + 5) 5%Z); [lra|reflexivity|lra].
Qed.
Example C131_linear_example :
  sig_in_range exl_a exl_b 1000 500 2 /\ one_direction (map (fun k => rsig (exl_a k) (exl_b k) 1000 500) (seq 0 2)) /\
  ~ out_of_range (fun k => nth k [3; 5; 6] 0) 3 (rsig (exl_a 0) (exl_b 0) 1000 500).
Proof.
  assert (H9 : 2000 <= hi900) by (pose proof (small_Z 2000 ltac:(split; apply Z.leb_le; reflexivity)) as Q; apply Rabs_le_inv in Q; lra).
  split.
  { intros k Hk. rewrite (proj1 (exl_sig k Hk)). destruct k as [|[|k]]; [| |lia]; unfold exl_a, exl_b; cbn [nth];
      (split; [|split]); apply Rabs_le; lra. }
  split.
  { left. intros i j H. cbn in H. destruct i as [|[|i]], j as [|[|j]]; try lia. cbn [map seq nth]. rewrite !(fun k H => proj2 (exl_sig k H)) by lia. cbn [nth]. lra. }
  rewrite (proj2 (exl_sig 0 ltac:(lia))). cbn [nth]. intros [Q|Q]; [specialize (Q 1%nat ltac:(lia))|specialize (Q 0%nat ltac:(lia))]; cbn [nth] in Q; lra.
Qed.

(** C131.  C22 says that a hybrid level whose sigma is that of the first sigma level gets the datum of that level.  In double precision it
    may be lost: with hyam = 0.000011 and hybm = 0 over a surface at p0 = 100000 the level is the sigma level 0.000011, but
    0.000011 * 100000 / 100000 is rounded to less than 0.000011, and the value is NaN whatever the data. *)
Theorem C131_top_level_refuted :
  forall (M : libm) (f : nat -> b64), exists out,
  @interp_sigma_to_hybrid b64 (NumB M) (exs_data f) exs_sig exs_ps (exs_hy [exs_top; b64_ofZ 0]) (exs_hy [b64_ofZ 0; b64_ofZ 1]) (b64_ofZ 100000) (Some "lev"%string) None "linear" = Ok out /\
  get (dat exs_ps) [1]%nat = b64_ofZ 100000 /\ get (dat (exs_hy [exs_top; b64_ofZ 0])) [0]%nat = nth 0 exs_sig B754_nan /\
  get (dat out) [0; 1]%nat = B754_nan.
Proof.
  intros M f. destruct (C131_example M f) as (W & Hs & Hd & Hb & Hw & Ho). pose proof exs_order as Eo.
  destruct (C131_binary64_sigma M _ _ _ _ _ _ _ _ _ _ (b64_ofZ 100000) (Some "lev"%string) None MLinear _ W (or_introl eq_refl) ltac:(lia) ltac:(lia) Hs Hd Hb) as (out & E & _ & So & G).
  exists out. split; [exact E|]. split; [reflexivity|]. split; [reflexivity|].
  assert (Hi : inb (shp (dat out)) [0; 1]%nat) by (rewrite So; repeat constructor).
  destruct (G [0; 1]%nat exs_want Hi Hw Ho) as [G1 _]. apply G1. right. intros k Hk. cbn [nth exs_want].
  do 3 (destruct k; [cbn [nth]; lra|]). lia.
Qed.
Print Assumptions C131_top_level_refuted.
