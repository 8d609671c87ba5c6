(** Interpolation superposes, preserves order and does not amplify differences (C128). *)
From Coq Require Import Reals List Bool Arith ZArith Lra Lia String Permutation.
From Verif Require Import PyBase PyFacts Num NumFacts Arr ArrFacts XrFacts Spec Hybrid HybridFacts Interp1d Interp1dFacts InterpHyb ChunkFacts
  InterpHybFacts InterpColumn InterpApi InterpProps InterpFinal LevelOrder InterpSigma InterpSigmaFacts InterpSigmaShort
  InterpMulti InterpMultiFacts InterpGrid InterpCyclic SpecSuper.
Import ListNotations.
Local Open Scope R_scope.

Lemma abs_between x e : Rabs x <= e -> - e <= x <= e.
Proof. intros H. pose proof (Rle_abs x). pose proof (Rle_abs (- x)) as K. rewrite Rabs_Ropp in K. lra. Qed.
Lemma all_nan {I} (P : I -> Prop) V W U : superposes P V W U NaN NaN NaN.
Proof. split; [|split]; intros; left; auto. Qed.
Lemma mix {I} (P : I -> Prop) V W U i j w : P i -> P j -> 0 <= w <= 1 ->
  superposes P V W U (Fin (V i + (V j - V i) * w)) (Fin (W i + (W j - W i) * w)) (Fin (U i + (U j - U i) * w)).
Proof.
  intros Hi Hj Hw. split; [|split].
  - intros c1 c2 E. right. eexists. eexists. split; [reflexivity|]. split; [reflexivity|]. f_equal. rewrite !E by auto. ring.
  - intros L. right. eexists. eexists. split; [reflexivity|]. split; [reflexivity|]. pose proof (L i Hi). pose proof (L j Hj). nra.
  - intros e L. right. eexists. eexists. split; [reflexivity|]. split; [reflexivity|].
    pose proof (L i Hi) as A. pose proof (L j Hj) as B. apply abs_between in A. apply abs_between in B. apply Rabs_le. nra.
Qed.

Section Column.
  Variables (m : imethod) (p : nat -> R) (n : nat) (x : R) (V W U : nat -> R) (y1 y2 y3 : fl) (v1 v2 v3 : nat -> fl).
  Hypothesis Hn : (0 < n)%nat.
  Hypothesis Hpos : m = MLog -> (forall k, (k < n)%nat -> 0 < p k) /\ 0 < x.
  Hypothesis Hd : distinct_levels p n.
  Hypothesis H1 : forall k, (k < n)%nat -> v1 k = Fin (V k).
  Hypothesis H2 : forall k, (k < n)%nat -> v2 k = Fin (W k).
  Hypothesis H3 : forall k, (k < n)%nat -> v3 k = Fin (U k).
  Lemma col_super : column_value (vcoord m) p v1 n x y1 -> column_value (vcoord m) p v2 n x y2 -> column_value (vcoord m) p v3 n x y3 ->
    superposes (fun k => (k < n)%nat) V W U y1 y2 y3.
  Proof.
    assert (X : forall i j, code_bracket p n i j x -> ~ out_of_range p n x).
    { intros i j ((Hi & Hj & _) & [Hx _]) [O|O]; [specialize (O j Hj)|specialize (O i Hi)]; lra. }
    intros [[O ->]|(i & j & B & E1)].
    - intros [[_ ->]|(i & j & B & _)]; [|destruct (X _ _ B O)]. intros [[_ ->]|(i & j & B & _)]; [|destruct (X _ _ B O)]. apply all_nan.
    - intros [[O _]|(i2 & j2 & B2 & E2)]; [destruct (X _ _ B O)|]. intros [[O _]|(i3 & j3 & B3 & E3)]; [destruct (X _ _ B O)|].
      destruct (bracket_unique _ _ _ _ _ _ _ Hd B B2) as [-> ->]. destruct (bracket_unique _ _ _ _ _ _ _ Hd B2 B3) as [-> ->].
      destruct (bracket_weight m p n x Hpos _ _ B3) as [Hw _]. destruct B3 as ((Hi & Hj & _) & _).
      rewrite E1, E2, E3, !H1, !H2, !H3, !blend_fin by auto. apply mix; auto.
  Qed.
End Column.

Lemma c128_pressure (d1 d2 d3 ps hyam hybm : da fl) l lb ax n A B levels p0 a m :
  hyb_call d1 ps hyam hybm l lb ax n A B levels a m -> hyb_call d2 ps hyam hybm l lb ax n A B levels a m ->
  hyb_call d3 ps hyam hybm l lb ax n A B levels a m -> a_extrapolate a = false ->
  dims d2 = dims d1 -> dims d3 = dims d1 -> shp (dat d2) = shp (dat d1) -> shp (dat d3) = shp (dat d1) ->
  exists o1 o2 o3,
    interp_hybrid_to_pressure (VDa d1) (VDa ps) (VDa hyam) (VDa hybm) (map Fin levels) (Fin p0) a = Ok o1 /\
    interp_hybrid_to_pressure (VDa d2) (VDa ps) (VDa hyam) (VDa hybm) (map Fin levels) (Fin p0) a = Ok o2 /\
    interp_hybrid_to_pressure (VDa d3) (VDa ps) (VDa hyam) (VDa hybm) (map Fin levels) (Fin p0) a = Ok o3 /\
    shp (dat o2) = shp (dat o1) /\ shp (dat o3) = shp (dat o1) /\
    forall i s V W U, inb (shp (dat o1)) i -> getn ps (env_of (dims d1) i) = Fin s ->
      let p := hyb_pressure A B p0 s in
      distinct_levels p n -> (m = MLog -> (forall k, (k < n)%nat -> 0 < p k) /\ Forall (Rlt 0) levels) ->
      (forall k, (k < n)%nat -> get (dat d1) (upd i ax k) = Fin (V k) /\ get (dat d2) (upd i ax k) = Fin (W k) /\ get (dat d3) (upd i ax k) = Fin (U k)) ->
      superposes (fun k => (k < n)%nat) V W U (get (dat o1) i) (get (dat o2) i) (get (dat o3) i).
Proof.
  intros Q1 Q2 Q3 Hex D2 D3 S2 S3.
  destruct (c17_any _ _ _ _ _ _ _ _ _ _ _ p0 _ _ Q1 Hex) as (o1 & v1 & E1 & O1 & T1 & G1).
  destruct (c17_any _ _ _ _ _ _ _ _ _ _ _ p0 _ _ Q2 Hex) as (o2 & v2 & E2 & O2 & T2 & G2).
  destruct (c17_any _ _ _ _ _ _ _ _ _ _ _ p0 _ _ Q3 Hex) as (o3 & v3 & E3 & O3 & T3 & G3).
  assert (v2 = v1) by (eapply served_order_unique; eauto). assert (v3 = v1) by (eapply served_order_unique; eauto). subst v2 v3.
  exists o1, o2, o3. repeat (split; [first [assumption|congruence]|]).
  intros i s V W U Hi Hs p Hd Hm Hv.
  assert (Hm2 : m = MLog -> (forall k, (k < n)%nat -> 0 < p k) /\ Forall (Rlt 0) v1).
  { intros Em. destruct (Hm Em) as [K1 K2]. split; auto. rewrite Forall_forall in *. intros z Hz. apply K2. eapply Permutation_in; [apply O1|auto]. }
  assert (Hax : (nth ax i 0%nat < List.length v1)%nat).
  { pose proof (w_n _ _ _ _ _ _ _ _ (h_wf _ _ _ _ _ _ _ _ _ _ _ _ _ Q1)) as Wn.
    assert (L : (ax < List.length (shp (dat d1)))%nat) by (apply nth_error_Some; congruence).
    rewrite (Permutation_length (proj1 O1)). destruct (proj1 (inb_nth _ _) Hi) as [_ K]. rewrite T1 in K. specialize (K ax).
    rewrite upd_length in K. specialize (K L). rewrite nth_upd, Nat.eqb_refl in K.
    replace (Nat.ltb ax (List.length (shp (dat d1)))) with true in K by (symmetry; apply Nat.ltb_lt; auto). exact K. }
  eapply (col_super m p n (nth (nth ax i 0%nat) v1 0)).
  - intros Em. destruct (Hm2 Em) as [K1 K2]. split; auto. rewrite Forall_forall in K2. apply K2, nth_In. exact Hax.
  - exact Hd.
  - intros k Hk. exact (proj1 (Hv k Hk)).
  - intros k Hk. exact (proj1 (proj2 (Hv k Hk))).
  - intros k Hk. exact (proj2 (proj2 (Hv k Hk))).
  - apply (G1 i s); auto.
  - apply (G2 i s); auto; [congruence|congruence].
  - apply (G3 i s); auto; [congruence|congruence].
Qed.

Lemma c128_sigma (d1 d2 d3 ps hyam hybm : da fl) (sig : list R) l h ax n nh A B p0 lev_dim cf m :
  sig_wf d1 ps hyam hybm (map Fin sig) l h ax n nh -> sig_wf d2 ps hyam hybm (map Fin sig) l h ax n nh -> sig_wf d3 ps hyam hybm (map Fin sig) l h ax n nh ->
  lev_dim = Some l \/ (lev_dim = None /\ cf = Some l) -> (2 <= n)%nat -> (0 < nh <= n)%nat -> NoDup sig ->
  (forall k, (k < nh)%nat -> get (dat hyam) [k] = Fin (A k)) -> (forall k, (k < nh)%nat -> get (dat hybm) [k] = Fin (B k)) ->
  dims d2 = dims d1 -> dims d3 = dims d1 -> shp (dat d2) = shp (dat d1) -> shp (dat d3) = shp (dat d1) ->
  exists o1 o2 o3,
    interp_sigma_to_hybrid d1 (map Fin sig) ps hyam hybm (Fin p0) lev_dim cf (meth_name m) = Ok o1 /\
    interp_sigma_to_hybrid d2 (map Fin sig) ps hyam hybm (Fin p0) lev_dim cf (meth_name m) = Ok o2 /\
    interp_sigma_to_hybrid d3 (map Fin sig) ps hyam hybm (Fin p0) lev_dim cf (meth_name m) = Ok o3 /\
    shp (dat o2) = shp (dat o1) /\ shp (dat o3) = shp (dat o1) /\
    forall i s V W U, inb (shp (dat o1)) i -> getn ps (env_of (dims d1) i) = Fin s -> s <> 0 ->
      (m = MLog -> Forall (Rlt 0) sig /\ Forall (Rlt 0) (map (hyb_sigma A B p0 s) (seq 0 nh))) ->
      (forall k, (k < n)%nat -> get (dat d1) (upd i ax k) = Fin (V k) /\ get (dat d2) (upd i ax k) = Fin (W k) /\ get (dat d3) (upd i ax k) = Fin (U k)) ->
      superposes (fun k => (k < n)%nat) V W U (get (dat o1) i) (get (dat o2) i) (get (dat o3) i).
Proof.
  intros Q1 Q2 Q3 Hl Hn Hh Hs HA HB D2 D3 S2 S3.
  destruct (c22_lemma _ _ _ _ _ _ _ _ _ _ A B p0 lev_dim cf m Q1 Hl Hn Hh Hs HA HB) as (o1 & x1 & E1 & _ & T1 & _ & _ & _ & _ & G1).
  destruct (c22_lemma _ _ _ _ _ _ _ _ _ _ A B p0 lev_dim cf m Q2 Hl Hn Hh Hs HA HB) as (o2 & x2 & E2 & _ & T2 & _ & _ & _ & _ & G2).
  destruct (c22_lemma _ _ _ _ _ _ _ _ _ _ A B p0 lev_dim cf m Q3 Hl Hn Hh Hs HA HB) as (o3 & x3 & E3 & _ & T3 & _ & _ & _ & _ & G3).
  exists o1, o2, o3. repeat (split; [first [assumption|congruence]|]).
  intros i s V W U Hi Hp Hs0 Hm Hv.
  assert (Hi2 : inb (shp (dat o2)) i) by (rewrite T2, S2, <- T1; exact Hi). assert (Hi3 : inb (shp (dat o3)) i) by (rewrite T3, S3, <- T1; exact Hi).
  destruct (G1 i s Hi Hp Hs0 Hm) as (v1 & O1 & _ & C1).
  destruct (G2 i s Hi2 ltac:(rewrite D2; exact Hp) Hs0 Hm) as (v2 & O2 & _ & C2).
  destruct (G3 i s Hi3 ltac:(rewrite D3; exact Hp) Hs0 Hm) as (v3 & O3 & _ & C3).
  assert (v2 = v1) by (eapply served_order_unique; eauto). assert (v3 = v1) by (eapply served_order_unique; eauto). subst v2 v3.
  pose proof (s_sig _ _ _ _ _ _ _ _ _ _ Q1) as Ls. rewrite map_length in Ls.
  assert (Hax : (nth ax i 0%nat < List.length v1)%nat).
  { pose proof (s_n _ _ _ _ _ _ _ _ _ _ Q1) as Wn.
    assert (L : (ax < List.length (shp (dat d1)))%nat) by (apply nth_error_Some; congruence).
    rewrite (Permutation_length (proj1 O1)), map_length, seq_length. destruct (proj1 (inb_nth _ _) Hi) as [_ K]. rewrite T1 in K. specialize (K ax).
    rewrite upd_length in K. specialize (K L). rewrite nth_upd, Nat.eqb_refl in K.
    replace (Nat.ltb ax (List.length (shp (dat d1)))) with true in K by (symmetry; apply Nat.ltb_lt; auto). exact K. }
  eapply (col_super m (fun k => nth k sig 0) n (nth (nth ax i 0%nat) v1 0)).
  - intros Em. destruct (Hm Em) as [K1 K2]. rewrite Forall_forall in *. split.
    + intros k Hk. apply K1, nth_In. lia.
    + apply K2. eapply Permutation_in; [apply O1|]. apply nth_In. exact Hax.
  - intros j k Hj Hk E. apply (proj1 (NoDup_nth sig 0) Hs); [lia|lia|exact E].
  - intros k Hk. exact (proj1 (Hv k Hk)).
  - intros k Hk. exact (proj1 (proj2 (Hv k Hk))).
  - intros k Hk. exact (proj2 (proj2 (Hv k Hk))).
  - exact C1.
  - exact C2.
  - exact C3.
Qed.

(** ** latitude-longitude grids *)
Lemma lin_mix x0 x1 v0 v1 x : lin x0 x1 v0 v1 x = v0 + (v1 - v0) * ((x - x0) / (x1 - x0)).
Proof. reflexivity. Qed.
Lemma weight01 x0 x1 x : x0 < x1 -> x0 <= x <= x1 -> 0 <= (x - x0) / (x1 - x0) <= 1.
Proof.
  intros L H. split.
  - apply Rmult_le_pos; [lra|]. apply Rlt_le, Rinv_0_lt_compat. lra.
  - apply Rmult_le_reg_r with (x1 - x0); [lra|]. unfold Rdiv. rewrite Rmult_assoc, Rinv_l by lra. lra.
Qed.
Lemma mix4 {I} (P : I -> Prop) (V W U : I -> R) a b c d u w : P a -> P b -> P c -> P d -> 0 <= u <= 1 -> 0 <= w <= 1 ->
  let m (F : I -> R) := (F a + (F b - F a) * u) + ((F c + (F d - F c) * u) - (F a + (F b - F a) * u)) * w in
  superposes P V W U (Fin (m V)) (Fin (m W)) (Fin (m U)).
Proof.
  intros Ha Hb Hc Hd Hu Hw m.
  assert (B : forall v0 v1 w, 0 <= w <= 1 -> v0 <= 0 -> v1 <= 0 -> v0 + (v1 - v0) * w <= 0) by (clear; intros; nra).
  split; [|split].
  - intros c1 c2 E. right. eexists. eexists. split; [reflexivity|]. split; [reflexivity|]. f_equal. unfold m. rewrite !E by auto. ring.
  - intros L. right. eexists. eexists. split; [reflexivity|]. split; [reflexivity|].
    pose proof (L a Ha). pose proof (L b Hb). pose proof (L c Hc). pose proof (L d Hd).
    pose proof (B _ _ w Hw (B (V a - W a) (V b - W b) u Hu ltac:(lra) ltac:(lra)) (B (V c - W c) (V d - W d) u Hu ltac:(lra) ltac:(lra))). unfold m. nra.
  - intros e L. right. eexists. eexists. split; [reflexivity|]. split; [reflexivity|].
    pose proof (abs_between _ _ (L a Ha)). pose proof (abs_between _ _ (L b Hb)). pose proof (abs_between _ _ (L c Hc)). pose proof (abs_between _ _ (L d Hd)).
    pose proof (B _ _ w Hw (B (V a - W a - e) (V b - W b - e) u Hu ltac:(lra) ltac:(lra)) (B (V c - W c - e) (V d - W d - e) u Hu ltac:(lra) ltac:(lra))).
    pose proof (B _ _ w Hw (B (W a - V a - e) (W b - V b - e) u Hu ltac:(lra) ltac:(lra)) (B (W c - V c - e) (W d - V d - e) u Hu ltac:(lra) ltac:(lra))).
    apply Rabs_le. unfold m. split; nra.
Qed.
Lemma c128_multi (D1 D2 D3 : val fl) la lo ds (a1 a2 a3 : arr fl) s LAT LON yo xo fill (V W U : list nat -> R) :
  grid_input D1 la lo ds a1 s LAT LON -> grid_input D2 la lo ds a2 s LAT LON -> grid_input D3 la lo ds a3 s LAT LON ->
  (2 <= List.length LAT)%nat -> (2 <= List.length LON)%nat -> NoDup LAT -> NoDup LON ->
  (forall i, inb (shp a1) i -> get a1 i = Fin (V i)) -> (forall i, inb (shp a2) i -> get a2 i = Fin (W i)) -> (forall i, inb (shp a3) i -> get a3 i = Fin (U i)) ->
  exists o1 o2 o3,
    interp_multidim MdLinear D1 (map Fin yo) (map Fin xo) la lo false None fill = Ok o1 /\
    interp_multidim MdLinear D2 (map Fin yo) (map Fin xo) la lo false None fill = Ok o2 /\
    interp_multidim MdLinear D3 (map Fin yo) (map Fin xo) la lo false None fill = Ok o3 /\
    shp (dat o2) = shp (dat o1) /\ shp (dat o3) = shp (dat o1) /\
    forall q jy jx, inb s q -> (jy < List.length yo)%nat -> (jx < List.length xo)%nat ->
      ~ out_of_range (fun k => nth k LAT 0) (List.length LAT) (nth jy yo 0) -> ~ out_of_range (fun k => nth k LON 0) (List.length LON) (nth jx xo 0) ->
      superposes (fun kc : nat * nat => (fst kc < List.length LAT)%nat /\ (snd kc < List.length LON)%nat)
        (fun kc => V (q ++ [fst kc; snd kc])) (fun kc => W (q ++ [fst kc; snd kc])) (fun kc => U (q ++ [fst kc; snd kc]))
        (get (dat o1) (q ++ [jy; jx])) (get (dat o2) (q ++ [jy; jx])) (get (dat o3) (q ++ [jy; jx])).
Proof.
  intros I1 I2 I3 La Lo Na No H1 H2 H3.
  destruct (c23_lemma _ _ _ _ _ _ _ _ yo xo fill V I1 La Lo Na No H1) as (o1 & E1 & _ & T1 & G1).
  destruct (c23_lemma _ _ _ _ _ _ _ _ yo xo fill W I2 La Lo Na No H2) as (o2 & E2 & _ & T2 & G2).
  destruct (c23_lemma _ _ _ _ _ _ _ _ yo xo fill U I3 La Lo Na No H3) as (o3 & E3 & _ & T3 & G3).
  exists o1, o2, o3. repeat (split; [first [assumption|congruence]|]).
  intros q jy jx Hq Hy Hx Oy Ox.
  destruct (in_range_bracket _ _ La Na Oy) as (k & b & Nk & By). destruct (in_range_bracket _ _ Lo No Ox) as (c & d & Nc & Bx).
  destruct (proj1 (proj2 (G1 q jy jx Hq Hy Hx)) k b c d Nk By Nc Bx) as (r1 & F1 & R1 & _).
  destruct (proj1 (proj2 (G2 q jy jx Hq Hy Hx)) k b c d Nk By Nc Bx) as (r2 & F2 & R2 & _).
  destruct (proj1 (proj2 (G3 q jy jx Hq Hy Hx)) k b c d Nk By Nc Bx) as (r3 & F3 & R3 & _).
  rewrite F1, F2, F3, R1, R2, R3. destruct Nk as (Lk & Lb & Kb & _). destruct Nc as (Lc & Ld & Kd & _). cbv beta in Kb, Kd.
  exact (mix4 (fun kc : nat * nat => (fst kc < List.length LAT)%nat /\ (snd kc < List.length LON)%nat)
    (fun kc => V (q ++ [fst kc; snd kc])) (fun kc => W (q ++ [fst kc; snd kc])) (fun kc => U (q ++ [fst kc; snd kc]))
    (k, c) (k, d) (b, c) (b, d) _ _ (conj Lk Lc) (conj Lk Ld) (conj Lb Lc) (conj Lb Ld) (weight01 _ _ _ Kd Bx) (weight01 _ _ _ Kb By)).
Qed.
