(** The hybrid-sigma pressures and layer thicknesses in binary64. *)
From Coq Require Import Reals List Bool Arith ZArith Lra Lia String.
From Flocq Require Import Core BinarySingleNaN.
From Verif Require Import PyBase Num NumFacts NumB64 SpecB64 B64Facts Arr ArrFacts XrFacts Spec SpecSum Hybrid HybridFacts HybridProps B64DeltaP.
Import ListNotations.
Local Open Scope R_scope.


Lemma hi_big2 : hi900 + hi900 <= big. Proof. pose proof hi_big. assert (0 < hi900) by apply bpow_gt_0. lra. Qed.
Lemma fmt_hi : fmt hi900. Proof. apply fmt_bpow. lia. Qed.

Lemma hyb_is x y p s a b p0 ps : is x a -> is y b -> is p p0 -> is s ps -> Rabs (a * p0) <= hi900 -> Rabs (b * ps) <= hi900 ->
  is (Bplus mode_NE (Bmult mode_NE x p) (Bmult mode_NE y s)) (rhyb a b p0 ps).
Proof.
  intros Hx Hy Hp Hs H1 H2. pose proof hi_big2 as HB. assert (0 < hi900) by apply bpow_gt_0.
  apply add_is; [apply mul_is; auto; lra|apply mul_is; auto; lra|].
  eapply Rle_trans; [apply Rabs_triang|]. pose proof (rn_abs_le _ _ fmt_hi H1). pose proof (rn_abs_le _ _ fmt_hi H2). lra.
Qed.
Lemma rhyb_abs a b p0 ps : Rabs (a * p0) <= hi900 -> Rabs (b * ps) <= hi900 -> Rabs (rhyb a b p0 ps) <= 2 * hi900.
Proof.
  intros H1 H2. apply rn_abs_le.
  - change 2 with (bpow radix2 1). unfold hi900. rewrite <- bpow_plus. apply fmt_bpow. lia.
  - eapply Rle_trans; [apply Rabs_triang|]. pose proof (rn_abs_le _ _ fmt_hi H1). pose proof (rn_abs_le _ _ fmt_hi H2). lra.
Qed.
Lemma rhyb_err a b p0 ps : Rabs (rhyb a b p0 ps - (a * p0 + b * ps)) <= 3 * ulp1 * (Rabs (a * p0) + Rabs (b * ps)) + 3 * tiny.
Proof.
  unfold rhyb. pose proof (rn_abs (a * p0)) as E1. pose proof (rn_abs (b * ps)) as E2.
  pose proof (rn_add _ _ (fmt_rn (a * p0)) (fmt_rn (b * ps))) as E3. fold tiny in *.
  pose proof ulp1_pos. pose proof ulp1_small. assert (0 < tiny) by apply bpow_gt_0.
  set (A := Rabs (a * p0)) in *. set (B := Rabs (b * ps)) in *. assert (0 <= A /\ 0 <= B) by (split; apply Rabs_pos).
  set (r1 := rn (a * p0)) in *. set (r2 := rn (b * ps)) in *.
  assert (T : Rabs (r1 + r2) <= (1 + ulp1) * (A + B) + 2 * tiny).
  { replace (r1 + r2) with ((r1 - a * p0) + (r2 - b * ps) + (a * p0 + b * ps)) by ring.
    eapply Rle_trans; [apply Rabs_triang|]. pose proof (Rabs_triang (r1 - a * p0) (r2 - b * ps)).
    pose proof (Rabs_triang (a * p0) (b * ps)). fold A B in H4. lra. }
  replace (rn (r1 + r2) - (a * p0 + b * ps)) with ((rn (r1 + r2) - (r1 + r2)) + ((r1 - a * p0) + (r2 - b * ps))) by ring.
  eapply Rle_trans; [apply Rabs_triang|]. pose proof (Rabs_triang (r1 - a * p0) (r2 - b * ps)).
  assert (ulp1 * Rabs (r1 + r2) <= ulp1 * ((1 + ulp1) * (A + B) + 2 * tiny)) by (apply Rmult_le_compat_l; lra).
  assert (ulp1 * ((1 + ulp1) * (A + B) + 2 * tiny) <= ulp1 * (A + B) + ulp1 * (A + B) + tiny); [|lra].
  assert (0 <= A + B) by lra. assert (ulp1 * (A + B) <= 1 * (A + B)) by (apply Rmult_le_compat_r; lra).
  assert (ulp1 * (ulp1 * (A + B)) <= ulp1 * (A + B)) by (apply Rmult_le_compat_l; lra). nra.
Qed.
Lemma rhyb_sigma p0 ps : fmt ps -> rhyb 0 1 p0 ps = ps.
Proof. intros F. unfold rhyb. rewrite Rmult_0_l, Rmult_1_l, rn_0, Rplus_0_l, (rn_fmt ps F). apply rn_fmt, F. Qed.
Lemma rhyb_pure a p0 ps : rhyb a 0 p0 ps = rn (a * p0).
Proof. unfold rhyb. rewrite Rmult_0_l, rn_0, Rplus_0_r. apply rn_fmt, fmt_rn. Qed.
Lemma rhyb_mono a b p0 s t : 0 <= b -> s <= t -> rhyb a b p0 s <= rhyb a b p0 t.
Proof. intros Hb H. apply rn_le. apply Rplus_le_compat_l, rn_le. apply Rmult_le_compat_l; auto. Qed.
Lemma rhyb_levels a b a' b' p0 ps : a * p0 <= a' * p0 -> b * ps <= b' * ps -> rhyb a b p0 ps <= rhyb a' b' p0 ps.
Proof. intros H1 H2. apply rn_le, Rplus_le_compat; apply rn_le; auto. Qed.

(** ** thickness of a layer *)
Definition rthick (P : nat -> R) (k : nat) : R := Rabs (rn (P k - P (S k))).

Lemma abs_is x a : is x a -> is (Babs x) (Rabs a).
Proof. intros [F <-]. split; [rewrite is_finite_Babs; auto|apply B2R_Babs]. Qed.
Lemma rn_neq0 a b : fmt a -> fmt b -> a <> b -> rn (a - b) <> 0.
Proof.
  intros Fa Fb H. destruct (Rlt_le_dec b a) as [L|L].
  - pose proof (rn_sub_pos a b Fa Fb L). lra.
  - assert (a < b) by lra. pose proof (rn_sub_pos b a Fb Fa H0). replace (a - b) with (- (b - a)) by ring. rewrite rn_opp. lra.
Qed.
Lemma rthick_0 (P : nat -> R) k : fmt (P k) -> fmt (P (S k)) -> rthick P k = 0 <-> P k = P (S k).
Proof.
  intros F1 F2. unfold rthick. split.
  - intros H. destruct (Req_dec (P k) (P (S k))) as [E|E]; auto. exfalso. apply (Rabs_no_R0 _ (rn_neq0 _ _ F1 F2 E)). exact H.
  - intros ->. rewrite Rminus_diag_eq by reflexivity. rewrite rn_0. apply Rabs_R0.
Qed.
Lemma rthick_err (P : nat -> R) k : fmt (P k) -> fmt (P (S k)) ->
  Rabs (rthick P k - Rabs (P k - P (S k))) <= ulp1 * Rabs (P k - P (S k)).
Proof. intros F1 F2. unfold rthick. eapply Rle_trans; [apply Rabs_triang_inv2|]. apply rn_sub; auto. Qed.
Lemma rthick_sum (P : nat -> R) m : (forall k, (k <= m)%nat -> fmt (P k)) ->
  (forall k, (k < m)%nat -> P k <= P (S k)) \/ (forall k, (k < m)%nat -> P (S k) <= P k) ->
  Rabs (bigsum m (rthick P) - Rabs (P m - P 0%nat)) <= ulp1 * Rabs (P m - P 0%nat).
Proof.
  intros F M.
  assert (G : exists s, (s = 1 \/ s = -1) /\ forall k, (k < m)%nat -> Rabs (P k - P (S k)) = s * (P (S k) - P k)).
  { destruct M as [M|M]; [exists 1|exists (-1)]; (split; [auto|]); intros k Hk; specialize (M k Hk).
    - rewrite Rabs_left1 by lra. ring.
    - rewrite Rabs_pos_eq by lra. ring. }
  destruct G as (s & Hs & G). clear M.
  assert (Q : forall j, (j <= m)%nat -> 0 <= s * (P j - P 0%nat) /\ Rabs (bigsum j (rthick P) - s * (P j - P 0%nat)) <= ulp1 * (s * (P j - P 0%nat))).
  { induction j as [|j IH]; intros Hj.
    - cbn. unfold Rminus. rewrite Rplus_opp_r, Rmult_0_r, Ropp_0, Rplus_0_l, Rabs_R0. lra.
    - destruct IH as [I1 I2]; [lia|]. pose proof (rthick_err P j (F j ltac:(lia)) (F (S j) ltac:(lia))) as E. pose proof (Rabs_pos (P j - P (S j))) as Z.
      rewrite (G j ltac:(lia)) in *. cbn [bigsum].
      replace (s * (P (S j) - P 0%nat)) with (s * (P (S j) - P j) + s * (P j - P 0%nat)) by ring. split; [lra|].
      replace (bigsum j (rthick P) + rthick P j - (s * (P (S j) - P j) + s * (P j - P 0%nat)))
        with ((bigsum j (rthick P) - s * (P j - P 0%nat)) + (rthick P j - s * (P (S j) - P j))) by ring.
      eapply Rle_trans; [apply Rabs_triang|]. lra. }
  destruct (Q m (le_n m)) as [Q1 Q2].
  assert (E : Rabs (P m - P 0%nat) = s * (P m - P 0%nat)).
  { destruct Hs as [-> | ->]; [rewrite Rabs_pos_eq by lra; ring|rewrite Rabs_left1 by lra; ring]. }
  rewrite E. exact Q2.
Qed.
Lemma thick_is x y a b : is x a -> is y b -> Rabs a <= 2 * hi900 -> Rabs b <= 2 * hi900 -> is (Babs (Bminus mode_NE x y)) (Rabs (rn (a - b))).
Proof.
  intros Hx Hy Ha Hb. apply abs_is, sub_is; auto. pose proof hi_big. replace (a - b) with (a + - b) by ring. eapply Rle_trans; [apply Rabs_triang|]. rewrite Rabs_Ropp. lra.
Qed.

Lemma good_rhyb a b p0 ps : fmt ps -> good_pressure a b p0 ps (rhyb a b p0 ps).
Proof.
  intros F. split; [reflexivity|]. split; [apply rhyb_err|split].
  - intros -> ->. apply rhyb_sigma, F.
  - intros ->. apply rhyb_pure.
Qed.

Section Api.
  Variable L : libm.
  Local Instance NH : Num b64 := NumB L.

  Lemma b64_pressure_labelled (vp va vb : val b64) psfc hya hyb p0b la lb n (a b : nat -> R) p0 (ps : list nat -> R) :
    as_da vp = Some psfc -> as_da va = Some hya -> as_da vb = Some hyb ->
    dims hya = [la] -> dims hyb = [lb] -> shp (dat hya) = [n] -> shp (dat hyb) = [n] ->
    wf_da psfc -> ~ In la (dims psfc) -> slookup la (coords psfc) = None ->
    wf_coords hyb -> (la <> lb -> slookup la (coords hyb) = None) ->
    same_labels (index_labels hya la) (index_labels hyb lb) ->
    coeffs_are (dat hya) (dat hyb) a b n -> is p0b p0 ->
    (forall idx, inb (shp (dat psfc)) idx -> is (get (dat psfc) idx) (ps idx) /\ in_range a b p0 (ps idx) n) ->
    exists r (P : nat -> list nat -> R), pressure_at_hybrid_levels vp va vb p0b = Ok (negb (String.eqb la lb), VDa r) /\
      dims r = la :: dims psfc /\ shp (dat r) = n :: shp (dat psfc) /\
      (forall k idx, (k < n)%nat -> inb (shp (dat psfc)) idx ->
        is (get (dat r) (k :: idx)) (P k idx) /\ good_pressure (a k) (b k) p0 (ps idx) (P k idx)) /\
      (forall k idx idx', (k < n)%nat -> 0 <= b k -> ps idx <= ps idx' -> P k idx <= P k idx').
  Proof.
    intros H1 H2 H3 H4 H5 H6 H7 H8 H9 H10 H11 H12 H13 Hc Hp Hs.
    destruct (c07_lemma vp va vb psfc hya hyb p0b la lb n H1 H2 H3 H4 H5 H6 H7 H8 H9 H10 H11 H12 H13) as (r & E & Dr & Sr & G).
    exists r, (fun k idx => rhyb (a k) (b k) p0 (ps idx)). split; [exact E|]. split; [exact Dr|]. split; [exact Sr|]. split.
    - intros k idx Hk Hx. destruct (Hs idx Hx) as [Hi Hr]. destruct (Hc k Hk) as [Ha Hb]. destruct (Hr k Hk) as [Ra Rb].
      rewrite G by (rewrite (inb_length _ _ Hx); symmetry; apply H8). split.
      + apply hyb_is; auto.
      + apply good_rhyb. eapply is_fmt; eauto.
    - intros. apply rhyb_mono; auto.
  Qed.
  Lemma b64_pressure_numpy (psfc hya hyb : arr b64) p0b n (a b : nat -> R) p0 (ps : nat -> nat -> R) :
    shp hya = [n] -> shp hyb = [n] -> (ndim psfc <= 2)%nat ->
    coeffs_are hya hyb a b n -> is p0b p0 ->
    (forall i j, inb (np_shape2 psfc) [i; j] -> is (np_cell psfc i j) (ps i j) /\ in_range a b p0 (ps i j) n) ->
    exists r (P : nat -> nat -> nat -> R), pressure_at_hybrid_levels (VNd psfc) (VNd hya) (VNd hyb) p0b = Ok (false, VNd r) /\
      shp r = n :: np_shape2 psfc /\
      (forall k i j, (k < n)%nat -> inb (np_shape2 psfc) [i; j] ->
        is (get r [k; i; j]) (P k i j) /\ good_pressure (a k) (b k) p0 (ps i j) (P k i j)) /\
      (forall k i j i' j', (k < n)%nat -> 0 <= b k -> ps i j <= ps i' j' -> P k i j <= P k i' j').
  Proof.
    intros H1 H2 H3 Hc Hp Hs.
    destruct (c09_lemma psfc hya hyb p0b n H1 H2 H3) as (r & E & Sr & G).
    exists r, (fun k i j => rhyb (a k) (b k) p0 (ps i j)). split; [exact E|]. split; [exact Sr|]. split.
    - intros k i j Hk Hx. destruct (Hs i j Hx) as [Hi Hr]. destruct (Hc k Hk) as [Ha Hb]. destruct (Hr k Hk) as [Ra Rb].
      rewrite G by (apply inb_cons; auto). split.
      + apply hyb_is; auto.
      + apply good_rhyb. eapply is_fmt; eauto.
    - intros. apply rhyb_mono; auto.
  Qed.

  Lemma good_rthick n (P : nat -> R) : (forall k, fmt (P k)) -> good_column n P (rthick P).
  Proof.
    intros F. split.
    - intros k Hk. split; [apply Rabs_pos|]. split; [apply rthick_0; auto|apply rthick_err; auto].
    - intros M. apply rthick_sum; auto.
  Qed.
  Lemma thick_cell (hya hyb : arr b64) a b n p0b p0 s ps k : coeffs_are hya hyb a b n -> is p0b p0 -> is s ps -> in_range a b p0 ps n ->
    (k < n - 1)%nat -> is (nabs (nsub (hybp hya hyb p0b k s) (hybp hya hyb p0b (S k) s))) (rthick (fun k => rhyb (a k) (b k) p0 ps) k).
  Proof.
    intros Hc Hp Hs Hr Hk.
    assert (C : forall j, (j < n)%nat -> is (hybp hya hyb p0b j s) (rhyb (a j) (b j) p0 ps)).
    { intros j Hj. destruct (Hc j Hj) as [Ha Hb]. destruct (Hr j Hj) as [Ra Rb].
      assert (Q : is (Bplus mode_NE (Bmult mode_NE p0b (get hya [j])) (Bmult mode_NE (get hyb [j]) s)) (rn (rn (p0 * a j) + rn (b j * ps)))).
      { pose proof hi_big2. assert (0 < hi900) by apply bpow_gt_0. rewrite Rmult_comm in Ra.
        apply add_is; [apply mul_is; auto; lra|apply mul_is; auto; lra|].
        eapply Rle_trans; [apply Rabs_triang|]. pose proof (rn_abs_le _ _ fmt_hi Ra). pose proof (rn_abs_le _ _ fmt_hi Rb). lra. }
      unfold rhyb. rewrite (Rmult_comm (a j)). exact Q. }
    assert (B : forall j, (j < n)%nat -> Rabs (rhyb (a j) (b j) p0 ps) <= 2 * hi900) by (intros j Hj; destruct (Hr j Hj); apply rhyb_abs; auto).
    unfold rthick. apply (thick_is _ _ _ _ (C k ltac:(lia)) (C (S k) ltac:(lia))); apply B; lia.
  Qed.

  Lemma b64_thickness_labelled (psd : da b64) va vb hya hyb p0b la lb n (a b : nat -> R) p0 (ps : list nat -> R) :
    vda va = hya -> vda vb = hyb -> exact_type va = true -> exact_type vb = true -> is_nd va = is_nd vb ->
    dims hya = [la] -> dims hyb = [lb] -> shp (dat hya) = [n] -> shp (dat hyb) = [n] ->
    (List.length (coords hya) <= 1)%nat -> (List.length (coords hyb) <= 1)%nat ->
    wf_da psd -> ~ In la (dims psd) -> slookup la (coords psd) = None -> labels_refl psd ->
    coeffs_are (dat hya) (dat hyb) a b n -> is p0b p0 ->
    (forall idx, inb (shp (dat psd)) idx -> is (get (dat psd) idx) (ps idx) /\ in_range a b p0 (ps idx) n) ->
    exists r, delta_pressure_hybrid (VDa psd) va vb true p0b = Ok (VDa r) /\
      dims r = la :: dims psd /\ shp (dat r) = (n - 1)%nat :: shp (dat psd) /\
      forall idx, inb (shp (dat psd)) idx -> exists P d,
        (forall k, (k < n - 1)%nat -> is (get (dat r) (k :: idx)) (d k)) /\
        (forall k, (k < n)%nat -> good_pressure (a k) (b k) p0 (ps idx) (P k)) /\
        good_column n P d.
  Proof.
    intros H1 H2 H3 H4 H5 H6 H7 H8 H9 H10 H11 H12 H13 H14 H15 Hc Hp Hs.
    destruct (c10_xr psd va vb hya hyb p0b la lb n H1 H2 H3 H4 H5 H6 H7 H8 H9 H10 H11 H12 H13 H14 H15) as (r & E & Dr & Sr & _ & _ & G).
    exists r. split; [exact E|]. split; [exact Dr|]. split; [exact Sr|]. intros idx Hx. destruct (Hs idx Hx) as [Hi Hr].
    exists (fun k => rhyb (a k) (b k) p0 (ps idx)), (rthick (fun k => rhyb (a k) (b k) p0 (ps idx))). split; [|split].
    - intros k Hk. rewrite G by (auto; rewrite (inb_length _ _ Hx); symmetry; apply H12). eapply thick_cell; eauto.
    - intros k Hk. apply good_rhyb. eapply is_fmt; eauto.
    - apply good_rthick. intros k. apply fmt_rn.
  Qed.
  Lemma b64_thickness_numpy (psd : arr b64) va vb hya hyb p0b n (a b : nat -> R) p0 (ps : nat -> nat -> R) :
    vvalues va = hya -> vvalues vb = hyb -> exact_type va = true -> exact_type vb = true -> is_nd va = is_nd vb ->
    shp hya = [n] -> shp hyb = [n] -> (ndim psd <= 2)%nat ->
    coeffs_are hya hyb a b n -> is p0b p0 ->
    (forall i j, inb (np_shape2 psd) [i; j] -> is (np_cell psd i j) (ps i j) /\ in_range a b p0 (ps i j) n) ->
    exists r, delta_pressure_hybrid (VNd psd) va vb true p0b = Ok (VNd r) /\
      shp r = (n - 1)%nat :: np_shape2 psd /\
      forall i j, inb (np_shape2 psd) [i; j] -> exists P d,
        (forall k, (k < n - 1)%nat -> is (get r [k; i; j]) (d k)) /\
        (forall k, (k < n)%nat -> good_pressure (a k) (b k) p0 (ps i j) (P k)) /\
        good_column n P d.
  Proof.
    intros H1 H2 H3 H4 H5 H6 H7 H8 Hc Hp Hs.
    destruct (c10_np psd va vb hya hyb p0b n H1 H2 H3 H4 H5 H6 H7 H8) as (r & E & Sr & G).
    exists r. split; [exact E|]. split; [exact Sr|]. intros i j Hx. destruct (Hs i j Hx) as [Hi Hr].
    exists (fun k => rhyb (a k) (b k) p0 (ps i j)), (rthick (fun k => rhyb (a k) (b k) p0 (ps i j))). split; [|split].
    - intros k Hk. rewrite G by (apply inb_cons; auto). eapply thick_cell; eauto.
    - intros k Hk. apply good_rhyb. eapply is_fmt; eauto.
    - apply good_rthick. intros k. apply fmt_rn.
  Qed.
End Api.
