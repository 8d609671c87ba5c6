(** Consequences of C38 for one column of the stream function (C133). *)
From Coq Require Import Reals List Bool Arith Lra Lia String.
From Verif Require Import PyBase PyFacts Num NumFacts Arr ArrFacts XrFacts Spec Hybrid GcUtil Psi SpecPsi PsiFacts PsiApi PsiGuards.
Import ListNotations.
Local Open Scope string_scope.
Local Open Scope R_scope.

Lemma sum_to_scal c k f : sum_to k (fun j => c * f j) = c * sum_to k f.
Proof. induction k; cbn [sum_to]; [reflexivity|]. rewrite IHk. ring. Qed.
Lemma sum_to_lin a b k f g : sum_to k (fun j => a * f j + b * g j) = a * sum_to k f + b * sum_to k g.
Proof. induction k; cbn [sum_to]; [reflexivity|]. rewrite IHk. ring. Qed.
Lemma sum_to_eq k f g : (forall j, (j <= k)%nat -> f j = g j) -> sum_to k f = sum_to k g.
Proof. intros H. induction k; cbn [sum_to]; [apply H; lia|]. rewrite IHk by (intros; apply H; lia). rewrite H by lia. reflexivity. Qed.

Section C.
  Variables (l : list R) (top ps : R).
  Hypotheses (Hinc : increasing l) (Hn : (2 <= List.length l)%nat) (Ht : top <= at_ l 0) (H1 : interface top l 1 < ps).
  Lemma iface_le k : (S k < List.length l)%nat -> interface top l k <= interface top l (S k).
  Proof.
    intros Hk. pose proof (Hinc k (S k) ltac:(lia) Hk) as A. destruct k as [|k]; cbn [interface].
    - lra.
    - pose proof (Hinc k (S k) ltac:(lia) ltac:(lia)). lra.
  Qed.
  Lemma air_sum k : (k < List.length l)%nat -> sum_to k (air top ps l) = lower_interface top ps l k - top.
  Proof.
    induction k as [|k IH]; intros Hk; cbn [sum_to].
    - unfold air, lower_interface. replace (Nat.ltb 1 (List.length l)) with true by (symmetry; apply Nat.ltb_lt; lia).
      rewrite Rmin_left by lra. pose proof (iface_le 0 ltac:(lia)) as B. cbn [interface] in B |- *. apply Rmax_right. lra.
    - rewrite IH by lia. unfold air. assert (E : lower_interface top ps l k = Rmin (interface top l (S k)) ps).
      { unfold lower_interface. replace (Nat.ltb (S k) (List.length l)) with true by (symmetry; apply Nat.ltb_lt; lia). reflexivity. }
      rewrite E. unfold lower_interface. destruct (Nat.ltb_spec (S (S k)) (List.length l)) as [L|L].
      + pose proof (iface_le (S k) L) as B. destruct (Rle_lt_dec ps (interface top l (S k))) as [C|C].
        * rewrite !Rmin_right by lra. rewrite Rmax_left; lra.
        * rewrite (Rmin_left (interface top l (S k)) ps) by lra.
          assert (interface top l (S k) <= Rmin (interface top l (S (S k))) ps) by (apply Rmin_glb; lra). rewrite Rmax_right; lra.
      + destruct (Rle_lt_dec ps (interface top l (S k))) as [C|C].
        * rewrite Rmin_right by lra. rewrite Rmax_left; lra.
        * rewrite Rmin_left by lra. rewrite Rmax_right; lra.
  Qed.
  Lemma air_under k : (k < List.length l)%nat -> underground top ps l k -> air top ps l k = 0.
  Proof.
    intros Hk [H0 Hu]. unfold air. apply Rmax_left. unfold lower_interface. destruct (Nat.ltb_spec (S k) (List.length l)) as [L|L]; [|lra].
    pose proof (Rmin_r (interface top l (S k)) ps). lra.
  Qed.
End C.

Lemma depth_inv down n p : (p < n)%nat -> depth_of down n (depth_of down n p) = p.
Proof. unfold depth_of. destruct down; intros; lia. Qed.
Lemma depth_lt down n p : (p < n)%nat -> (depth_of down n p < n)%nat.
Proof. unfold depth_of. destruct down; intros; lia. Qed.

Lemma at_pos_same e d k : at_pos e d k d = k. Proof. unfold at_pos. rewrite String.eqb_refl. reflexivity. Qed.
Lemma at_pos_other e d d' k : d' <> d -> at_pos e d k d' = e d'. Proof. intros H. unfold at_pos. apply String.eqb_neq in H. rewrite H. reflexivity. Qed.
Lemma getn_ext' {T} (a : da T) e1 e2 : (forall d, e1 d = e2 d) -> getn a e1 = getn a e2.
Proof. intros H. apply getn_ext. auto. Qed.
Lemma at_pos_twice e d j k : forall d', at_pos (at_pos e d j) d k d' = at_pos e d k d'.
Proof. intros d'. unfold at_pos. destruct (String.eqb d' d); reflexivity. Qed.
Lemma inside_at a e d k n : inside a e -> dsize a d = Some n -> (k < n)%nat -> inside a (at_pos e d k).
Proof. intros H E Hk d' m Hd. unfold at_pos. destruct (String.eqb_spec d' d) as [->|Q]; [congruence|apply (H d' m Hd)]. Qed.

(** the flux at depth k of the column through e *)
Lemma flux_depth vz l down psz e k : (k < List.length l)%nat ->
  flux_above vz l down psz (at_pos e "plev" (depth_of down (List.length l) k)) =
  sum_to k (fun j => wind_or_zero (getn vz (at_pos e "plev" (depth_of down (List.length l) j))) * air (at_ l 0) (psz (e "time") (e "latitudes")) l j).
Proof.
  intros Hk. unfold flux_above. rewrite at_pos_same, !at_pos_other by discriminate. rewrite depth_inv by auto.
  apply sum_to_eq. intros j Hj. rewrite (getn_ext' vz _ _ (at_pos_twice e "plev" _ _)). reflexivity.
Qed.

Lemma c133_call order zmean cf u w p ha hb bw bp wind ps l down lat nt psz :
  w <> "" -> p <> "" -> slookup w u = Some (bw, wind) -> slookup p u = Some (bp, ps) -> In "plev" (dims wind) ->
  psi_input wind (zmean wind) ps (zmean ps) l down lat nt psz ->
  exists r, zonal_meridional_psi true order zmean cf u (mkNames (Some w) (Some p) (Some "plev") ha hb) = Ok r /\
    forall e k, inside (zmean wind) e -> (k < List.length l)%nat ->
      getn r (at_pos e "plev" (depth_of down (List.length l) k)) =
      Fin (2 * PI * earth_radius * cos (nth (e "latitudes") lat 0) / gravity *
           sum_to k (fun j => wind_or_zero (getn (zmean wind) (at_pos e "plev" (depth_of down (List.length l) j))) * air (at_ l 0) (psz (e "time") (e "latitudes")) l j)).
Proof.
  intros Hw Hp Ew Ep Hd W. destruct (c38_lemma order zmean cf u w p ha hb bw bp wind ps l down lat nt psz Hw Hp Ew Ep Hd W) as (r & E & _ & _ & _ & _ & G).
  exists r. split; [exact E|]. intros e k He Hk. rewrite G by (eapply inside_at; [exact He|exact (pi_plev _ _ _ _ _ _ _ _ _ W)|apply depth_lt; auto]).
  rewrite flux_depth by auto. rewrite at_pos_other by discriminate. reflexivity.
Qed.

Lemma column_ps wind vz ps pz l down lat nt psz e : psi_input wind vz ps pz l down lat nt psz -> inside vz e -> interface (at_ l 0) l 1 < psz (e "time") (e "latitudes").
Proof.
  intros W He. destruct (pi_psz _ _ _ _ _ _ _ _ _ W (e "time") (e "latitudes")) as [_ H].
  - apply (He "time"). exact (pi_time _ _ _ _ _ _ _ _ _ W).
  - apply (He "latitudes"). exact (pi_lat _ _ _ _ _ _ _ _ _ W).
  - exact H.
Qed.

Lemma c133_column order zmean cf u w p ha hb bw bp wind ps l down lat nt psz :
  w <> "" -> p <> "" -> slookup w u = Some (bw, wind) -> slookup p u = Some (bp, ps) -> In "plev" (dims wind) ->
  psi_input wind (zmean wind) ps (zmean ps) l down lat nt psz ->
  exists r, zonal_meridional_psi true order zmean cf u (mkNames (Some w) (Some p) (Some "plev") ha hb) = Ok r /\
    forall e, inside (zmean wind) e ->
      let at_depth k := at_pos e "plev" (depth_of down (List.length l) k) in
      let scale := 2 * PI * earth_radius * cos (nth (e "latitudes") lat 0) / gravity in
      let surface := psz (e "time") (e "latitudes") in
      (forall k, (S k < List.length l)%nat -> exists x y, getn r (at_depth k) = Fin x /\ getn r (at_depth (S k)) = Fin y /\
         y - x = scale * wind_or_zero (getn (zmean wind) (at_depth (S k))) * air (at_ l 0) surface l (S k)) /\
      (forall k, (k < List.length l)%nat -> underground (at_ l 0) surface l k -> getn r (at_depth k) = getn r (at_depth (k - 1)%nat)) /\
      (forall c, (forall k, (k < List.length l)%nat -> getn (zmean wind) (at_depth k) = Fin c) ->
         (forall k, (k < List.length l)%nat -> getn r (at_depth k) = Fin (scale * c * (lower_interface (at_ l 0) surface l k - at_ l 0))) /\
         getn r (at_depth (List.length l - 1)%nat) = Fin (scale * c * (surface - at_ l 0))).
Proof.
  intros Hw Hp Ew Ep Hd W. destruct (c133_call order zmean cf u w p ha hb bw bp wind ps l down lat nt psz Hw Hp Ew Ep Hd W) as (r & E & G).
  exists r. split; [exact E|]. intros e He at_depth scale surface.
  pose proof (pi_inc _ _ _ _ _ _ _ _ _ W) as Hi. pose proof (pi_two _ _ _ _ _ _ _ _ _ W) as Hn. pose proof (column_ps _ _ _ _ _ _ _ _ _ e W He) as Hs. fold surface in Hs.
  split; [|split].
  - intros k Hk. eexists _, _. split; [apply G; auto; lia|]. split; [apply G; auto|]. cbn [sum_to]. fold scale surface. unfold at_depth. ring.
  - intros k Hk Hu. pose proof Hu as [H0 _]. destruct k as [|k]; [lia|]. replace (S k - 1)%nat with k by lia. unfold at_depth. rewrite !G by (auto; lia). cbn [sum_to]. fold surface.
    rewrite (air_under l (at_ l 0) surface (S k) Hk Hu). rewrite Rmult_0_r, Rplus_0_r. reflexivity.
  - intros c Hc.
    assert (A : forall k, (k < List.length l)%nat -> getn r (at_depth k) = Fin (scale * c * (lower_interface (at_ l 0) surface l k - at_ l 0))).
    { intros k Hk. unfold at_depth. rewrite G by auto. fold scale surface. f_equal. rewrite (sum_to_eq k _ (fun j => c * air (at_ l 0) surface l j)).
      - rewrite sum_to_scal, (air_sum l (at_ l 0) surface Hi Hn ltac:(lra) Hs k Hk). ring.
      - intros j Hj. unfold at_depth in Hc. rewrite Hc by lia. reflexivity. }
    split; [exact A|]. rewrite A by lia. f_equal. f_equal. unfold lower_interface. replace (Nat.ltb (S (List.length l - 1)) (List.length l)) with false; [reflexivity|].
    symmetry. apply Nat.ltb_ge. lia.
Qed.

Lemma c133_superposition a b order zmean cf u w p ha hb bw bp wind ps order1 zmean1 cf1 u1 w1 p1 ha1 hb1 bw1 bp1 wind1 ps1
  order2 zmean2 cf2 u2 w2 p2 ha2 hb2 bw2 bp2 wind2 ps2 l down lat nt psz :
  w <> "" -> p <> "" -> slookup w u = Some (bw, wind) -> slookup p u = Some (bp, ps) -> In "plev" (dims wind) ->
  w1 <> "" -> p1 <> "" -> slookup w1 u1 = Some (bw1, wind1) -> slookup p1 u1 = Some (bp1, ps1) -> In "plev" (dims wind1) ->
  w2 <> "" -> p2 <> "" -> slookup w2 u2 = Some (bw2, wind2) -> slookup p2 u2 = Some (bp2, ps2) -> In "plev" (dims wind2) ->
  psi_input wind (zmean wind) ps (zmean ps) l down lat nt psz -> psi_input wind1 (zmean1 wind1) ps1 (zmean1 ps1) l down lat nt psz ->
  psi_input wind2 (zmean2 wind2) ps2 (zmean2 ps2) l down lat nt psz ->
  exists r r1 r2, zonal_meridional_psi true order zmean cf u (mkNames (Some w) (Some p) (Some "plev") ha hb) = Ok r /\
    zonal_meridional_psi true order1 zmean1 cf1 u1 (mkNames (Some w1) (Some p1) (Some "plev") ha1 hb1) = Ok r1 /\
    zonal_meridional_psi true order2 zmean2 cf2 u2 (mkNames (Some w2) (Some p2) (Some "plev") ha2 hb2) = Ok r2 /\
    forall e, inside (zmean wind) e -> inside (zmean1 wind1) e -> inside (zmean2 wind2) e ->
      let at_depth k := at_pos e "plev" (depth_of down (List.length l) k) in
      let surface := psz (e "time") (e "latitudes") in
      forall k, (k < List.length l)%nat ->
        (forall j, (j <= k)%nat -> ~ underground (at_ l 0) surface l j -> exists v1 v2, getn (zmean1 wind1) (at_depth j) = Fin v1 /\ getn (zmean2 wind2) (at_depth j) = Fin v2 /\
           getn (zmean wind) (at_depth j) = Fin (a * v1 + b * v2)) ->
        exists x1 x2, getn r1 (at_depth k) = Fin x1 /\ getn r2 (at_depth k) = Fin x2 /\ getn r (at_depth k) = Fin (a * x1 + b * x2).
Proof.
  intros Hw Hp Ew Ep Hd Hw1 Hp1 Ew1 Ep1 Hd1 Hw2 Hp2 Ew2 Ep2 Hd2 W W1 W2.
  destruct (c133_call order zmean cf u w p ha hb bw bp wind ps l down lat nt psz Hw Hp Ew Ep Hd W) as (r & E & G).
  destruct (c133_call order1 zmean1 cf1 u1 w1 p1 ha1 hb1 bw1 bp1 wind1 ps1 l down lat nt psz Hw1 Hp1 Ew1 Ep1 Hd1 W1) as (r1 & E1 & G1).
  destruct (c133_call order2 zmean2 cf2 u2 w2 p2 ha2 hb2 bw2 bp2 wind2 ps2 l down lat nt psz Hw2 Hp2 Ew2 Ep2 Hd2 W2) as (r2 & E2 & G2).
  exists r, r1, r2. split; [exact E|]. split; [exact E1|]. split; [exact E2|]. intros e He He1 He2 at_depth surface k Hk H.
  eexists _, _. split; [apply G1; auto|]. split; [apply G2; auto|]. unfold at_depth. rewrite G by auto. f_equal. fold surface.
  set (sc := 2 * PI * earth_radius * cos (nth (e "latitudes") lat 0) / gravity).
  rewrite (sum_to_eq k _ (fun j => a * (wind_or_zero (getn (zmean1 wind1) (at_pos e "plev" (depth_of down (Datatypes.length l) j))) * air (at_ l 0) surface l j) +
    b * (wind_or_zero (getn (zmean2 wind2) (at_pos e "plev" (depth_of down (Datatypes.length l) j))) * air (at_ l 0) surface l j))).
  - rewrite sum_to_lin. ring.
  - intros j Hj. destruct (Rle_lt_dec (air (at_ l 0) surface l j) 0) as [A|A].
    + assert (air (at_ l 0) surface l j = 0) as -> by (pose proof (Rmax_l 0 (lower_interface (at_ l 0) surface l j - interface (at_ l 0) l j)); unfold air in *; lra). ring.
    + destruct (H j Hj) as (v1 & v2 & V1 & V2 & V).
      { intros U. rewrite (air_under l (at_ l 0) surface j ltac:(lia) U) in A. lra. }
      unfold at_depth in V, V1, V2. rewrite V, V1, V2. cbn [wind_or_zero]. ring.
Qed.

Lemma c133_local order zmean cf u w p ha hb bw bp wind ps l down lat nt psz order1 zmean1 cf1 u1 w1 p1 ha1 hb1 bw1 bp1 wind1 ps1 nt1 psz1 :
  w <> "" -> p <> "" -> slookup w u = Some (bw, wind) -> slookup p u = Some (bp, ps) -> In "plev" (dims wind) ->
  w1 <> "" -> p1 <> "" -> slookup w1 u1 = Some (bw1, wind1) -> slookup p1 u1 = Some (bp1, ps1) -> In "plev" (dims wind1) ->
  psi_input wind (zmean wind) ps (zmean ps) l down lat nt psz -> psi_input wind1 (zmean1 wind1) ps1 (zmean1 ps1) l down lat nt1 psz1 ->
  exists r r1, zonal_meridional_psi true order zmean cf u (mkNames (Some w) (Some p) (Some "plev") ha hb) = Ok r /\
    zonal_meridional_psi true order1 zmean1 cf1 u1 (mkNames (Some w1) (Some p1) (Some "plev") ha1 hb1) = Ok r1 /\
    forall e, inside (zmean wind) e -> inside (zmean1 wind1) e ->
      let at_depth k := at_pos e "plev" (depth_of down (List.length l) k) in
      let surface := psz (e "time") (e "latitudes") in psz1 (e "time") (e "latitudes") = surface ->
      forall k, (k < List.length l)%nat ->
        (forall j, (j <= k)%nat -> ~ underground (at_ l 0) surface l j -> getn (zmean1 wind1) (at_depth j) = getn (zmean wind) (at_depth j)) ->
        getn r1 (at_depth k) = getn r (at_depth k).
Proof.
  intros Hw Hp Ew Ep Hd Hw1 Hp1 Ew1 Ep1 Hd1 W W1.
  destruct (c133_call order zmean cf u w p ha hb bw bp wind ps l down lat nt psz Hw Hp Ew Ep Hd W) as (r & E & G).
  destruct (c133_call order1 zmean1 cf1 u1 w1 p1 ha1 hb1 bw1 bp1 wind1 ps1 l down lat nt1 psz1 Hw1 Hp1 Ew1 Ep1 Hd1 W1) as (r1 & E1 & G1).
  exists r, r1. split; [exact E|]. split; [exact E1|]. intros e He He1 at_depth surface Hs k Hk H. unfold at_depth. rewrite G1, G by auto. rewrite Hs. fold surface. f_equal. f_equal.
  apply sum_to_eq. intros j Hj. destruct (Rle_lt_dec (air (at_ l 0) surface l j) 0) as [A|A].
  - assert (air (at_ l 0) surface l j = 0) as -> by (pose proof (Rmax_l 0 (lower_interface (at_ l 0) surface l j - interface (at_ l 0) l j)); unfold air in *; lra). ring.
  - unfold at_depth in H. rewrite H; auto. intros U. rewrite (air_under l (at_ l 0) surface j ltac:(lia) U) in A. lra.
Qed.
