(** Waves, complementary filters, the role of axis 0, and labelled arrays. *)
From Coq Require Import Reals List Arith ZArith Lia Lra Bool String Classical.
From Verif Require Import PyBase Num Arr ArrFacts NumFacts PyFacts ListFacts ChunkFacts Hybrid Spherical Fourier SpecSum SumFacts SpecFourier FourierDft FourierFacts FourierApi FourierMore HybridFacts.
Import ListNotations.
Local Open Scope R_scope.

Section One.
  Variables (s : arr fl) (F : list nat -> R) (f : R) (ta : Z) (ax : nat).
  Hypothesis Hs : sampled s F f ta ax.
  Notation n := (nth ax (shp s) 0%nat).
  Notation w := (width f (nth 0%nat (shp s) 0%nat)).

  Lemma upd_inb i t : inb (shp s) i -> (t < n)%nat -> inb (shp s) (upd i ax t).
  Proof. intros. rewrite <- (upd_self (shp s) ax). apply inb_upd; auto. Qed.

  Lemma low_pass_wave cl i k a b : 0 <= cl -> inb (shp s) i -> (k < n)%nat ->
    (forall t, (t < n)%nat -> F (upd i ax t) = wave n k a b t) -> exists r,
    fourier_low_pass (VNd s) (Fin f) (Fin cl) ta = Ok (VNd r) /\ forall t, (t < n)%nat ->
      ((INR (cycles n k) + 1) * w <= cl -> get r (upd i ax t) = Fin (wave n k a b t)) /\
      (cl < (INR (cycles n k) + 1) * w -> get r (upd i ax t) = Fin 0).
  Proof using Hs.
    intros Hl Hi Hk HF. destruct (low_pass_spec s F f ta ax Hs cl Hl) as (r & G & E & S & H & Q). exists r. split; [auto|]. intros t Ht.
    rewrite H by (rewrite S; apply upd_inb; auto).
    destruct (filters_wave n _ k a b _ _ (sm_len _ _ _ _ _ Hs) Hk (Q i Hi) ltac:(cbn beta; intros j _ ->; tauto) HF t Ht) as [A B].
    split; intros K; apply f_equal; [apply A; auto|apply B; lra].
  Qed.
  Lemma high_pass_wave ch i k a b : 0 <= ch -> inb (shp s) i -> (k < n)%nat ->
    (forall t, (t < n)%nat -> F (upd i ax t) = wave n k a b t) -> exists r,
    fourier_high_pass (VNd s) (Fin f) (Fin ch) ta = Ok (VNd r) /\ forall t, (t < n)%nat ->
      (ch <= INR (cycles n k) * w -> get r (upd i ax t) = Fin (wave n k a b t)) /\
      (INR (cycles n k) * w < ch -> get r (upd i ax t) = Fin 0).
  Proof using Hs.
    intros Hl Hi Hk HF. destruct (high_pass_spec s F f ta ax Hs ch Hl) as (r & G & E & S & H & Q). exists r. split; [auto|]. intros t Ht.
    rewrite H by (rewrite S; apply upd_inb; auto).
    destruct (filters_wave n _ k a b _ _ (sm_len _ _ _ _ _ Hs) Hk (Q i Hi) ltac:(cbn beta; intros j _ ->; tauto) HF t Ht) as [A B].
    split; intros K; apply f_equal; [apply A; auto|apply B; lra].
  Qed.
  Lemma band_pass_wave cl ch i k a b : 0 <= cl -> 0 <= ch -> inb (shp s) i -> (k < n)%nat ->
    (forall t, (t < n)%nat -> F (upd i ax t) = wave n k a b t) -> exists r,
    fourier_band_pass (VNd s) (Fin f) (Fin cl) (Fin ch) ta = Ok (VNd r) /\ forall t, (t < n)%nat ->
      (cl < (INR (cycles n k) + 1) * w /\ INR (cycles n k) * w < ch -> get r (upd i ax t) = Fin (wave n k a b t)) /\
      ((INR (cycles n k) + 1) * w <= cl \/ ch <= INR (cycles n k) * w -> get r (upd i ax t) = Fin 0).
  Proof using Hs.
    intros Hl Hh Hi Hk HF. destruct (band_pass_spec s F f ta ax Hs cl ch Hl Hh) as (r & G & E & S & H & Q). exists r. split; [auto|]. intros t Ht.
    rewrite H by (rewrite S; apply upd_inb; auto).
    destruct (filters_wave n _ k a b _ _ (sm_len _ _ _ _ _ Hs) Hk (Q i Hi) ltac:(cbn beta; intros j _ ->; tauto) HF t Ht) as [A B].
    split; intros K; apply f_equal; [apply A; auto|apply B; lra].
  Qed.
  Lemma band_block_wave cl ch i k a b : 0 <= cl -> 0 <= ch -> ch <= INR n / 2 * w -> inb (shp s) i -> (k < n)%nat ->
    (forall t, (t < n)%nat -> F (upd i ax t) = wave n k a b t) -> exists r,
    fourier_band_block (VNd s) (Fin f) (Fin cl) (Fin ch) ta = Ok (VNd r) /\ forall t, (t < n)%nat ->
      ((INR (cycles n k) + 1) * w <= cl \/ ch <= INR (cycles n k) * w -> get r (upd i ax t) = Fin (wave n k a b t)) /\
      (cl < (INR (cycles n k) + 1) * w /\ INR (cycles n k) * w < ch -> get r (upd i ax t) = Fin 0).
  Proof using Hs.
    intros Hl Hh Hny Hi Hk HF. destruct (band_block_spec s F f ta ax Hs cl ch Hl Hh Hny) as (r & G & E & S & H & Q). exists r. split; [auto|]. intros t Ht.
    rewrite H by (rewrite S; apply upd_inb; auto).
    destruct (filters_wave n _ k a b _ _ (sm_len _ _ _ _ _ Hs) Hk (Q i Hi) ltac:(cbn beta; intros j _ ->; tauto) HF t Ht) as [A B].
    split; intros K; apply f_equal; [apply A; lra|apply B; lra].
  Qed.

  (** ** complementary filters *)
  Lemma filters_split m K1 K2 x y1 y2 : filters m K1 x y1 -> filters m K2 x y2 ->
    (forall k, (k < m)%nat -> ~ (K1 k /\ K2 k)) -> filters m (fun k => ~ K1 k /\ ~ K2 k) x (fun t => x t - y1 t - y2 t).
  Proof.
    intros H1 H2 D k Hk. unfold same_bin, no_bin.
    assert (E : spec_re m (fun t => x t - y1 t - y2 t) k = spec_re m x k - spec_re m y1 k - spec_re m y2 k /\
                spec_im m (fun t => x t - y1 t - y2 t) k = spec_im m x k - spec_im m y1 k - spec_im m y2 k).
    { unfold spec_re, spec_im. rewrite <- !bigsum_minus. split; apply bigsum_ext; intros; ring. }
    destruct E as [-> ->]. destruct (H1 k Hk) as [A1 B1], (H2 k Hk) as [A2 B2]. split.
    - intros [N1 N2]. destruct (B1 N1) as [-> ->], (B2 N2) as [-> ->]. lra.
    - intros N. destruct (classic (K1 k)) as [Q1|Q1].
      + destruct (A1 Q1) as [-> ->]. destruct (B2 ltac:(intros Q2; apply (D k Hk); auto)) as [-> ->]. lra.
      + destruct (B1 Q1) as [-> ->]. destruct (classic (K2 k)) as [Q2|Q2]; [destruct (A2 Q2) as [-> ->]; lra|tauto].
  Qed.
  Lemma filters_empty m K x y : (forall k, (k < m)%nat -> ~ K k) -> filters m K x y -> forall t, (t < m)%nat -> y t = 0.
  Proof.
    intros N H t Ht. transitivity ((fun _ : nat => 0) t); [|reflexivity]. revert t Ht. apply spectrum_determines. intros j Hj. unfold same_bin.
    assert (Z0 : spec_re m (fun _ => 0) j = 0 /\ spec_im m (fun _ => 0) j = 0) by (split; apply bigsum_0; intros; ring).
    destruct Z0 as [-> ->]. destruct (H j Hj) as [_ B]. destruct (B (N j Hj)) as [-> ->]. auto.
  Qed.
  Lemma column_self (G : list nat -> R) i : column G i ax (nth ax i 0%nat) = G i.
  Proof. unfold column. rewrite upd_self. reflexivity. Qed.
  Lemma nth_inb i : inb (shp s) i -> (nth ax i 0 < n)%nat.
  Proof using Hs. intros Hi. apply inb_nth in Hi. destruct Hi as [_ Hi]. apply Hi. destruct Hs as [_ [A _] _ _ _]. exact A. Qed.

  Lemma low_high_sum c m : 0 <= c -> c = INR m * w -> exists r1 r2 G1 G2,
    fourier_low_pass (VNd s) (Fin f) (Fin c) ta = Ok (VNd r1) /\ holds r1 G1 /\ shp r1 = shp s /\
    fourier_high_pass (VNd s) (Fin f) (Fin c) ta = Ok (VNd r2) /\ holds r2 G2 /\ shp r2 = shp s /\
    forall i, inb (shp s) i -> G1 i + G2 i = F i.
  Proof using Hs.
    intros Hc Em. pose proof (w_pos s F f ta ax Hs) as Hw.
    destruct (low_pass_spec s F f ta ax Hs c Hc) as (r1 & G1 & E1 & S1 & H1 & Q1). destruct (high_pass_spec s F f ta ax Hs c Hc) as (r2 & G2 & E2 & S2 & H2 & Q2).
    exists r1, r2, G1, G2. do 6 (split; [auto|]). intros i Hi.
    assert (X : forall q : nat, (INR q + 1) * w <= c <-> (q < m)%nat).
    { intros q. rewrite Em. split; intros Q.
      - apply Rmult_le_reg_r in Q; auto. apply INR_lt. lra.
      - apply Rmult_le_compat_r; [lra|]. rewrite <- S_INR. apply le_INR. lia. }
    assert (Y : forall q : nat, c <= INR q * w <-> (m <= q)%nat).
    { intros q. rewrite Em. split; intros Q.
      - apply Rmult_le_reg_r in Q; auto. apply INR_le. lra.
      - apply Rmult_le_compat_r; [lra|]. apply le_INR. lia. }
    pose proof (filters_split n _ _ _ _ _ (Q1 i Hi) (Q2 i Hi)) as P.
    assert (D : column F i ax (nth ax i 0%nat) - column G1 i ax (nth ax i 0%nat) - column G2 i ax (nth ax i 0%nat) = 0).
    { refine (filters_empty n _ (column F i ax) (fun t => column F i ax t - column G1 i ax t - column G2 i ax t) _ (P _) _ _).
      - intros k Hk. cbn beta. rewrite X, Y. lia.
      - intros k Hk. cbn beta. rewrite X, Y. lia.
      - apply nth_inb; auto. }
    rewrite !column_self in D. lra.
  Qed.
  Lemma low_high_gap c m : INR m * w < c < (INR m + 1) * w -> exists r1 r2 G1 G2,
    fourier_low_pass (VNd s) (Fin f) (Fin c) ta = Ok (VNd r1) /\ holds r1 G1 /\ shp r1 = shp s /\
    fourier_high_pass (VNd s) (Fin f) (Fin c) ta = Ok (VNd r2) /\ holds r2 G2 /\ shp r2 = shp s /\
    forall i, inb (shp s) i -> filters n (fun k => cycles n k = m) (column F i ax)
                                 (fun t => column F i ax t - column G1 i ax t - column G2 i ax t).
  Proof using Hs.
    intros Hc. pose proof (w_pos s F f ta ax Hs) as Hw.
    assert (Hc0 : 0 <= c) by (assert (0 <= INR m * w) by (apply Rmult_le_pos; [apply pos_INR|lra]); lra).
    destruct (low_pass_spec s F f ta ax Hs c Hc0) as (r1 & G1 & E1 & S1 & H1 & Q1). destruct (high_pass_spec s F f ta ax Hs c Hc0) as (r2 & G2 & E2 & S2 & H2 & Q2).
    exists r1, r2, G1, G2. do 6 (split; [auto|]). intros i Hi.
    assert (X : forall q : nat, (INR q + 1) * w <= c <-> (q < m)%nat).
    { intros q. split; intros Q.
      - assert (K : (INR q + 1) * w < (INR m + 1) * w) by lra. apply Rmult_lt_reg_r in K; auto. apply INR_lt. lra.
      - left. apply Rle_lt_trans with (INR m * w); [|lra]. apply Rmult_le_compat_r; [lra|]. rewrite <- S_INR. apply le_INR. lia. }
    assert (Y : forall q : nat, c <= INR q * w <-> (m < q)%nat).
    { intros q. split; intros Q.
      - assert (K : INR m * w < INR q * w) by lra. apply Rmult_lt_reg_r in K; auto. apply INR_lt. lra.
      - apply Rle_trans with ((INR m + 1) * w); [lra|]. apply Rmult_le_compat_r; [lra|]. rewrite <- S_INR. apply le_INR. lia. }
    pose proof (filters_split n _ _ _ _ _ (Q1 i Hi) (Q2 i Hi)) as P.
    eapply filters_iff; [|apply P].
    - intros k Hk. cbn beta. rewrite X, Y. lia.
    - intros k Hk. cbn beta. rewrite X, Y. lia.
  Qed.
  Lemma pass_block_sum cl ch : 0 <= cl -> 0 <= ch -> ch <= INR n / 2 * w -> exists r1 r2 G1 G2,
    fourier_band_pass (VNd s) (Fin f) (Fin cl) (Fin ch) ta = Ok (VNd r1) /\ holds r1 G1 /\ shp r1 = shp s /\
    fourier_band_block (VNd s) (Fin f) (Fin cl) (Fin ch) ta = Ok (VNd r2) /\ holds r2 G2 /\ shp r2 = shp s /\
    forall i, inb (shp s) i -> G1 i + G2 i = F i.
  Proof using Hs.
    intros Hl Hh Hny.
    destruct (band_pass_spec s F f ta ax Hs cl ch Hl Hh) as (r1 & G1 & E1 & S1 & H1 & Q1). destruct (band_block_spec s F f ta ax Hs cl ch Hl Hh Hny) as (r2 & G2 & E2 & S2 & H2 & Q2).
    exists r1, r2, G1, G2. do 6 (split; [auto|]). intros i Hi.
    pose proof (filters_split n _ _ _ _ _ (Q1 i Hi) (Q2 i Hi) ltac:(intros; tauto)) as P.
    apply filters_empty with (t := nth ax i 0%nat) in P; [|intros; tauto|apply nth_inb; auto].
    rewrite !column_self in P. lra.
  Qed.

  (** ** the role of axis 0: filtering along another axis is filtering the swapped array with rescaled cutoffs *)
  Lemma sampled_swap : sampled (swapaxes ax 0 s) (fun i => F (swap_nth 0%nat ax 0 i)) f 0 0.
  Proof using Hs.
    destruct Hs as [V A L0 L R]. destruct A as [A1 A2]. unfold ndim in A1.
    assert (SL : forall l : list nat, List.length (swap_nth 0%nat ax 0 l) = List.length l) by (intros; unfold swap_nth; rewrite !upd_length; auto).
    assert (N0 : nth 0 (swap_nth 0%nat ax 0 (shp s)) 0%nat = n).
    { rewrite <- (swap0_hd ax (shp s)) by auto. destruct (swap_nth 0%nat ax 0 (shp s)); reflexivity. }
    split.
    - intros i Hi. cbn [swapaxes get shp] in *. apply V. apply inb_nth in Hi. destruct Hi as [Li Hi]. rewrite SL in Li, Hi. apply inb_nth. rewrite SL. split; [auto|].
      intros k Hk. unfold swap_nth in *. rewrite !nth_upd, !upd_length. rewrite Li.
      destruct (Nat.ltb_spec ax (List.length (shp s))); [|lia]. destruct (Nat.ltb_spec 0 (List.length (shp s))); [|lia]. rewrite !andb_true_r.
      destruct (Nat.eqb_spec k 0) as [->|K0].
      + specialize (Hi ax ltac:(lia)). rewrite !nth_upd, !upd_length in Hi. 
        destruct (Nat.ltb_spec ax (List.length (shp s))); [|lia]. destruct (Nat.ltb_spec 0 (List.length (shp s))); [|lia]. rewrite !andb_true_r in Hi.
        rewrite Nat.eqb_refl in Hi. destruct (Nat.eqb_spec ax 0) as [->|]; auto.
      + destruct (Nat.eqb_spec k ax) as [->|K1].
        * specialize (Hi 0%nat ltac:(lia)). rewrite !nth_upd, !upd_length in Hi.
          destruct (Nat.ltb_spec ax (List.length (shp s))); [|lia]. destruct (Nat.ltb_spec 0 (List.length (shp s))); [|lia]. rewrite !andb_true_r in Hi.
          rewrite Nat.eqb_refl in Hi. auto.
        * specialize (Hi k Hk). rewrite !nth_upd, !upd_length in Hi.
          destruct (Nat.eqb_spec k 0); [lia|]. destruct (Nat.eqb_spec k ax); [lia|]. exact Hi.
    - split; [|left; reflexivity]. unfold ndim. cbn [swapaxes shp]. rewrite SL. lia.
    - cbn [swapaxes shp]. rewrite N0. auto.
    - cbn [swapaxes shp]. rewrite N0. auto.
    - auto.
  Qed.
  Lemma effective_cutoff cl ch fl : 0 <= cl -> 0 <= ch ->
    let q := INR (nth 0%nat (shp s) 0%nat) / INR n in exists r r',
    fourier_filter (VNd s) (Fin f) (Fin cl) (Fin ch) ta fl = Ok (VNd r) /\
    fourier_filter (VNd (swapaxes ax 0 s)) (Fin f) (Fin (cl * q)) (Fin (ch * q)) 0 fl = Ok (VNd r') /\
    shp r = shp s /\ shp r' = shp (swapaxes ax 0 s) /\
    forall i, inb (shp s) i -> get r i = get (swapaxes ax 0 r') i.
  Proof using Hs.
    intros Hl Hh q. pose proof Hs as [V A L0 L R]. pose proof A as [A1 A2]. unfold ndim in A1.
    assert (P0 : 0 < INR (nth 0%nat (shp s) 0%nat)) by (apply lt_0_INR; auto). assert (P1 : 0 < INR n) by (apply lt_0_INR; auto).
    assert (Hq : 0 < q) by (apply Rdiv_lt_0_compat; auto).
    destruct (filter_nd s F f ta ax Hs cl ch fl Hl Hh) as (r & E & S & H).
    destruct (filter_nd _ _ f 0 0 sampled_swap (cl * q) (ch * q) fl) as (r' & E' & S' & H'); [apply Rmult_le_pos; lra|apply Rmult_le_pos; lra|].
    exists r, r'. do 4 (split; [auto|]). intros i Hi. rewrite H by (rewrite S; auto).
    assert (Li : (ax < List.length i)%nat) by (rewrite (inb_length _ _ Hi); auto).
    assert (SL : forall l : list nat, List.length (swap_nth 0%nat ax 0 l) = List.length l) by (intros; unfold swap_nth; rewrite !upd_length; auto).
    assert (N0 : nth 0 (swap_nth 0%nat ax 0 (shp s)) 0%nat = n).
    { rewrite <- (swap0_hd ax (shp s)) by auto. destruct (swap_nth 0%nat ax 0 (shp s)); reflexivity. }
    assert (I0 : nth 0 (swap_nth 0%nat ax 0 i) 0%nat = nth ax i 0%nat).
    { rewrite <- (swap0_hd ax i) by auto. destruct (swap_nth 0%nat ax 0 i); reflexivity. }
    cbn [swapaxes get]. rewrite H'.
    - apply f_equal. unfold fout, fmask. cbn [swapaxes shp]. rewrite N0, I0.
      replace (loi f n (cl * q)) with (loi f (nth 0 (shp s) 0%nat) cl).
      2:{ unfold loi, width. do 2 f_equal. unfold q. field. lra. }
      replace (hii f n (ch * q)) with (hii f (nth 0 (shp s) 0%nat) ch).
      2:{ unfold hii, width. do 2 f_equal. unfold q. field. lra. }
      apply filt_ext; auto. intros t Ht. unfold column. rewrite <- (swap0_column ax i t) by auto.
      destruct (swap_nth 0%nat ax 0 i) as [|h u] eqn:Z; [specialize (SL i); rewrite Z in SL; cbn in SL; lia|]. reflexivity.
    - rewrite S'. cbn [swapaxes shp].
      apply inb_nth in Hi. destruct Hi as [Hi1 Hi]. apply inb_nth. rewrite !SL. split; [auto|]. intros k Hk. unfold swap_nth. rewrite !nth_upd, !upd_length, Hi1.
      destruct (Nat.ltb_spec ax (List.length (shp s))); [|lia]. destruct (Nat.ltb_spec 0 (List.length (shp s))); [|lia]. rewrite !andb_true_r.
      destruct (Nat.eqb_spec k 0); [apply Hi; auto|]. destruct (Nat.eqb_spec k ax); apply Hi; auto.
  Qed.
End One.

(** ** labelled arrays *)
Lemma filter_labelled d F f ta ax cl ch fl : sampled (dat d) F f ta ax -> 0 <= cl -> 0 <= ch -> exists r,
  fourier_filter (VNd (dat d)) (Fin f) (Fin cl) (Fin ch) ta fl = Ok (VNd r) /\ shp r = shp (dat d) /\
  (nth ax (shp (dat d)) 0%nat = nth 0 (shp (dat d)) 0%nat ->
     fourier_filter (VDa d) (Fin f) (Fin cl) (Fin ch) ta fl = Ok (VDa (mkDa (dims d) r (coords d) (attrs d) (daname d)))) /\
  (nth ax (shp (dat d)) 0%nat <> nth 0 (shp (dat d)) 0%nat ->
     fourier_filter (VDa d) (Fin f) (Fin cl) (Fin ch) ta fl = Err ValueError).
Proof.
  intros Hs Hl Hh. destruct Hs as [V A L0 L R]. destruct (filter_arr_fin (dat d) F f cl ch ta ax fl V A L0 L R Hl Hh) as (r & E & S & H).
  exists r. cbn [fourier_filter]. rewrite E. cbn [bind]. rewrite (axis_pyidx _ _ _ A). cbn [oget bind swapaxes shp]. rewrite S.
  destruct A as [A1 _]. unfold ndim in A1.
  split; [auto|]. split; [auto|].
  destruct (shape_eqb_spec (shp (dat d)) (swap_nth 0%nat ax 0 (shp (dat d)))) as [Q|Q]; cbn [negb].
  - split; [auto|]. intros N. exfalso. apply N. rewrite <- (swap0_hd ax (shp (dat d))) by auto. rewrite <- Q. destruct (shp (dat d)); reflexivity.
  - split; [|auto]. intros N. exfalso. apply Q. unfold swap_nth. rewrite N. replace (upd (shp (dat d)) ax (nth 0 (shp (dat d)) 0%nat)) with (shp (dat d)) by (rewrite <- N; symmetry; apply upd_self).
    symmetry. apply upd_self.
Qed.
