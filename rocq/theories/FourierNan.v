(** Signals of any content, missing values included. *)
From Coq Require Import Reals List Bool Arith ZArith Lra Lia.
From Verif Require Import PyBase Num NumFacts Arr ArrFacts ListFacts Hybrid SpecSum SumFacts Spherical SpecFourier Fourier FourierDft FourierFacts FourierApi FourierMore FourierEnd SpecFourierErr FourierErr SpecFourierNan.
Import ListNotations.
Local Open Scope R_scope.

Lemma keeps_mask s f ta ax flg cl ch k : any_signal s f ta ax -> 0 <= cl -> 0 <= ch ->
  (kall flg (loi f (nth 0 (shp s) 0%nat) cl) (hii f (nth 0 (shp s) 0%nat) ch) (nth ax (shp s) 0%nat) k = true <->
   keeps flg (nth ax (shp s) 0%nat) (width f (nth 0 (shp s) 0%nat)) cl ch k).
Proof.
  intros [A L0 L Rf] Hl Hh. set (z := mkArr (shp s) (fun _ => Fin 0)).
  assert (Z : sampled z (fun _ => 0) f ta ax) by (split; auto; intros i Hi; reflexivity).
  exact (kall_iff z (fun _ => 0) f ta ax Z flg cl ch k Hl Hh).
Qed.

(** the value at every position, for arbitrary contents *)
Lemma filter_value s f ta ax flg cl ch : any_signal s f ta ax -> 0 <= cl -> 0 <= ch -> exists r,
  fourier_filter (VNd s) (Fin f) (Fin cl) (Fin ch) ta flg = Ok (VNd r) /\ shp r = shp s /\
  forall i, inb (shp s) i -> get r i =
    ifft_real (nth ax (shp s) 0%nat) (apply_filters flg (Rfloor (cl / width f (nth 0 (shp s) 0%nat))) (Rceil (ch / width f (nth 0 (shp s) 0%nat)))
      (fft (nth ax (shp s) 0%nat) (along s i ax))) (nth ax i 0%nat).
Proof.
  intros [A L0 L Rf] Hl Hh. cbn [fourier_filter].
  assert (Hf : Fin f <> Fin 0) by (intros E; injection E; lra).
  rewrite (fa_cuts s (Fin f) (Fin cl) (Fin ch) ta flg ax A L0 L Hf).
  assert (P : 0 < INR (nth 0 (shp s) 0%nat)) by (apply lt_0_INR; auto).
  rewrite (fdiv_fin f) by lra. fold (width f (nth 0 (shp s) 0%nat)).
  assert (W : 0 < width f (nth 0 (shp s) 0%nat)) by (unfold width; apply Rdiv_lt_0_compat; auto).
  rewrite !fdiv_fin by lra. cbn [fl_toZ to_int bind]. eexists. split; [reflexivity|].
  destruct A as [Hr _]. unfold ndim in Hr. split.
  - unfold swapaxes. cbn [shp]. apply swap0_inv. auto.
  - intros i Hi. assert (Li : (ax < List.length i)%nat) by (rewrite (inb_length _ _ Hi); auto).
    unfold swapaxes at 1. cbn [get]. rewrite swap0_hd by auto. f_equal. f_equal. unfold fft. apply map_ext_in. intros k _.
    unfold fft_bin. assert (Q : forall t, get (swapaxes ax 0 s) (t :: tl (swap_nth 0%nat ax 0 i)) = along s i ax t)
      by (intros t; unfold swapaxes, along; cbn [get]; now rewrite swap0_column by auto).
    f_equal; f_equal; apply map_ext; intros t; now rewrite Q.
Qed.

Lemma filter_columns s s' f ta ax flg cl ch : any_signal s f ta ax -> shp s' = shp s -> 0 <= cl -> 0 <= ch -> exists r r',
  fourier_filter (VNd s) (Fin f) (Fin cl) (Fin ch) ta flg = Ok (VNd r) /\ fourier_filter (VNd s') (Fin f) (Fin cl) (Fin ch) ta flg = Ok (VNd r') /\
  shp r = shp s /\ shp r' = shp s /\
  forall i, inb (shp s) i -> (forall t, (t < nth ax (shp s) 0)%nat -> along s i ax t = along s' i ax t) -> get r i = get r' i.
Proof.
  intros H S Hl Hh. assert (H' : any_signal s' f ta ax) by (destruct H as [A B C D]; split; unfold ndim in *; rewrite ?S; auto).
  destruct (filter_value s f ta ax flg cl ch H Hl Hh) as (r & E & Sr & V). destruct (filter_value s' f ta ax flg cl ch H' Hl Hh) as (r' & E' & Sr' & V').
  exists r, r'. split; [auto|]. split; [auto|]. split; [auto|]. split; [congruence|]. intros i Hi Q.
  rewrite V, V' by (rewrite ?S; auto). rewrite S. f_equal. f_equal. unfold fft. apply map_ext. intros k. unfold fft_bin.
  f_equal; f_equal; apply map_ext_in; intros t Ht; apply in_seq in Ht; rewrite Q by lia; reflexivity.
Qed.

Lemma filter_nothing s f ta ax flg cl ch : any_signal s f ta ax -> 0 <= cl -> 0 <= ch ->
  (forall k, (k < nth ax (shp s) 0)%nat -> ~ keeps flg (nth ax (shp s) 0%nat) (width f (nth 0 (shp s) 0%nat)) cl ch k) -> exists r,
  fourier_filter (VNd s) (Fin f) (Fin cl) (Fin ch) ta flg = Ok (VNd r) /\ shp r = shp s /\
  forall i, inb (shp s) i -> get r i = Fin 0.
Proof.
  intros H Hl Hh Kn. destruct (filter_value s f ta ax flg cl ch H Hl Hh) as (r & E & S & V). exists r. split; [auto|]. split; [auto|].
  intros i Hi. rewrite V by auto.
  assert (Pn : (0 < nth ax (shp s) 0)%nat) by (destruct H; auto).
  set (n := nth ax (shp s) 0%nat) in *. set (x := along s i ax) in *. set (w := width f (nth 0 (shp s) 0%nat)) in *.
  assert (W : 0 < w) by (destruct H as [A B C D]; unfold w, width; apply Rdiv_lt_0_compat; auto; apply lt_0_INR; auto).
  assert (C1 : 0 <= cl / w) by (unfold Rdiv; apply Rmult_le_pos; [auto|left; apply Rinv_0_lt_compat; auto]).
  assert (C2 : 0 <= ch / w) by (unfold Rdiv; apply Rmult_le_pos; [auto|left; apply Rinv_0_lt_compat; auto]).
  destruct (apply_masks (Rfloor (cl / w)) (Rceil (ch / w)) (fft n x) (Rfloor_nonneg _ C1) (Rceil_nonneg _ C2) flg) as [L M].
  assert (Lx : List.length (fft n x) = n) by (unfold fft; now rewrite map_length, seq_length). rewrite Lx in M.
  set (Y := apply_filters flg (Rfloor (cl / w)) (Rceil (ch / w)) (fft n x)) in *.
  assert (K : forall k, kall flg (Z.to_nat (Rfloor (cl / w))) (Z.to_nat (Rceil (ch / w))) n k = true <-> keeps flg n w cl ch k)
    by (intros k; exact (keeps_mask s f ta ax flg cl ch k H Hl Hh)).
  unfold ifft_real. rewrite (map_ext_in _ (fun _ => Fin 0)).
  - rewrite <- (map_map (fun _ : nat => 0) Fin), nsum_fin. rewrite rsum_seq0.
    change (@ndiv fl NumFl) with fl_div. cbn [ofZ NumFl]. rewrite fdiv_fin by (rewrite <- INR_IZR_INZ; apply not_0_INR; lia).
    f_equal. replace (bigsum n (fun _ => 0)) with 0; [unfold Rdiv; ring|]. clear. induction n as [|n IH]; cbn; [reflexivity|lra].
  - intros k Hk. apply in_seq in Hk. rewrite M by lia. destruct (kall flg _ _ n k) eqn:Q; [exfalso; apply (Kn k ltac:(lia)); apply K; exact Q|].
    rewrite angle_fin by lia. unfold creal. cbn [fst snd]. flsimpl. f_equal. ring.
Qed.

Lemma low_pass_nothing s f ta ax cl : any_signal s f ta ax -> 0 <= cl < width f (nth 0 (shp s) 0%nat) -> exists r,
  fourier_low_pass (VNd s) (Fin f) (Fin cl) ta = Ok (VNd r) /\ shp r = shp s /\ forall i, inb (shp s) i -> get r i = Fin 0.
Proof.
  intros H [Hl Q]. refine (filter_nothing s f ta ax (mkFlags true false false false) cl 0 H Hl (Rle_refl 0) _).
  assert (W : 0 < width f (nth 0 (shp s) 0%nat)) by (destruct H as [A B C D]; unfold width; apply Rdiv_lt_0_compat; auto; apply lt_0_INR; auto).
  intros k Hk [K _]. specialize (K eq_refl). pose proof (pos_INR (cycles (nth ax (shp s) 0%nat) k)). nra.
Qed.
Lemma high_pass_nothing s f ta ax ch : any_signal s f ta ax -> INR (nth ax (shp s) 0 / 2)%nat * width f (nth 0 (shp s) 0%nat) < ch -> exists r,
  fourier_high_pass (VNd s) (Fin f) (Fin ch) ta = Ok (VNd r) /\ shp r = shp s /\ forall i, inb (shp s) i -> get r i = Fin 0.
Proof.
  intros H Q. set (n := nth ax (shp s) 0%nat) in *.
  assert (W : 0 < width f (nth 0 (shp s) 0%nat)) by (destruct H as [A B C D]; unfold width; apply Rdiv_lt_0_compat; auto; apply lt_0_INR; auto).
  assert (Hh : 0 <= ch) by (pose proof (pos_INR (n / 2)); nra).
  refine (filter_nothing s f ta ax (mkFlags false true false false) 0 ch H (Rle_refl 0) Hh _).
  assert (D : (n = 2 * (n / 2) + n mod 2)%nat) by (apply Nat.div_mod; lia). pose proof (Nat.mod_upper_bound n 2 ltac:(lia)) as Bm.
  fold n. intros k Hk (_ & K & _). specialize (K eq_refl).
  assert (C : (cycles n k <= n / 2)%nat) by (unfold cycles; lia). apply le_INR in C. nra.
Qed.
