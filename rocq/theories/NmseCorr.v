(** nmse and pearson_r of the same fields (C127). *)
From Coq Require Import Reals List Bool Arith ZArith Lra Lia String.
From Verif Require Import PyBase Num NumFacts Arr ArrFacts ListFacts Hybrid SpecSum SumFacts SpecStats Pearson PearsonFacts PearsonApi PearsonMore PsiFacts Nmse NmseFacts NmseApi NmseMore.
Import ListNotations.
Local Open Scope R_scope.

Section Moments.
  Variables (n : nat) (w x y : nat -> R).
  Hypothesis G : good_weights n w.
  Let W := bigsum n w.
  Let mx := wmean n w x.
  Let my := wmean n w y.
  Lemma W_pos : 0 < W. Proof using G. apply G. Qed.
  Lemma sum_mean z : bigsum n (fun k => w k * z k) = W * wmean n w z.
  Proof using G. unfold wmean. pose proof W_pos as H. unfold W in *. field. lra. Qed.
  Lemma variance_cov : variance n w x = wcov n w x x / W.
  Proof using G. unfold variance, wcov, wmean at 1. fold W. f_equal. apply bigsum_ext. intros. fold mx. ring. Qed.
  Lemma mse_moments : mse n w x y = wcov n w y y / W - 2 * (wcov n w x y / W) + wcov n w x x / W + (my - mx) * (my - mx).
  Proof using G.
    pose proof W_pos as HW. unfold mse, wcov, wmean at 1. fold W. fold mx my.
    assert (E : bigsum n (fun k => w k * ((y k - x k) * (y k - x k))) =
      bigsum n (fun k => w k * (y k - my) * (y k - my)) - 2 * bigsum n (fun k => w k * (x k - mx) * (y k - my)) + bigsum n (fun k => w k * (x k - mx) * (x k - mx)) + W * ((my - mx) * (my - mx))).
    { assert (C : bigsum n (fun k => w k * (y k - my)) = 0 /\ bigsum n (fun k => w k * (x k - mx)) = 0).
      { split; rewrite (bigsum_ext n _ (fun k => w k * (_ : nat -> R) k - w k * _)) by (intros; apply Rmult_minus_distr_l);
          rewrite bigsum_minus, sum_mean, bigsum_scal_r; fold W; fold mx; fold my; ring. }
      destruct C as [C1 C2].
      rewrite (bigsum_ext n (fun k => w k * ((y k - x k) * (y k - x k)))
        (fun k => w k * (y k - my) * (y k - my) - 2 * (w k * (x k - mx) * (y k - my)) + w k * (x k - mx) * (x k - mx) + (2 * (my - mx) * (w k * (y k - my)) - 2 * (my - mx) * (w k * (x k - mx)) + (my - mx) * (my - mx) * w k))) by (intros; ring).
      rewrite !bigsum_plus, !bigsum_minus, !bigsum_scal, C1, C2. fold W. ring. }
    rewrite E. field. lra.
  Qed.
  (** Murphy's decomposition *)
  Lemma nmse_decomposition : 0 < wcov n w x x -> 0 < wcov n w y y ->
    nmse_of n w x y = (1 - wcorr n w x y * wcorr n w x y)
      + (sqrt (variance n w y / variance n w x) - wcorr n w x y) * (sqrt (variance n w y / variance n w x) - wcorr n w x y)
      + (my - mx) * (my - mx) / variance n w x.
  Proof using G.
    intros Hx Hy. pose proof W_pos as HW. set (a := wcov n w x x) in *. set (b := wcov n w y y) in *. set (c := wcov n w x y).
    assert (Vy : variance n w y = b / W) by (unfold variance, b, wcov, wmean at 1; fold W; f_equal; apply bigsum_ext; intros; ring).
    unfold nmse_of. rewrite mse_moments, variance_cov, Vy. fold a b c. unfold wcorr. fold a b c.
    assert (Sa : sqrt a * sqrt a = a) by (apply sqrt_sqrt; lra). assert (Sb : sqrt b * sqrt b = b) by (apply sqrt_sqrt; lra).
    assert (Pa : 0 < sqrt a) by (apply sqrt_lt_R0; auto). assert (Pb : 0 < sqrt b) by (apply sqrt_lt_R0; auto).
    replace (b / W / (a / W)) with (b / a) by (field; lra). rewrite sqrt_div_alt by lra. rewrite sqrt_mult_alt by lra.
    generalize dependent (sqrt b). generalize dependent (sqrt a). intros p Sp Pp q Sq Pq.
    clearbody a b c. subst a b. field. repeat split; nra.
  Qed.
End Moments.

Section Api.
  Variables (X D : Type) (xs : pin (T := fl) -> pin (T := fl) -> option D -> option (pin (T := fl)) -> bool -> bool -> res X).
  Variables (cf_lat cf_lon : nin fl -> list string).
  Lemma c127_api o m lat lon la lo t ts na no lv ov dim keep i w x y :
    ready cf_lat cf_lon (NDa o) (NDa m) lat lon -> regular o m lat lon la lo t ts na no lv ov -> evenly_spaced na lv -> evenly_spaced no ov -> inb ts i ->
    let n := (na * no)%nat in
    let flat (a : da fl) := PNd (vec NaN (map (fun k => get (dat a) (i ++ [(k / no)%nat; (k mod no)%nat])) (seq 0 n))) in
    let area := PNd (vec NaN (map (fun k => Fin (cos (lv (k / no)%nat * (PI / 180)))) (seq 0 n))) in
    latitude_sample n (fun k => Fin (lv (k / no)%nat)) (fun k => get (dat o) (i ++ [(k / no)%nat; (k mod no)%nat])) (fun k => get (dat m) (i ++ [(k / no)%nat; (k mod no)%nat])) w x y ->
    good_weights n w -> 0 < variance n w x -> 0 < variance n w y ->
    exists r out v rho, nmse cf_lat cf_lon (NDa o) (NDa m) = Ok (ODa r) /\ get (dat r) i = Fin v /\
      snd (pearson_r X D xs (flat o) (flat m) dim (Some area) true keep None) = Ok (RNp X out) /\ get out [] = Fin rho /\
      v = (1 - rho * rho) + (sqrt (variance n w y / variance n w x) - rho) * (sqrt (variance n w y / variance n w x) - rho)
          + (wmean n w y - wmean n w x) * (wmean n w y - wmean n w x) / variance n w x /\
      1 - rho * rho <= v.
  Proof using.
    intros Hr Hg He He' Hi n flat area Hs G Vx Vy.
    destruct (nmse_regular cf_lat cf_lon o m lat lon la lo t ts na no lv ov Hr Hg He He') as (r & E & _ & _ & V).
    destruct (V i Hi w x y Hs) as [V1 _]. destruct (V1 G) as [V2 _]. specialize (V2 Vx).
    set (L := fun a : da fl => map (fun k => get (dat a) (i ++ [(k / no)%nat; (k mod no)%nat])) (seq 0 n)).
    set (LA := map (fun k => Fin (cos (lv (k / no)%nat * (PI / 180)))) (seq 0 n)).
    assert (LL : forall a, List.length (L a) = n) by (intros; unfold L; rewrite map_length, seq_length; reflexivity).
    assert (LLA : List.length LA = n) by (unfold LA; rewrite map_length, seq_length; reflexivity).
    assert (VA : forall l : list fl, values (PNd (vec NaN l)) = Some l).
    { intros l. cbn [values]. rewrite ravel_vec. reflexivity. }
    destruct (pearson_all X D xs (flat o) (flat m) (Some area) (L o) (L m) (Some LA) dim true keep eq_refl eq_refl (VA (L o)) (VA (L m)) (conj (VA LA) (eq_trans LLA (eq_sym (LL o)))) (eq_trans (LL m) (eq_sym (LL o))))
      as (out & EO & _ & VO).
    assert (S : sample true (List.length (L o)) (fun k => nth k (L o) NaN) (fun k => nth k (L m) NaN) (fun k => nth k LA NaN) x y w).
    { intros k Hk. rewrite LL in Hk.
      assert (N0 : forall (f : nat -> fl), nth k (map f (seq 0 n)) NaN = f k).
      { intros f. rewrite (nth_indep _ NaN (f 0%nat)) by (rewrite map_length, seq_length; auto). rewrite map_nth, seq_nth by auto. reflexivity. }
      unfold L, LA. rewrite !N0. destruct (Hs k Hk) as [(A & B & l & El & Ew)|[A Ew]].
      - left. injection El as <-. rewrite A, B, Ew. auto.
      - right. split; [reflexivity|]. split; [tauto|exact Ew]. }
    rewrite LL in S, VO. specialize (VO x y w S G). cbn zeta in VO. destruct VO as [VO _].
    pose proof (W_pos n w G) as HW.
    assert (Cx : 0 < wcov n w x x) by (rewrite (variance_cov n w x G) in Vx; apply (Rmult_lt_reg_r (/ bigsum n w)); [apply Rinv_0_lt_compat; exact HW|rewrite Rmult_0_l; exact Vx]).
    assert (Cy : 0 < wcov n w y y) by (rewrite (variance_cov n w y G) in Vy; apply (Rmult_lt_reg_r (/ bigsum n w)); [apply Rinv_0_lt_compat; exact HW|rewrite Rmult_0_l; exact Vy]).
    exists r, out, (nmse_of n w x y), (wcorr n w x y). split; [exact E|]. split; [exact V2|]. split; [exact EO|]. split; [apply VO; auto|].
    pose proof (nmse_decomposition n w x y G Cx Cy) as Q. split; [exact Q|]. rewrite Q.
    pose proof (Rle_0_sqr (sqrt (variance n w y / variance n w x) - wcorr n w x y)) as Q1. unfold Rsqr in Q1.
    assert (Q2 : 0 <= (wmean n w y - wmean n w x) * (wmean n w y - wmean n w x) / variance n w x) by (apply Rmult_le_pos; [apply Rle_0_sqr|left; apply Rinv_0_lt_compat; exact Vx]).
    lra.
  Qed.
End Api.
