(** gradient acts on differences of neighbouring values: relations between two fields carry over to their gradients (C126). *)
From Coq Require Import Reals List Bool Arith ZArith Lra Lia String.
From Flocq Require Import Core BinarySingleNaN.
From Verif Require Import PyBase PyFacts Num Arr ArrFacts ChunkFacts Hybrid Gradient SpecUnits NumB64 SpecRel SpecB64 B64Facts B64Nmse.
Import ListNotations.

(** indices of operands under broadcasting *)
Lemma bshape_rev_left a b s : bshape_rev a b = Some s -> List.length a <= List.length s /\ forall k, k < List.length a -> nth k a 0 = 1 \/ nth k a 0 = nth k s 0.
Proof.
  revert b s. induction a as [|x a IH]; intros b s H; [cbn; split; [lia|intros; lia]|].
  destruct b as [|y b]; cbn in H; [injection H as <-; split; [lia|auto]|].
  destruct (bdim x y) as [d|] eqn:D; [|discriminate]. destruct (bshape_rev a b) as [r|] eqn:E; [|discriminate]. injection H as <-.
  destruct (IH b r E) as [L K]. cbn. split; [lia|]. intros [|k] Hk; [|apply K; lia].
  unfold bdim in D. destruct (Nat.eqb_spec x y); [injection D as <-; auto|]. destruct (Nat.eqb_spec x 1); [auto|]. destruct (Nat.eqb_spec y 1); [injection D as <-; auto|discriminate].
Qed.
Lemma bshape_rev_comm a b s : bshape_rev a b = Some s -> bshape_rev b a = Some s.
Proof.
  revert b s. induction a as [|x a IH]; intros [|y b] s H; cbn in *; auto.
  assert (D : bdim y x = bdim x y).
  { unfold bdim. rewrite (Nat.eqb_sym y x). destruct (Nat.eqb_spec x y); [congruence|]. destruct (Nat.eqb_spec x 1), (Nat.eqb_spec y 1); subst; auto; congruence. }
  rewrite D. destruct (bdim x y); [|discriminate]. destruct (bshape_rev a b) eqn:E; [|discriminate]. rewrite (IH _ _ E). exact H.
Qed.
Lemma nth_skipn_plus n (i : list nat) k : nth k (skipn n i) 0 = nth (n + k) i 0.
Proof. revert i. induction n as [|n IH]; intros [|x i]; cbn; auto. destruct k; reflexivity. Qed.
Lemma bidx_inb_l a b s i : bshape a b = Some s -> inb s i -> inb a (bidx a i).
Proof.
  unfold bshape. destruct (bshape_rev (rev a) (rev b)) as [r|] eqn:E; [|discriminate]. cbn [option_map]. intros H Hi. injection H as <-.
  destruct (bshape_rev_left _ _ _ E) as [L K]. rewrite rev_length in L, K.
  apply inb_nth in Hi. rewrite rev_length in Hi. destruct Hi as [Li Hi].
  assert (LL : List.length (combine (skipn (List.length i - List.length a) i) a) = List.length a) by (rewrite combine_length, skipn_length; lia).
  apply inb_nth. split; [unfold bidx; rewrite map_length; exact LL|]. intros k Hk.
  unfold bidx. set (f := fun p : nat * nat => if Nat.eqb (snd p) 1 then 0 else fst p).
  rewrite (nth_indep _ 0 (f (0, 0))) by (rewrite map_length, LL; exact Hk).
  rewrite map_nth, combine_nth by (rewrite skipn_length; lia). unfold f. cbn [fst snd].
  specialize (K (List.length a - 1 - k) ltac:(lia)). rewrite rev_nth in K by lia. replace (List.length a - S (List.length a - 1 - k)) with k in K by lia.
  assert (P : nth k (skipn (List.length i - List.length a) i) 0 = nth (List.length i - List.length a + k) i 0).
  { apply nth_skipn_plus. }
  rewrite P. specialize (Hi (List.length i - List.length a + k) ltac:(lia)). rewrite rev_nth in Hi by lia.
  replace (List.length r - S (List.length i - List.length a + k)) with (List.length a - 1 - k) in Hi by lia.
  destruct (Nat.eqb_spec (nth k a 0) 1); lia.
Qed.
Lemma bidx_inb_r a b s i : bshape a b = Some s -> inb s i -> inb b (bidx b i).
Proof.
  intros H Hi. apply (bidx_inb_l b a s); auto. unfold bshape in *. destruct (bshape_rev (rev a) (rev b)) as [r|] eqn:E; [|discriminate].
  rewrite (bshape_rev_comm _ _ _ E). exact H.
Qed.

Section Rel.
  Context {T : Type} {N : Num T}.
  Variables (RA RG : T -> T -> Prop).
  Hypothesis Hsub : forall x y x' y', RA x x' -> RA y y' -> RG (nsub x y) (nsub x' y').
  Hypothesis Hdiv : forall x x' d, RG x x' -> RG (ndiv x d) (ndiv x' d).

  Lemma outcomes_bind {A B C D} (P : A -> B -> Prop) (Q : C -> D -> Prop) x y k k' :
    outcomes P x y -> (forall a b, P a b -> outcomes Q (k a) (k' b)) -> outcomes Q (bind x k) (bind y k').
  Proof. intros H K. destruct x as [a|e], y as [b|e']; cbn [bind]; cbn [outcomes] in H; try contradiction; [apply K, H|exact H]. Qed.
  Lemma outcomes_guard {A B} (P : A -> B -> Prop) c e x y : (c = false -> outcomes P x y) -> outcomes P (if c then Err e else x) (if c then Err e else y).
  Proof. destruct c; cbn; auto. Qed.
  Lemma outcomes_refl {A} (P : A -> A -> Prop) x : (forall a, P a a) -> outcomes P x x.
  Proof. intros H. destruct x; cbn; auto. Qed.

  Lemma inb_move s i ax j : inb s i -> j < nth ax s 0 -> inb s (upd i ax j).
  Proof.
    intros Hi Hj. rewrite !inb_nth in *. destruct Hi as [L H]. split; [rewrite upd_length; auto|]. intros k Hk. rewrite nth_upd.
    destruct (Nat.eqb_spec k ax) as [->|]; cbn [andb]; [|apply H; auto]. destruct (Nat.ltb ax (List.length i)); [exact Hj|apply H; auto].
  Qed.
  Lemma gradient_axis_rel ax a b : arr_rel RA a b -> ax < ndim a ->
    outcomes (fun g h => arr_rel RG g h /\ shp g = shp a /\ 2 <= nth ax (shp a) 0) (np_gradient_axis ax a) (np_gradient_axis ax b).
  Proof.
    intros [S H] Hax. unfold np_gradient_axis. rewrite S. apply outcomes_guard. intros G. apply Nat.ltb_ge in G.
    cbn [outcomes shp]. split; [|split; auto]. split; [reflexivity|]. cbn [shp get]. intros i Hi.
    assert (Hk : nth ax i 0 < nth ax (shp a) 0) by (apply (proj2 (proj1 (inb_nth _ _) Hi)); auto).
    assert (M : forall j, j < nth ax (shp a) 0 -> RA (get a (upd i ax j)) (get b (upd i ax j))) by (intros j Hj; apply H, inb_move; auto).
    destruct (Nat.eqb_spec (nth ax i 0) 0); [apply Hsub; apply M; lia|].
    destruct (Nat.eqb_spec (nth ax i 0) (nth ax (shp a) 0 - 1)); [apply Hsub; apply M; lia|].
    apply Hdiv, Hsub; apply M; lia.
  Qed.
  Lemma gradient2_rel a b : arr_rel RA a b ->
    outcomes (fun g h => arr_rel RG (fst g) (fst h) /\ arr_rel RG (snd g) (snd h)) (np_gradient2 a) (np_gradient2 b).
  Proof.
    intros H. unfold np_gradient2. assert (D : ndim b = ndim a) by (unfold ndim; rewrite (proj1 H); reflexivity). rewrite D.
    set (P := fun l => fun gs hs : list (arr T) => Forall2 (arr_rel RG) gs hs /\ List.length gs = List.length l /\ Forall (fun g : arr T => shp g = shp a) gs /\ Forall (fun ax => 2 <= nth ax (shp a) 0) l).
    apply (outcomes_bind (P (seq 0 (ndim a)))).
    - assert (Q : forall l, (forall ax, In ax l -> ax < ndim a) ->
        outcomes (P l) (mapM (fun ax => np_gradient_axis ax a) l) (mapM (fun ax => np_gradient_axis ax b) l)).
      { induction l as [|ax l IH]; intros Hl; [cbn; unfold P; auto|]. cbn [mapM].
        eapply outcomes_bind; [apply (gradient_axis_rel ax a b H); apply Hl; left; reflexivity|]. intros g h (Hg & Sg & Ng).
        eapply outcomes_bind; [apply IH; intros; apply Hl; right; auto|]. intros gs hs (Hgs & Lgs & Fgs & Fl). cbn [outcomes]. unfold P. cbn [List.length].
        split; [constructor; auto|]. split; [lia|]. split; constructor; auto. }
      apply Q. intros ax Hx. apply in_seq in Hx. lia.
    - intros gs hs (HF & Lg & FS & FL). rewrite seq_length in Lg. destruct gs as [|g0 [|g1 gs]].
      + inversion HF. subst. cbn [outcomes]. reflexivity.
      + inversion HF as [|? h0 ? hs' H0 Hr]. subst. inversion Hr. subst. inversion FS as [|? ? Sg _]. subst. cbn [outcomes fst snd]. cbn in Lg.
        destruct H0 as [Sh Hh]. rewrite <- Lg in FL. cbn in FL. inversion FL as [|? ? F0 _]. subst.
        assert (exists n, shp a = [n] /\ 2 <= n) as (n & En & Hn).
        { unfold ndim in *. destruct (shp a) as [|n [|m r]] eqn:Es; try discriminate. exists n. split; [auto|exact F0]. }
        rewrite Sg, En in Hh. split; (split; [reflexivity|]; intros; cbn [scalar get]; apply Hh; apply inb_nth; split; [reflexivity|]; intros [|k] Hk; cbn in *; lia).
      + inversion HF as [|? h0 ? hs' H0 Hr]. subst. inversion Hr as [|? h1 ? hs2 H1 Hr2]. subst. cbn [outcomes fst snd]. auto.
  Qed.
  Lemma map2_rel g h d : arr_rel RG g h -> outcomes (arr_rel RG) (np_map2 ndiv g d) (np_map2 ndiv h d).
  Proof.
    intros [S H]. unfold np_map2. rewrite S. destruct (bshape (shp g) (shp d)) as [s|] eqn:E; cbn [outcomes]; [|reflexivity].
    split; [reflexivity|]. cbn [shp get]. intros i Hi. apply Hdiv. apply H. apply (bidx_inb_l _ _ _ _ E Hi).
  Qed.
  Lemma wrap_rel g h lon2d lat2d : arr_rel RG g h ->
    outcomes (fun d e => dims e = dims d /\ coords e = coords d /\ attrs e = attrs d /\ daname e = daname d /\ arr_rel RG (dat d) (dat e)) (wrap_xy g lon2d lat2d) (wrap_xy h lon2d lat2d).
  Proof.
    intros H. destruct H as [S H]. unfold wrap_xy, ndim. rewrite S. apply outcomes_guard. intros _. apply outcomes_guard. intros _. cbn [outcomes dims coords attrs daname dat].
    repeat (split; [reflexivity|]). split; auto.
  Qed.

  Lemma gradient_rel v w lon lat : same_but_values RA v w -> outcomes (Forall2 (val_rel RG)) (gradient v lon lat) (gradient w lon lat).
  Proof.
    intros H. unfold gradient.
    apply (outcomes_bind eq).
    { destruct lon, lat; cbn [outcomes]; auto; destruct v, w; cbn in H; try contradiction; cbn [outcomes]; auto; destruct H as [-> _]; reflexivity. }
    intros ll ? <-. apply (outcomes_bind eq); [apply outcomes_refl; auto|]. intros lon1 ? <-. apply outcomes_guard. intros _.
    apply (outcomes_bind eq); [apply outcomes_refl; auto|]. intros lat1 ? <-.
    apply (outcomes_bind eq); [apply outcomes_refl; auto|]. intros [lon2d lat2d] ? <-.
    apply (outcomes_bind eq); [apply outcomes_refl; auto|]. intros a1loc ? <-.
    apply (outcomes_bind eq); [apply outcomes_refl; auto|]. intros a0d ? <-.
    apply (outcomes_bind eq); [apply outcomes_refl; auto|]. intros a1d ? <-.
    apply (outcomes_bind (arr_rel RA)).
    { destruct v, w; cbn in H; try contradiction; cbn [outcomes]; auto; apply H. }
    intros a b Hab. eapply outcomes_bind; [apply gradient2_rel; exact Hab|]. intros g h [G0 G1].
    eapply outcomes_bind; [apply map2_rel; exact G0|]. intros x0 y0 H0.
    eapply outcomes_bind; [apply map2_rel; exact G1|]. intros x1 y1 H1.
    destruct v, w; cbn in H; try contradiction; try (cbn [outcomes]; constructor; [exact H0|constructor; [exact H1|constructor]]).
    eapply outcomes_bind; [apply wrap_rel; exact H0|]. intros p0 q0 D0.
    eapply outcomes_bind; [apply wrap_rel; exact H1|]. intros p1 q1 D1. cbn [outcomes]. constructor; [exact D0|constructor; [exact D1|constructor]].
  Qed.
End Rel.

(** ** binary64 *)
Local Open Scope R_scope.
Lemma opposite_cases x y : opposite x y -> (x = B754_nan /\ y = B754_nan) \/ (exists s s', x = B754_zero s /\ y = B754_zero s') \/ y = Bopp x.
Proof.
  intros [[H1 H2]|H].
  - left. destruct x; try discriminate. destruct y; try discriminate. auto.
  - destruct x as [s|s| |s m e B], y as [s'|s'| |s' m' e' B']; try (cbn in H; discriminate); try (destruct s; cbn in H; discriminate); try (destruct s'; cbn in H; discriminate); try (destruct s, s'; cbn in H; discriminate); eauto 6.
    + right; right. destruct s, s'; cbn in *; try discriminate; reflexivity.
    + right; right. rewrite Beqb_correct in H by reflexivity. revert H. case Req_bool_spec; [|discriminate]. intros E _.
      apply B2R_inj; auto.
Qed.
Lemma opposite_opp x : opposite x (Bopp x).
Proof.
  destruct x as [s|s| |s m e B]; [right; destruct s; reflexivity|right; destruct s; reflexivity|left; auto|].
  right. rewrite Beqb_correct by reflexivity. apply Req_bool_true. reflexivity.
Qed.
Lemma opposite_fin x y : is_finite x = true -> is_finite y = true -> B2R y = - B2R x -> opposite x y.
Proof. intros Fx Fy E. right. rewrite Beqb_correct by (try rewrite is_finite_Bopp; auto). rewrite B2R_Bopp. apply Req_bool_true. exact E. Qed.
Lemma opposite_inf s : opposite (B754_infinity s) (B754_infinity (negb s)).
Proof. right. destruct s; reflexivity. Qed.

Lemma opposite_sub x y : opposite (Bminus mode_NE x y) (Bminus mode_NE (Bopp x) (Bopp y)).
Proof.
  destruct (is_finite x) eqn:Fx; [destruct (is_finite y) eqn:Fy|].
  - pose proof (Bminus_correct 53 1024 _ _ mode_NE x y Fx Fy) as K.
    pose proof (Bminus_correct 53 1024 _ _ mode_NE (Bopp x) (Bopp y) ltac:(rewrite is_finite_Bopp; auto) ltac:(rewrite is_finite_Bopp; auto)) as K'.
    rewrite !B2R_Bopp in K'. replace (- B2R x - - B2R y) with (- (B2R x - B2R y)) in K' by ring.
    pose proof (round_NE_opp radix2 (SpecFloat.fexp 53 1024) (B2R x - B2R y)) as O. change (round radix2 (SpecFloat.fexp 53 1024) ZnearestE) with (round radix2 (SpecFloat.fexp 53 1024) (round_mode mode_NE)) in O.
    rewrite O, Rabs_Ropp in K'. destruct (Rlt_bool _ _).
    + destruct K as (R1 & F1 & _), K' as (R2 & F2 & _). apply opposite_fin; auto. rewrite R1, R2. reflexivity.
    + destruct K as [I1 _], K' as [I2 _]. rewrite overflow_inf in I1, I2. apply SF_inf in I1, I2. rewrite I1, I2, Bsign_Bopp by (destruct x; try discriminate; reflexivity). apply opposite_inf.
  - destruct x as [s|s| |s m e B], y as [s'|s'| |s' m' e' B']; try discriminate; cbn; try (left; auto; fail); right; destruct s, s'; reflexivity.
  - destruct x as [s|s| |s m e B], y as [s'|s'| |s' m' e' B']; try discriminate; try (left; auto; fail); try (right; destruct s; reflexivity). destruct s, s'; first [left; split; reflexivity|right; reflexivity].
Qed.
Lemma opposite_div x y d : opposite x y -> opposite (Bdiv mode_NE x d) (Bdiv mode_NE y d).
Proof.
  intros H. apply opposite_cases in H. destruct H as [[-> ->]|[(s & s' & -> & ->)| ->]].
  - left. auto.
  - destruct d as [z|z| |z m e B]; cbn; try (left; auto; fail); right; destruct s, s', z; reflexivity.
  - destruct d as [z|z| |z m e B].
    + destruct x as [s|s| |s m' e' B']; cbn; try (left; auto; fail); right; destruct s, z; reflexivity.
    + destruct x as [s|s| |s m' e' B']; cbn; try (left; auto; fail); right; destruct s, z; reflexivity.
    + left. destruct x; auto.
    + assert (Z : B2R (B754_finite z m e B) <> 0) by (cbn; intros Q; apply eq_0_F2R in Q; destruct z; discriminate).
      destruct (is_finite x) eqn:Fx.
      * pose proof (Bdiv_correct 53 1024 _ _ mode_NE x _ Z) as K. pose proof (Bdiv_correct 53 1024 _ _ mode_NE (Bopp x) _ Z) as K'.
        rewrite B2R_Bopp in K'. replace (- B2R x / B2R (B754_finite z m e B)) with (- (B2R x / B2R (B754_finite z m e B))) in K' by (unfold Rdiv; ring).
        pose proof (round_NE_opp radix2 (SpecFloat.fexp 53 1024) (B2R x / B2R (B754_finite z m e B))) as O. change (round radix2 (SpecFloat.fexp 53 1024) ZnearestE) with (round radix2 (SpecFloat.fexp 53 1024) (round_mode mode_NE)) in O.
        rewrite O, Rabs_Ropp in K'. destruct (Rlt_bool _ _).
        -- destruct K as (R1 & F1 & _), K' as (R2 & F2 & _). rewrite is_finite_Bopp in F2. apply opposite_fin; try congruence.
        -- rewrite overflow_inf in K, K'. apply SF_inf in K, K'. rewrite K, K', Bsign_Bopp by (destruct x; try discriminate; reflexivity). 
           destruct (Bsign x), (Bsign (B754_finite z m e B)); right; reflexivity.
      * destruct x as [s|s| |s m' e' B']; try discriminate; [right; destruct s, z; reflexivity|left; auto].
Qed.

Lemma c126_negation (M : libm) v w lon lat : same_but_values (fun x y => y = Bopp x) v w ->
  outcomes (Forall2 (val_rel opposite)) (@gradient b64 (NumB M) v lon lat) (@gradient b64 (NumB M) w lon lat).
Proof.
  intros H. apply (@gradient_rel b64 (NumB M) (fun x y => y = Bopp x) opposite); auto.
  - intros x y x' y' -> ->. apply opposite_sub.
  - intros x x' d. apply opposite_div.
Qed.
Lemma c126_flat (M : libm) v lon lat c r : v <> VOther -> (forall i, inb (shp (values_of v)) i -> get (values_of v) i = c) ->
  @gradient b64 (NumB M) v lon lat = Ok r -> Forall (fun g => forall i, inb (shp (values_of g)) i -> zero_or_nan (get (values_of g) i)) r.
Proof.
  intros Hv Hc E.
  assert (H : same_but_values (fun x y => x = c /\ y = c) v v) by (destruct v; cbn in *; try congruence; repeat split; auto; apply Hc; auto).
  pose proof (@gradient_rel b64 (NumB M) (fun x y => x = c /\ y = c) (fun x y => zero_or_nan x)) as G.
  specialize (G ltac:(intros x y x' y' [-> _] [-> _]; apply zero_sub) ltac:(intros; apply zero_div; auto) v v lon lat H).
  rewrite E in G. cbn [outcomes] in G. clear -G. assert (Q : forall l l', Forall2 (val_rel (fun x _ : b64 => zero_or_nan x)) l l' -> Forall (fun g => forall i, inb (shp (values_of g)) i -> zero_or_nan (get (values_of g) i)) l).
  { induction 1 as [|x y l l' Hxy _ IH]; constructor; auto. destruct x, y; cbn in Hxy; try contradiction; cbn [values_of]; apply Hxy. }
  apply (Q _ _ G).
Qed.
