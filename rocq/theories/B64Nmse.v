(** nmse in binary64 (C116): its sign, and its value for identical fields. *)
From Coq Require Import Reals List Bool Arith ZArith Lra Lia String.
From Flocq Require Import Core BinarySingleNaN.
From Verif Require Import PyBase PyFacts Num Arr Hybrid NumB64 SpecB64 B64Facts Nmse.
Import ListNotations.
Local Open Scope R_scope.

(** not below zero, or not a number *)
Definition nonneg_or_nan (x : b64) : Prop := is_nan x = true \/ Bleb (B754_zero false) x = true.
(** a zero of either sign, or not a number *)
Definition zero_or_nan (x : b64) : Prop := is_nan x = true \/ Beqb x (B754_zero false) = true.
Definition plus (x : b64) : Prop := is_nan x = true \/ Bsign x = false.

Lemma plus_nonneg x : plus x -> nonneg_or_nan x.
Proof. intros [H|H]; [left; auto|]. destruct x as [[]|[]| |[] m e B]; cbn in H; try discriminate; try (left; reflexivity); right; reflexivity. Qed.
Lemma nonneg_cases x : nonneg_or_nan x -> x = B754_zero true \/ plus x.
Proof. intros [H|H]; [right; left; auto|]. destruct x as [[]|[]| |[] m e B]; cbn in H; try discriminate; auto; right; right; reflexivity. Qed.
Lemma zero_cases x : zero_or_nan x <-> x = B754_nan \/ exists s, x = B754_zero s.
Proof.
  split.
  - intros [H|H]; destruct x as [s|[]| |[] m e B]; cbn in H; try discriminate; eauto.
  - intros [->|[s ->]]; [left|right]; destruct s || idtac; reflexivity.
Qed.
Lemma plus_real x : plus x -> is_finite x = true -> 0 <= B2R x.
Proof.
  intros [H|H] F; [destruct x; discriminate|]. destruct x as [s|s| |s m e B]; try discriminate; cbn in *; [lra|]. subst s.
  apply F2R_ge_0. cbn. lia.
Qed.
Lemma SF_inf (x : b64) s : B2SF x = SpecFloat.S754_infinity s -> x = B754_infinity s.
Proof. destruct x; cbn; intros H; try discriminate. congruence. Qed.
Lemma overflow_inf s : binary_overflow 53 1024 mode_NE s = SpecFloat.S754_infinity s.
Proof. reflexivity. Qed.
Lemma plus_add x y : plus x -> nonneg_or_nan y -> plus (Bplus mode_NE x y).
Proof.
  intros Hx Hy. apply nonneg_cases in Hy. destruct Hy as [->|Hy].
  - destruct Hx as [Hx|Hx]; destruct x as [[]|[]| |[] m e B]; cbn in Hx; try discriminate; try (left; reflexivity); right; reflexivity.
  - destruct (is_finite x) eqn:Fx; [destruct (is_finite y) eqn:Fy|].
    + pose proof (plus_real _ Hx Fx) as Px. pose proof (plus_real _ Hy Fy) as Py.
      assert (Sx : Bsign x = false) by (destruct Hx as [Q|Q]; auto; destruct x; discriminate).
      pose proof (Bplus_correct 53 1024 _ _ mode_NE x y Fx Fy) as K. destruct (Rlt_bool _ _).
      * destruct K as (_ & _ & K). right. rewrite K, Sx. destruct (Rcompare_spec (B2R x + B2R y) 0); try reflexivity. lra.
      * destruct K as [K _]. rewrite Sx in K. apply SF_inf in K. rewrite K. right. reflexivity.
    + destruct Hy as [Hy|Hy]; destruct y as [[]|[]| |[] m e B]; cbn in Hy, Fy; try discriminate; destruct x as [[]|[]| |[] m' e' B']; cbn in *; try discriminate;
        try (left; reflexivity); right; reflexivity.
    + destruct Hx as [Hx|Hx]; destruct x as [[]|[]| |[] m' e' B']; cbn in Hx, Fx; try discriminate; try (left; destruct y; reflexivity).
      destruct Hy as [Hy|Hy]; destruct y as [[]|[]| |[] m e B]; cbn in Hy; try discriminate; try (left; reflexivity); right; reflexivity.
Qed.
Lemma mul_sign x y : is_nan (Bmult mode_NE x y) = true \/ Bsign (Bmult mode_NE x y) = xorb (Bsign x) (Bsign y).
Proof.
  destruct (is_nan (Bmult mode_NE x y)) eqn:Hn; [left; auto|right]. pose proof (Bmult_correct 53 1024 _ _ mode_NE x y) as K. destruct (Rlt_bool _ _).
  - apply K; auto.
  - apply SF_inf in K. rewrite K. reflexivity.
Qed.
Lemma div_sign x y : is_nan (Bdiv mode_NE x y) = true \/ Bsign (Bdiv mode_NE x y) = xorb (Bsign x) (Bsign y).
Proof.
  destruct (is_nan (Bdiv mode_NE x y)) eqn:Hn; [left; auto|right].
  destruct y as [sy|sy| |sy m e B]; try (destruct x as [sx|sx| |sx m' e' B']; cbn in *; try discriminate; reflexivity).
  assert (Z : B2R (B754_finite sy m e B) <> 0).
  { cbn. intros Q. apply eq_0_F2R in Q. destruct sy; discriminate. }
  pose proof (Bdiv_correct 53 1024 _ _ mode_NE x (B754_finite sy m e B) Z) as K. destruct (Rlt_bool _ _).
  - apply K; auto.
  - apply SF_inf in K. rewrite K. reflexivity.
Qed.
Lemma plus_mul x y : plus x -> plus y -> plus (Bmult mode_NE x y).
Proof.
  intros [Hx|Hx]; [intros _; left; destruct x; try discriminate; reflexivity|]. intros [Hy|Hy]; [left; destruct y; try discriminate; destruct x; reflexivity|].
  destruct (mul_sign x y) as [K|K]; [left; auto|right]. rewrite K, Hx, Hy. reflexivity.
Qed.
Lemma plus_div x y : plus x -> plus y -> plus (Bdiv mode_NE x y).
Proof.
  intros [Hx|Hx]; [intros _; left; destruct x; try discriminate; reflexivity|]. intros [Hy|Hy]; [left; destruct y; try discriminate; destruct x; reflexivity|].
  destruct (div_sign x y) as [K|K]; [left; auto|right]. rewrite K, Hx, Hy. reflexivity.
Qed.
Lemma plus_sqr x : plus (Bmult mode_NE x x).
Proof. destruct (mul_sign x x) as [K|K]; [left; auto|right]. rewrite K. apply xorb_nilpotent. Qed.
(** a nonnegative number times a plus one, as a term of a sum *)
Lemma nonneg_mul x y : plus x -> nonneg_or_nan y -> nonneg_or_nan (Bmult mode_NE x y).
Proof.
  intros Hx Hy. apply nonneg_cases in Hy. destruct Hy as [->|Hy]; [|apply plus_nonneg, plus_mul; auto].
  destruct x as [[]|[]| |[] m e B]; try (left; reflexivity); right; reflexivity.
Qed.

Lemma zero_add x y : zero_or_nan x -> zero_or_nan y -> zero_or_nan (Bplus mode_NE x y).
Proof. rewrite !zero_cases. intros [->|[[] ->]] [->|[[] ->]]; cbn; eauto. Qed.
Lemma zero_mul x y : zero_or_nan x -> zero_or_nan (Bmult mode_NE x y).
Proof. rewrite !zero_cases. intros [->|[s ->]]; [left; reflexivity|]. destruct y; cbn; eauto. Qed.
Lemma zero_div x y : zero_or_nan x -> zero_or_nan (Bdiv mode_NE x y).
Proof. rewrite !zero_cases. intros [->|[s ->]]; [left; reflexivity|]. destruct y; cbn; eauto. Qed.
Lemma zero_sub x : zero_or_nan (Bminus mode_NE x x).
Proof.
  destruct x as [s|s| |s m e B].
  - apply zero_cases. destruct s; cbn; eauto.
  - apply zero_cases. destruct s; cbn; eauto.
  - left. reflexivity.
  - right. assert (I : is (B754_finite s m e B) (B2R (B754_finite s m e B))) by (split; reflexivity).
    destruct (sub_is _ _ _ _ I I) as [F V]; [rewrite Rminus_diag_eq, Rabs_R0 by reflexivity; apply bpow_ge_0|].
    rewrite Rminus_diag_eq, rn_0 in V by reflexivity. destruct (Bminus _ _ _) as [s'|s'| |s' m' e' B']; cbn in F; try discriminate; [destruct s'; reflexivity|].
    exfalso. cbn in V. apply eq_0_F2R in V. destruct s'; discriminate.
Qed.

Section Nmse.
  Variable M : libm.
  Local Existing Instance NumB.
  Let NB : Num b64 := NumB M.
  Local Existing Instance NB.

  Lemma nsum_plus l : Forall nonneg_or_nan l -> plus (@nsum b64 NB l).
  Proof.
    unfold nsum. assert (K : forall l a, plus a -> Forall nonneg_or_nan l -> plus (fold_left nadd l a)).
    { clear l. induction l as [|x l IH]; intros a Ha Hl; cbn [fold_left]; auto. inversion Hl; subst. apply IH; auto. apply plus_add; auto. }
    apply K. right. reflexivity.
  Qed.
  Lemma nsum_zero l : Forall zero_or_nan l -> zero_or_nan (@nsum b64 NB l).
  Proof.
    unfold nsum. assert (K : forall l a, zero_or_nan a -> Forall zero_or_nan l -> zero_or_nan (fold_left nadd l a)).
    { clear l. induction l as [|x l IH]; intros a Ha Hl; cbn [fold_left]; auto. inversion Hl; subst. apply IH; auto. apply zero_add; auto. }
    apply K. right. reflexivity.
  Qed.

  Lemma xmean_plus sd ssz (w x : env -> b64) e : (forall e, nonneg_or_nan (w e)) -> (forall e, plus (x e)) -> plus (@xmean b64 NB sd ssz w x e).
  Proof.
    intros Hw Hx. unfold xmean. apply plus_div.
    - apply nsum_plus. apply Forall_forall. intros v Hv. apply in_map_iff in Hv. destruct Hv as (q & <- & _). apply nonneg_mul; auto.
      destruct (isnan _); [right; reflexivity|apply Hx].
    - destruct (neqb _ _); [left; reflexivity|]. apply nsum_plus. apply Forall_forall. intros v Hv. apply in_map_iff in Hv. destruct Hv as (q & <- & _). apply nonneg_mul; auto.
      destruct (isnan _); right; reflexivity.
  Qed.
  Lemma xmean_zero sd ssz (w x : env -> b64) e : (forall e, zero_or_nan (x e)) -> zero_or_nan (@xmean b64 NB sd ssz w x e).
  Proof.
    intros Hx. unfold xmean. apply zero_div. apply nsum_zero. apply Forall_forall. intros v Hv. apply in_map_iff in Hv. destruct Hv as (q & <- & _). apply zero_mul.
    destruct (isnan _); [right; reflexivity|apply Hx].
  Qed.
  Lemma metric_plus sd ssz wz ww o m e : (forall e, nonneg_or_nan (ww e)) -> plus (@metric b64 NB sd ssz wz ww o m e).
  Proof. intros Hw. unfold metric. apply plus_div; apply xmean_plus; auto; intros e'; apply plus_sqr. Qed.
  Lemma metric_zero sd ssz wz ww o e : zero_or_nan (@metric b64 NB sd ssz wz ww o o e).
  Proof. unfold metric. apply zero_div. apply xmean_zero. intros e'. apply zero_mul. apply zero_sub. Qed.

  (** every value of a result *)
  Definition each_value (r : nout b64) (P : b64 -> Prop) : Prop :=
    match r with
    | ODa d => forall i, P (get (dat d) i)
    | ODs vs _ => forall n d i, In (n, d) vs -> P (get (dat d) i)
    end.

  Lemma wgt_nonneg lat (o m : da b64) : (forall i, nonneg_or_nan (ncos (deg2rad (get (cdat lat) i)))) -> forall e, nonneg_or_nan (@wgt b64 NB lat o m e).
  Proof. intros H e. unfold wgt. destruct (_ || _); [right; reflexivity|]. apply H. Qed.

  (** the computation behind an accepted call *)
  Lemma nmse_inv cf_lat cf_lon o m r : @nmse b64 NB cf_lat cf_lon o m = Ok r ->
    exists name lat sd ssz, cf_lat o = [name] /\ slookup name (ncoords o) = Some lat /\
      match o, m with
      | NDa o, NDa m => exists d, nmse_da lat sd ssz o m = Ok d /\ r = ODa d
      | NDs o, NDs m => exists l, nmse_ds lat sd ssz (ds_vars o) (ds_vars m) = Ok l /\ r = ODs l (map fst (ds_vars o))
      | _, _ => False
      end.
  Proof.
    unfold nmse. assert (G : forall (F : nin b64 -> nin b64 -> coordv b64 -> list string -> list nat -> res (nout b64)),
      (guard negb (forallb (fun n => smem n (map fst (ncoords m))) (map fst (ncoords o)) && forallb (fun n => smem n (map fst (ncoords o))) (map fst (ncoords m))) raise KeyError ;;
       guard match cf_lat o, cf_lon o, cf_lat m, cf_lon m with _ :: _, _ :: _, _ :: _, _ :: _ => false | _, _, _, _ => true end raise ValueError ;;
       do lat <- cf_get (cf_lat o) o ;;
       do dlat <- spacing_diff (cdat lat) ;;
       do lon <- cf_get (cf_lon o) o ;;
       do dlon <- spacing_diff (cdat lon) ;;
       do c1 <- allclose0 dlat ;;
       guard negb c1 raise ValueError ;;
       do c2 <- allclose0 dlon ;;
       guard negb c2 raise ValueError ;;
       guard (Nat.ltb 1 (List.length (cf_lat o)) || Nat.ltb 1 (List.length (cf_lon o))) raise ValueError ;;
       F o m lat (join_dims (cdims lat) (cdims lon)) (map (csize [lat; lon]) (join_dims (cdims lat) (cdims lon)))) = Ok r ->
      exists name lat sd ssz, cf_lat o = [name] /\ slookup name (ncoords o) = Some lat /\ F o m lat sd ssz = Ok r).
    { intros F E. destruct (negb (_ && _)); [discriminate|]. destruct (match cf_lat o with [] => _ | _ => _ end); [discriminate|].
      destruct (cf_get (cf_lat o) o) as [lat|] eqn:EL; [|discriminate]. cbn [bind] in E. destruct (spacing_diff (cdat lat)); [|discriminate]. cbn [bind] in E.
      destruct (cf_get (cf_lon o) o) as [lon|]; [|discriminate]. cbn [bind] in E. destruct (spacing_diff (cdat lon)); [|discriminate]. cbn [bind] in E.
      destruct (allclose0 _) as [c1|]; [|discriminate]. cbn [bind] in E. destruct (negb c1); [discriminate|].
      destruct (allclose0 _) as [c2|]; [|discriminate]. cbn [bind] in E. destruct (negb c2); [discriminate|]. destruct (_ || _); [discriminate|].
      unfold cf_get in EL. destruct (cf_lat o) as [|name [|]]; try discriminate. exists name, lat. do 2 eexists. split; auto. split; [|exact E].
      destruct (slookup name (ncoords o)); [cbn in EL; congruence|discriminate]. }
    destruct o as [o|o|], m as [m|m|]; try discriminate; intros E.
    - apply (G (fun o m lat sd ssz => match o, m with NDa o, NDa m => rmap ODa (nmse_da lat sd ssz o m) | _, _ => Err TypeError end)) in E.
      destruct E as (name & lat & sd & ssz & E1 & E2 & E). exists name, lat, sd, ssz. split; auto. split; auto.
      destruct (nmse_da lat sd ssz o m) as [d|]; [|discriminate]. exists d. cbn in E. split; congruence.
    - apply (G (fun o m lat sd ssz => match o, m with NDs o, NDs m => rmap (fun l => ODs l (map fst (ds_vars o))) (nmse_ds lat sd ssz (ds_vars o) (ds_vars m)) | _, _ => Err TypeError end)) in E.
      destruct E as (name & lat & sd & ssz & E1 & E2 & E). exists name, lat, sd, ssz. split; auto. split; auto.
      destruct (nmse_ds lat sd ssz (ds_vars o) (ds_vars m)) as [d|]; [|discriminate]. exists d. cbn in E. split; congruence.
  Qed.

  Lemma ds_values lat sd ssz os ms l (P : b64 -> Prop) : @nmse_ds b64 NB lat sd ssz os ms = Ok l ->
    (forall n o m ww e, In (n, m) ms -> slookup n os = Some o -> (forall P' : b64 -> Prop, P' nnan -> (forall o m e, P' (wgt lat o m e)) -> forall e, P' (ww e)) -> P (metric sd ssz (wgt lat o m) ww o m e)) ->
    forall n d i, In (n, d) l -> P (get (dat d) i).
  Proof.
    intros E H n d i Hin. unfold nmse_ds in E. destruct (negb (same_names _ _)); [discriminate|].
    destruct (mapM _ ms) as [pairs|] eqn:Em; [|discriminate]. cbn [bind] in E.
    assert (HP : forall n o m, In (n, (o, m)) pairs -> In (n, m) ms /\ slookup n os = Some o).
    { clear - Em. revert pairs Em. induction ms as [|[n0 m0] ms IH]; intros pairs Em; cbn in Em; [injection Em as <-; contradiction|].
      destruct (slookup n0 os) as [o0|] eqn:El; [|discriminate]. cbn in Em. destruct (mapM _ ms) as [ps|]; [|discriminate]. cbn in Em. injection Em as <-.
      intros n o m [Q|Q]; [injection Q as <- <- <-; cbn; auto|]. destruct (IH _ eq_refl _ _ _ Q). cbn. auto. }
    destruct (negb (forallb _ pairs)); [discriminate|]. destruct (existsb _ pairs); [discriminate|]. injection E as <-.
    apply in_map_iff in Hin. destruct Hin as ([n' [o m]] & Q & Hp). cbn [fst snd] in Q. injection Q as <- <-. cbn [dat get].
    destruct (HP _ _ _ Hp) as [H1 H2]. apply (H n'); auto. intros P' Hnan Hw e.
    destruct (slookup _ pairs) as [[o' m']|]; auto.
  Qed.

  Lemma c116_sign cf_lat cf_lon o m r : @nmse b64 NB cf_lat cf_lon o m = Ok r ->
    (forall name lat i, In name (cf_lat o) -> slookup name (ncoords o) = Some lat -> nonneg_or_nan (m_cos M (Bmult mode_NE (get (cdat lat) i) (Bdiv mode_NE npi (b64_ofZ 180))))) ->
    each_value r nonneg_or_nan.
  Proof.
    intros E Hc. destruct (nmse_inv _ _ _ _ _ E) as (name & lat & sd & ssz & E1 & E2 & K).
    assert (Hw : forall i, nonneg_or_nan (@ncos b64 NB (deg2rad (get (cdat lat) i)))) by (intros i; apply (Hc name lat i); auto; rewrite E1; cbn; auto).
    destruct o as [o|o|], m as [m|m|]; try contradiction.
    - destruct K as (d & Ed & ->). cbn [each_value]. unfold nmse_da in Ed. destruct (negb _); [discriminate|]. destruct (nan_weights _ _ _); [discriminate|].
      injection Ed as <-. cbn [dat get]. intros i. apply plus_nonneg, metric_plus. apply wgt_nonneg; auto.
    - destruct K as (l & El & ->). cbn [each_value]. intros n d i Hin. eapply (ds_values _ _ _ _ _ _ nonneg_or_nan El); eauto.
      intros n' o' m' ww e _ _ Hww. apply plus_nonneg, metric_plus. apply Hww; [left; reflexivity|]. intros o'' m''. apply wgt_nonneg; auto.
  Qed.

  Lemma slookup_In {A} n (v : A) l : NoDup (map fst l) -> In (n, v) l -> slookup n l = Some v.
  Proof.
    induction l as [|[k w] l IH]; intros Hn Hin; [contradiction|]. cbn in *. inversion Hn; subst. destruct Hin as [Q|Q].
    - injection Q as -> ->. rewrite String.eqb_refl. reflexivity.
    - destruct (String.eqb_spec n k) as [->|]; [|auto]. exfalso. apply H1. apply in_map_iff. exists (k, v). auto.
  Qed.
  Lemma c116_same cf_lat cf_lon o r : @nmse b64 NB cf_lat cf_lon o o = Ok r ->
    match o with NDs s => NoDup (map fst (ds_vars s)) | _ => True end -> each_value r zero_or_nan.
  Proof.
    intros E Hn. destruct (nmse_inv _ _ _ _ _ E) as (name & lat & sd & ssz & E1 & E2 & K). destruct o as [o|o|]; try contradiction.
    - destruct K as (d & Ed & ->). cbn [each_value]. unfold nmse_da in Ed. destruct (negb _); [discriminate|]. destruct (nan_weights _ _ _); [discriminate|].
      injection Ed as <-. cbn [dat get]. intros i. apply metric_zero.
    - destruct K as (l & El & ->). cbn [each_value]. intros n d i Hin. eapply (ds_values _ _ _ _ _ _ zero_or_nan El); eauto.
      intros n' o' m' ww e H1 H2 _. rewrite (slookup_In _ _ _ Hn H1) in H2. injection H2 as <-. apply metric_zero.
  Qed.
End Nmse.
