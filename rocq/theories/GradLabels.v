(** Labels of the result of gradient, and the attributes of the stream function. *)
From Coq Require Import Reals List Bool Arith ZArith Lra Lia String.
From Verif Require Import PyBase PyFacts Num NumFacts Arr ArrFacts Hybrid HybridFacts Gradient SpecGrad StrFn GcUtil Psi.
Import ListNotations.
Local Open Scope string_scope.

Section Labels.
  Context {T : Type} {N : Num T}.

  Lemma wrap_xy_inv (g lon2d lat2d : arr T) a : wrap_xy g lon2d lat2d = Ok a ->
    List.length (shp g) = 2%nat /\ shp lon2d = shp g /\ shp lat2d = shp g /\
    a = mkDa ["x"; "y"] g [("lon", mkCoord ["x"; "y"] lon2d); ("lat", mkCoord ["x"; "y"] lat2d)] [] None.
  Proof.
    unfold wrap_xy. destruct (Nat.eqb_spec (ndim g) 2) as [E|]; cbn [negb]; [|discriminate].
    destruct (shape_eqb_spec (shp g) (shp lon2d)); cbn [andb negb]; [|discriminate].
    destruct (shape_eqb_spec (shp g) (shp lat2d)); cbn [andb negb]; [|discriminate].
    intros H. injection H as <-. repeat split; auto.
  Qed.

  Lemma gradient_labels (data : val T) lon lat rs : gradient data (Some lon) (Some lat) = Ok rs ->
    match data with
    | VDa _ => exists a b, rs = [VDa a; VDa b] /\ grad_labelled lon lat a /\ grad_labelled lon lat b
    | _ => exists a b, rs = [VNd a; VNd b]
    end.
  Proof.
    unfold gradient, meshgrid. cbn [bind fst snd oget].
    destruct (Nat.eqb_spec (ndim lon) 1) as [E1|E1], (Nat.eqb_spec (ndim lon) 2) as [E2|E2]; cbn [orb negb andb]; try discriminate; try lia;
    destruct (Nat.eqb_spec (ndim lat) 1) as [F1|F1], (Nat.eqb_spec (ndim lat) 2) as [F2|F2]; cbn [orb negb andb bind]; try discriminate; try lia.
    all: match goal with |- context [np_map2 arc_lon_wgs84 ?x ?y] => destruct (np_map2 arc_lon_wgs84 x y) as [l1|]; cbn [bind]; [|discriminate] end.
    all: match goal with |- context [np_gradient_axis 0 ?x] => destruct (np_gradient_axis 0 x) as [d0|]; cbn [bind]; [|discriminate] end.
    all: match goal with |- context [np_gradient_axis 1 ?x] => destruct (np_gradient_axis 1 x) as [d1|]; cbn [bind]; [|discriminate] end.
    all: destruct data as [a|d|d|]; cbn [bind]; try discriminate.
    all: match goal with |- context [np_gradient2 ?x] => destruct (np_gradient2 x) as [[g0 g1]|]; cbn [bind fst snd]; [|discriminate] end.
    all: destruct (np_map2 ndiv g0 d0) as [q0|]; cbn [bind]; [|discriminate].
    all: destruct (np_map2 ndiv g1 d1) as [q1|]; cbn [bind]; [|discriminate].
    all: try (intros H; injection H as <-; eauto; fail).
    - destruct (wrap_xy q0 _ _) as [w0|] eqn:W0; cbn [bind]; [|discriminate].
      destruct (wrap_xy q1 _ _) as [w1|] eqn:W1; cbn [bind]; [|discriminate]. intros H. injection H as <-.
      exists w0, w1. split; auto. apply wrap_xy_inv in W0, W1. destruct W0 as (L0 & S0 & S0' & ->), W1 as (L1 & S1 & S1' & ->).
      split; (split; [reflexivity|]; split; [reflexivity|]; split; [reflexivity|]; do 2 eexists; split; [reflexivity|];
              cbn [cdims cdat dat]; split; [reflexivity|]; split; [reflexivity|]; split; [assumption|]; split; [assumption|]; left; repeat split; auto).
    - destruct (wrap_xy q0 _ _) as [w0|] eqn:W0; cbn [bind]; [|discriminate].
      destruct (wrap_xy q1 _ _) as [w1|] eqn:W1; cbn [bind]; [|discriminate]. intros H. injection H as <-.
      exists w0, w1. split; auto. apply wrap_xy_inv in W0, W1. destruct W0 as (L0 & S0 & S0' & ->), W1 as (L1 & S1 & S1' & ->).
      split; (split; [reflexivity|]; split; [reflexivity|]; split; [reflexivity|]; do 2 eexists; split; [reflexivity|];
              cbn [cdims cdat dat]; split; [reflexivity|]; split; [reflexivity|]; split; [assumption|]; split; [assumption|]; right; repeat split; auto).
  Qed.
End Labels.

Lemma bind_Ok {A B} (m : res A) (k : A -> res B) r : bind m k = Ok r -> exists x, m = Ok x /\ k x = Ok r.
Proof. destruct m; cbn; [eauto|discriminate]. Qed.

Section PsiAttrs.
  Context {T : Type} {N : Num T}.
  Definition psi_attrs : list (string * string) :=
    [("long_name", "zonal mean meridional streamfunction"); ("units", "kg/s");
     ("info", "zonal_meridional_psi: integrated meridional streamfunction")]%string.
  Lemma psi_integrate_attrs zmean (wind : da T) l ps r : psi_integrate zmean wind l ps = Ok r -> attrs r = psi_attrs.
  Proof.
    unfold psi_integrate. intros H.
    repeat match type of H with
    | (if ?c then Err _ else _) = Ok _ => destruct c; [discriminate|]
    | bind _ _ = Ok _ => apply bind_Ok in H; let x := fresh "x" in let E := fresh "E" in destruct H as (x & E & H)
    end.
    injection H as <-. reflexivity.
  Qed.
  Lemma psi_attributes installed order zmean cf (u : uxds T) nm r :
    zonal_meridional_psi installed order zmean cf u nm = Ok r -> attrs r = psi_attrs.
  Proof.
    unfold zonal_meridional_psi. intros H. destruct (negb installed); [discriminate|].
    do 6 (apply bind_Ok in H; let x := fresh "x" in let E := fresh "E" in destruct H as (x & E & H)).
    destruct x4, x1, x2; try discriminate; repeat (apply bind_Ok in H; let x := fresh "x" in let E := fresh "E" in destruct H as (x & E & H));
      eapply psi_integrate_attrs; eauto.
  Qed.
End PsiAttrs.
(** ** C102 *)
Lemma gradient_ds_lemma {T} {N : Num T} (d : da T) lon lat rs : gradient (VDa d) lon lat = Ok rs -> gradient_ds (coords d) lon lat = Err TypeError.
Proof.
  unfold gradient, gradient_ds. intros H.
  assert (Ell : exists ll, (match lon, lat with Some a, Some b => Ok (Some a, Some b) | _, _ =>
      Ok (match slookup "lat" (coords d), slookup "lon" (coords d) with Some la, Some lo => (Some (cdat lo), Some (cdat la)) | _, _ => (lon, lat) end) end)
    = (Ok ll : res (option (arr T) * option (arr T)))) by (destruct lon, lat; eauto).
  destruct Ell as [ll Ell]. rewrite Ell in *. cbn [bind] in *.
  destruct (oget AttributeError (fst ll)) as [lo|]; [cbn [bind] in *|discriminate]. destruct (negb _); [discriminate|].
  destruct (oget AttributeError (snd ll)) as [la|]; [cbn [bind] in *|discriminate].
  match type of H with bind ?e _ = _ => destruct e as [[l2 a2]|]; [cbn [bind] in *|discriminate] end.
  destruct (np_map2 arc_lon_wgs84 l2 a2); [cbn [bind] in *|discriminate].
  destruct (np_gradient_axis 0 (amap arc_lat_wgs84 a2)); [cbn [bind] in *|discriminate].
  destruct (np_gradient_axis 1 a); [reflexivity|discriminate].
Qed.
Lemma gradient_ds_fails {T} {N : Num T} cs lon lat (rs : list (val T)) : gradient_ds cs lon lat <> Ok rs.
Proof.
  unfold gradient_ds. match goal with |- bind ?e _ <> _ => destruct e as [ll|]; [cbn [bind]|discriminate] end.
  destruct (oget AttributeError (fst ll)); [cbn [bind]|discriminate]. destruct (negb _); [discriminate|].
  destruct (oget AttributeError (snd ll)); [cbn [bind]|discriminate]. match goal with |- bind ?e _ <> _ => destruct e as [[l2 a2]|]; [cbn [bind]|discriminate] end.
  destruct (np_map2 _ l2 a2); [cbn [bind]|discriminate]. destruct (np_gradient_axis 0 _); [cbn [bind]|discriminate]. destruct (np_gradient_axis 1 _); discriminate.
Qed.
Lemma gradient_ds_ranks {T} {N : Num T} cs (lon lat : arr T) :
  ~ (List.length (shp lon) = 1%nat /\ List.length (shp lat) = 1%nat) -> ~ (List.length (shp lon) = 2%nat /\ List.length (shp lat) = 2%nat) ->
  gradient_ds cs (Some lon) (Some lat) = Err ValueError.
Proof.
  intros H1 H2. unfold gradient_ds. cbn [bind fst snd oget]. unfold ndim. destruct (negb _); [reflexivity|].
  destruct (Nat.eqb_spec (List.length (shp lon)) 1) as [A|A], (Nat.eqb_spec (List.length (shp lat)) 1) as [B|B], (Nat.eqb_spec (List.length (shp lon)) 2) as [C|C], (Nat.eqb_spec (List.length (shp lat)) 2) as [D|D];
    cbn [andb]; try reflexivity; exfalso; tauto.
Qed.
