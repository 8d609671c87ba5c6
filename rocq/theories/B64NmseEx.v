(** nmse in binary64 on a small grid: a constant observed field, and a field compared with itself (C116). *)
From Coq Require Import Reals List Bool Arith ZArith Lra Lia String.
From Flocq Require Import Core BinarySingleNaN.
From Verif Require Import PyBase PyFacts Num Arr Hybrid NumB64 SpecB64 B64Facts Nmse B64Nmse.
Import ListNotations.

Section Ex.
  Variable M : libm.
  Let NB : Num b64 := NumB M.
  Local Existing Instance NB.

  (** latitudes 0 and 2^-40, longitudes 0, 1, 2 *)
  Definition step40 : b64 := Bdiv mode_NE (b64_ofZ 1) (b64_ofZ (2 ^ 40)).
  Definition tiny_lat : coordv b64 := mkCoord ["lat"%string] (vec B754_nan [b64_ofZ 0; step40]).
  Definition tiny_lon : coordv b64 := mkCoord ["lon"%string] (vec B754_nan [b64_ofZ 0; b64_ofZ 1; b64_ofZ 2]).
  Definition tiny_cs : list (string * coordv b64) := [("lat"%string, tiny_lat); ("lon"%string, tiny_lon)].
  Definition tiny_field (l : list b64) : da b64 := mkDa ["lat"; "lon"]%string (of_flat B754_nan [2; 3]%nat l) tiny_cs [] None.
  Definition tenths (n : Z) : b64 := b64_dec n 1.

  Section Ext.
    Variables (sd : list string) (ssz : list nat).
    Definition agree (f g : env -> b64) : Prop := forall idx e, In idx (all_idx ssz) -> f (over sd idx e) = g (over sd idx e).
    Lemma sums_ext f g e : agree f g -> sums sd ssz f e = sums sd ssz g e.
    Proof. intros H. unfold sums. f_equal. apply map_ext_in. intros idx Hi. apply H; auto. Qed.
    Lemma xmean_ext w w' x x' e : agree w w' -> agree x x' -> xmean sd ssz w x e = xmean sd ssz w' x' e.
    Proof.
      intros Hw Hx. unfold xmean. f_equal; [apply sums_ext; intros idx e' Hi; rewrite Hw, Hx by auto; reflexivity|].
      replace (sums sd ssz (fun e0 => nmul (if isnan (x e0) then ofZ 0 else ofZ 1) (w e0)) e) with (sums sd ssz (fun e0 => nmul (if isnan (x' e0) then ofZ 0 else ofZ 1) (w' e0)) e); [reflexivity|].
      apply sums_ext. intros idx e' Hi. rewrite Hw, Hx by auto. reflexivity.
    Qed.
    Lemma metric_ext w w' o m e : agree w w' -> metric sd ssz w w o m e = metric sd ssz w' w' o m e.
    Proof.
      intros H. assert (Z : forall x, agree (zeroed w x) (zeroed w' x)) by (intros x idx e' Hi; unfold zeroed; rewrite H by auto; reflexivity).
      unfold metric. f_equal; apply xmean_ext; auto; intros idx e' Hi.
      - rewrite !Z by auto. reflexivity.
      - rewrite !Z by auto. f_equal. f_equal. apply xmean_ext; auto.
    Qed.
  End Ext.

  Definition unit_cos : Prop := forall x, In x [b64_ofZ 0; step40] -> m_cos M (Bmult mode_NE x (Bdiv mode_NE npi (b64_ofZ 180))) = b64_ofZ 1.
  Definition tiny_nmse (o m : list b64) : res (nout b64) := nmse (fun _ => ["lat"%string]) (fun _ => ["lon"%string]) (NDa (tiny_field o)) (NDa (tiny_field m)).
  Definition unit_metric (o m : list b64) : b64 := metric ["lat"; "lon"]%string [2; 3]%nat (fun _ => b64_ofZ 1) (fun _ => b64_ofZ 1) (tiny_field o) (tiny_field m) (fun _ => 0%nat).

  Lemma tiny_weight o m idx e : unit_cos -> Forall (fun x => is_nan x = false) o -> Forall (fun x => is_nan x = false) m -> List.length o = 6%nat -> List.length m = 6%nat ->
    In idx (all_idx [2; 3]%nat) -> wgt tiny_lat (tiny_field o) (tiny_field m) (over ["lat"; "lon"]%string idx e) = b64_ofZ 1.
  Proof.
    intros U Ho Hm Lo Lm Hi. rewrite Forall_forall in Ho, Hm.
    assert (V : forall l, (forall x, In x l -> is_nan x = false) -> List.length l = 6%nat -> is_nan (getn (tiny_field l) (over ["lat"; "lon"]%string idx e)) = false).
    { intros l Hl Ll. unfold getn, tiny_field. cbn [dims map dat]. unfold of_flat. cbn [get]. apply Hl. apply nth_In. rewrite Ll.
      cbn in Hi. repeat (destruct Hi as [<-|Hi]; [cbn; lia|]). contradiction. }
    unfold wgt. change (@isnan b64 NB) with (@is_nan 53 1024). rewrite (V o), (V m) by auto. cbn [orb].
    unfold wraw, deg2rad, getc. cbn [cdims map tiny_lat cdat vec get hd]. change (@ncos b64 NB) with (m_cos M).
    cbn in Hi. repeat (destruct Hi as [<-|Hi]; [apply U; cbn [In]; auto|]). contradiction.
  Qed.
  Lemma spacing_ok a : match spacing_diff a with Ok d => allclose0 d | Err e => Err e end = Ok true -> exists d, spacing_diff a = Ok d /\ allclose0 d = Ok true.
  Proof. destruct (spacing_diff a) as [d|]; [exists d; auto|discriminate]. Qed.
  Lemma tiny_value o m : unit_cos -> Forall (fun x => is_nan x = false) o -> Forall (fun x => is_nan x = false) m -> List.length o = 6%nat -> List.length m = 6%nat ->
    exists r, tiny_nmse o m = Ok (ODa r) /\ dims r = [] /\ get (dat r) [] = unit_metric o m.
  Proof.
    intros U Ho Hm Lo Lm. unfold tiny_nmse, nmse. cbn [ncoords coords tiny_field tiny_cs map fst forallb smem existsb String.eqb Ascii.eqb Bool.eqb orb andb negb cf_get slookup oget bind].
    assert (S1 : exists d, spacing_diff (cdat tiny_lat) = Ok d /\ allclose0 d = Ok true) by (apply spacing_ok; vm_compute; reflexivity).
    assert (S2 : exists d, spacing_diff (cdat tiny_lon) = Ok d /\ allclose0 d = Ok true) by (apply spacing_ok; vm_compute; reflexivity).
    destruct S1 as (d1 & E1 & C1). destruct S2 as (d2 & E2 & C2). rewrite E1. cbn [bind]. rewrite E2. cbn [bind]. rewrite C1. cbn [bind negb]. rewrite C2. cbn [bind negb List.length Nat.ltb Nat.leb orb].
    unfold nmse_da. assert (Cp : compatible (tiny_field o) (tiny_field m) = true) by (vm_compute; reflexivity). rewrite Cp. cbn [negb].
    assert (Nw : nan_weights tiny_lat (tiny_field o) (tiny_field m) = false).
    { unfold nan_weights. change (wdims tiny_lat (tiny_field o) (tiny_field m)) with ["lat"; "lon"]%string.
      change (map (sizeof [tiny_field o; tiny_field m]) ["lat"; "lon"]%string) with [2; 3]%nat.
      destruct (existsb _ _) eqn:Ex; [|reflexivity]. exfalso. apply existsb_exists in Ex. destruct Ex as (i & Hi & Q).
      assert (Ei : wgt tiny_lat (tiny_field o) (tiny_field m) (env_of ["lat"; "lon"]%string i) = b64_ofZ 1).
      { rewrite <- (tiny_weight o m i (env_of ["lat"; "lon"]%string i)); auto. }
      rewrite Ei in Q. discriminate. }
    rewrite Nw. eexists. split; [reflexivity|]. cbn [dims dat]. split; [reflexivity|]. cbn [get].
    unfold unit_metric. rewrite (metric_ext _ _ _ (fun _ => b64_ofZ 1)).
    - reflexivity.
    - intros idx e Hi. apply tiny_weight; auto.
  Qed.
End Ex.

(** the six values 0.1, whose rounded mean is not 0.1, against 0.2; and six different values against themselves *)
Definition flat01 : list b64 := repeat (tenths 1) 6.
Definition flat02 : list b64 := repeat (tenths 2) 6.
Definition ramp : list b64 := map tenths [1; 2; 3; 4; 5; 6]%Z.
Lemma flat_not_nan : Forall (fun x => is_nan x = false) flat01 /\ Forall (fun x => is_nan x = false) flat02 /\ Forall (fun x => is_nan x = false) ramp.
Proof. repeat split; repeat (apply Forall_cons; [reflexivity|]); apply Forall_nil. Qed.
Lemma c116_constant M : unit_cos M -> exists r, tiny_nmse M flat01 flat02 = Ok (ODa r) /\
  is_finite (get (dat r) []) = true /\ Bltb (b64_ofZ (10 ^ 30)) (get (dat r) []) = true.
Proof.
  intros U. destruct flat_not_nan as (N1 & N2 & _). destruct (tiny_value M flat01 flat02 U N1 N2 eq_refl eq_refl) as (r & E & _ & V).
  exists r. split; auto. rewrite V. split; vm_compute; reflexivity.
Qed.
Lemma c116_itself M : unit_cos M -> exists r, tiny_nmse M ramp ramp = Ok (ODa r) /\ Beqb (get (dat r) []) (B754_zero false) = true.
Proof.
  intros U. destruct flat_not_nan as (_ & _ & N). destruct (tiny_value M ramp ramp U N N eq_refl eq_refl) as (r & E & _ & V).
  exists r. split; auto. rewrite V. vm_compute. reflexivity.
Qed.
