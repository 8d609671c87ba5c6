(** delta_pressure_hybrid when the level coordinate is not the first coordinate of hya and hyb. *)
From Coq Require Import Reals List Bool Arith ZArith Lra Lia String.
From Verif Require Import PyBase Num NumFacts Arr ArrFacts XrFacts Hybrid HybridFacts HybridProps.
Import ListNotations.
Local Open Scope R_scope.

Lemma fl_eqb_fin a b : neqb (Fin a) (Fin b) = true <-> a = b.
Proof. cbn. unfold reqb. destruct (Req_EM_T a b); split; congruence. Qed.

Lemma label_pos_map (L : nat -> R) x lo m :
  (forall i, (lo <= i < lo + m)%nat -> L i = L x -> i = x) ->
  label_pos (Fin (L x)) (map (fun i => Fin (L i)) (seq lo m)) =
  if (Nat.leb lo x && Nat.ltb x (lo + m))%bool then Some (x - lo)%nat else None.
Proof.
  revert lo; induction m as [|m IH]; intros lo H; cbn [seq map label_pos].
  - destruct (Nat.leb_spec lo x), (Nat.ltb_spec x (lo + 0)); cbn; auto; lia.
  - destruct (neqb (Fin (L x)) (Fin (L lo))) eqn:E.
    + apply fl_eqb_fin in E. assert (lo = x) by (apply H; [lia|auto]). subst.
      destruct (Nat.leb_spec x x), (Nat.ltb_spec x (x + S m)); cbn; try lia. f_equal; lia.
    + rewrite IH by (intros i Hi; apply H; lia).
      assert (x <> lo) by (intros ->; rewrite (proj2 (fl_eqb_fin (L lo) (L lo)) eq_refl) in E; discriminate).
      destruct (Nat.leb_spec (S lo) x), (Nat.leb_spec lo x), (Nat.ltb_spec x (S lo + m)), (Nat.ltb_spec x (lo + S m));
        cbn; try lia; auto. f_equal; lia.
Qed.

Lemma flat_map_combine_seq {A} (f : nat * A -> list (nat * nat)) (g : nat -> A) lo m :
  flat_map f (combine (seq lo m) (map g (seq lo m))) = flat_map (fun i => f (i, g i)) (seq lo m).
Proof. revert lo; induction m as [|m IH]; intros lo; cbn; auto. f_equal. apply IH. Qed.

Lemma flat_map_ext_in {A B} (f g : A -> list B) l : (forall x, In x l -> f x = g x) -> flat_map f l = flat_map g l.
Proof. induction l as [|x l IH]; cbn; intros H; auto. rewrite H, IH; auto. Qed.
Lemma flat_map_single {A B} (f : A -> B) l : flat_map (fun x => [f x]) l = map f l.
Proof. induction l; cbn; congruence. Qed.

Lemma common_pos_shift (L : nat -> R) m :
  (forall i j, (i <= m)%nat -> (j <= m)%nat -> L i = L j -> i = j) ->
  common_pos (map (fun i => Fin (L i)) (seq 0 m)) (map (fun i => Fin (L i)) (seq 1 m))
  = map (fun i => (i, (i - 1)%nat)) (seq 1 (m - 1)).
Proof.
  intros H. unfold common_pos. rewrite map_length, seq_length.
  rewrite (flat_map_combine_seq _ (fun i => Fin (L i)) 0 m). cbn [fst snd].
  rewrite (flat_map_ext_in _ (fun i => if Nat.leb 1 i then [(i, (i - 1)%nat)] else [])).
  - destruct m as [|m]; cbn; auto. rewrite Nat.sub_0_r.
    rewrite <- (flat_map_single (fun i => (i, (i - 1)%nat))). apply flat_map_ext_in.
    intros i Hi. apply in_seq in Hi. destruct i; [lia|]. reflexivity.
  - intros i Hi. apply in_seq in Hi. rewrite (label_pos_map L i 1 m).
    + replace (Nat.ltb i (1 + m)) with true by (symmetry; apply Nat.ltb_lt; lia).
      rewrite andb_true_r. destruct (Nat.leb 1 i); auto.
    + intros j Hj. apply H; lia.
Qed.

Definition shifted_labels_differ (L : nat -> R) m :
  (forall i j, (i <= m)%nat -> (j <= m)%nat -> L i = L j -> i = j) -> (1 <= m)%nat ->
  labels_eqb (map (fun i => Fin (L i)) (seq 0 m)) (map (fun i => Fin (L i)) (seq 1 m)) = false.
Proof.
  intros H Hm. destruct m as [|m]; [lia|]. cbn [seq map labels_eqb].
  destruct (neqb (Fin (L 0%nat)) (Fin (L 1%nat))) eqn:E; auto.
  apply fl_eqb_fin in E. assert (0 = 1)%nat by (apply H; auto; lia). discriminate.
Qed.

(** a level coordinate [l] with labels L *)
Definition lev_coord (l : string) (n : nat) (L : nat -> R) : string * coordv fl :=
  (l, mkCoord [l] (mkArr [n] (fun i => Fin (L (hd 0%nat i))))).

Lemma ravel_lev n (f : nat -> fl) : ravel (mkArr [n] (fun i => f (hd 0%nat i))) = map f (seq 0 n).
Proof.
  unfold ravel. cbn [shp get all_idx]. rewrite (flat_map_ext_in _ (fun i => [[i]])) by reflexivity.
  rewrite flat_map_single, map_map. reflexivity.
Qed.

Lemma map_seq_off {B} (f : nat -> B) lo m : map (fun k => f (lo + k)%nat) (seq 0 m) = map f (seq lo m).
Proof.
  revert lo; induction m as [|m IH]; intros lo; cbn [seq map]; auto. f_equal; [f_equal; lia|].
  rewrite <- (IH (S lo)). rewrite <- seq_shift, map_map. apply map_ext. intros k. f_equal. lia.
Qed.

Lemma slice_coord (a : da fl) l n lo hi L : dims a = [l] -> shp (dat a) = [n] -> coords a = [lev_coord l n L] ->
  (lo <= hi)%nat ->
  dims (xr_slice lo hi a) = [l] /\ shp (dat (xr_slice lo hi a)) = [(hi - lo)%nat] /\
  index_labels (xr_slice lo hi a) l = Some (map (fun i => Fin (L i)) (seq lo (hi - lo))) /\
  (exists c, coords (xr_slice lo hi a) = [(l, c)] /\ cdims c = [l]) /\
  forall k, (k < hi - lo)%nat -> get (dat (xr_slice lo hi a)) [k] = get (dat a) [(lo + k)%nat].
Proof.
  intros Da Sa Ca Hle. unfold xr_slice. rewrite Da. unfold xr_take. rewrite Da. cbn [sindex].
  rewrite String.eqb_refl. cbn [dims dat coords]. rewrite Ca. unfold take_axis. cbn [shp get].
  rewrite Sa. cbn [upd]. rewrite seq_length.
  split; auto. split; auto. split; [|split].
  - unfold index_labels. cbn [coords lev_coord map fst snd slookup]. rewrite String.eqb_refl.
    unfold xr_take_coord. cbn [cdims cdat sindex]. rewrite String.eqb_refl. cbn [cdims cdat].
    rewrite String.eqb_refl. f_equal. unfold take_axis. cbn [shp get upd]. rewrite seq_length.
    unfold ravel. cbn [shp get all_idx]. rewrite (flat_map_ext_in _ (fun i => [[i]])) by reflexivity.
    rewrite flat_map_single, map_map. cbn [nth upd hd].
    rewrite <- (map_seq_off (fun i => Fin (L i))). apply map_ext_in. intros k Hk. apply in_seq in Hk.
    rewrite seq_nth by lia. reflexivity.
  - cbn [map lev_coord fst snd]. eexists. split; [reflexivity|]. unfold xr_take_coord. cbn [cdims sindex].
    rewrite String.eqb_refl. reflexivity.
  - intros k Hk. cbn [nth upd]. rewrite seq_nth by auto. reflexivity.
Qed.

Lemma c67_lemma ps hya hyb p0 l n L ca cb :
  dims hya = [l] -> dims hyb = [l] -> shp (dat hya) = [n] -> shp (dat hyb) = [n] -> (2 <= n)%nat ->
  coords hya = [ca; lev_coord l n L] -> coords hyb = [cb; lev_coord l n L] ->
  (forall i j, (i < n)%nat -> (j < n)%nat -> L i = L j -> i = j) ->
  wf_da ps -> ~ In l (dims ps) -> coords ps = [] ->
  exists r, delta_pressure_hybrid (VDa ps) (VDa hya) (VDa hyb) true p0 = Ok (VDa r) /\
    dims r = l :: dims ps /\ shp (dat r) = (n - 2)%nat :: shp (dat ps) /\
    forall k idx, (k < n - 2)%nat -> List.length idx = List.length (dims ps) ->
      let p := hybp (dat hya) (dat hyb) p0 (S k) (get (dat ps) idx) in
      get (dat r) (k :: idx) = nabs (nsub p p).
Proof.
  intros Da Db Sa Sb Hn Ca Cb Linj Wp Hl Hc.
  unfold delta_pressure_hybrid. cbn [forallb exact_type is_nd vshape andb negb Bool.eqb]. rewrite Sa, Sb.
  destruct (shape_eqb_spec [n] [n]) as [_|]; [|contradiction]. cbn [negb List.length Nat.ltb Nat.leb].
  cut (exists r, dph_xr ps hya hyb p0 = Ok r /\
    dims r = l :: dims ps /\ shp (dat r) = (n - 2)%nat :: shp (dat ps) /\
    forall k idx, (k < n - 2)%nat -> List.length idx = List.length (dims ps) ->
      let p := hybp (dat hya) (dat hyb) p0 (S k) (get (dat ps) idx) in
      get (dat r) (k :: idx) = nabs (nsub p p)).
  { intros (r & E & H). cbn [vda]. rewrite E. exists r. split; auto. }
  unfold dph_xr.
  set (ha := drop_first_coord hya). set (hb := drop_first_coord hyb).
  assert (Dha : dims ha = [l]) by exact Da. assert (Dhb : dims hb = [l]) by exact Db.
  assert (Sha : shp (dat ha) = [n]) by exact Sa. assert (Shb : shp (dat hb) = [n]) by exact Sb.
  assert (Cha : coords ha = [lev_coord l n L]) by (unfold ha, drop_first_coord; cbn [coords]; rewrite Ca; reflexivity).
  assert (Chb : coords hb = [lev_coord l n L]) by (unfold hb, drop_first_coord; cbn [coords]; rewrite Cb; reflexivity).
  assert (Gha : dat ha = dat hya) by reflexivity. assert (Ghb : dat hb = dat hyb) by reflexivity.
  clearbody ha hb. rewrite Dha, Dhb. destruct (dims_eqb_spec [l] [l]) as [_|]; [|contradiction].
  unfold ndim. rewrite Sha. cbn [List.length Nat.eqb].
  unfold xr_init, xr_tail. rewrite Sha, Shb. cbn [hd]. rewrite slice_bound_m1, slice_bound_1.
  replace (Nat.min 1 n) with 1%nat by lia.
  destruct (slice_coord ha l n 0 (n - 1) L Dha Sha Cha ltac:(lia)) as (D1 & S1 & I1 & (c1 & C1 & K1) & G1).
  destruct (slice_coord hb l n 0 (n - 1) L Dhb Shb Chb ltac:(lia)) as (D2 & S2 & I2 & (c2 & C2 & K2) & G2).
  destruct (slice_coord ha l n 1 n L Dha Sha Cha ltac:(lia)) as (D3 & S3 & I3 & (c3 & C3 & K3) & G3).
  destruct (slice_coord hb l n 1 n L Dhb Shb Chb ltac:(lia)) as (D4 & S4 & I4 & (c4 & C4 & K4) & G4).
  set (a1 := xr_slice 0 (n - 1) ha) in *. set (b1 := xr_slice 0 (n - 1) hb) in *.
  set (a2 := xr_slice 1 n ha) in *. set (b2 := xr_slice 1 n hb) in *.
  rewrite Nat.sub_0_r in S1, S2, I1, I2.
  assert (Refl : forall lo m, labels_eqb (map (fun i => Fin (L i)) (seq lo m)) (map (fun i => Fin (L i)) (seq lo m)) = true).
  { intros lo m. revert lo. induction m as [|m IH]; intros lo; cbn [seq map labels_eqb]; auto.
    rewrite (proj2 (fl_eqb_fin _ _) eq_refl). apply IH. }
  destruct (level_combine (fun x => nmul p0 x) a1 b1 ps l (n - 1)%nat) as (ta & pa & Et1 & Ep1 & Dp1 & Sp1 & Cp1 & Gp1); auto.
  { rewrite Hc; reflexivity. } { rewrite I1, I2. apply Refl. }
  destruct (level_combine (fun x => nmul p0 x) a2 b2 ps l (n - 1)%nat) as (tb & pb & Et2 & Ep2 & Dp2 & Sp2 & Cp2 & Gp2); auto.
  { rewrite Hc; reflexivity. } { rewrite I3, I4. apply Refl. }
  rewrite Et1. cbn [bind]. rewrite Ep1. cbn [bind]. rewrite Et2. cbn [bind]. rewrite Ep2. cbn [bind].
  rewrite C1, C2, Hc in Cp1. rewrite C3, C4, Hc in Cp2.
  unfold join_coords in Cp1, Cp2. cbn in Cp1, Cp2. rewrite String.eqb_refl in Cp1, Cp2. cbn in Cp1, Cp2.
  assert (J1 : index_labels pa l = Some (map (fun i => Fin (L i)) (seq 0 (n - 1)))).
  { rewrite <- I1. unfold index_labels. rewrite Cp1, C1. reflexivity. }
  assert (J2 : index_labels pb l = Some (map (fun i => Fin (L i)) (seq 1 (n - 1)))).
  { rewrite <- I3. unfold index_labels. rewrite Cp2, C3. reflexivity. }
  set (qa := xr_take l (map fst (map (fun i => (i, (i - 1)%nat)) (seq 1 (n - 1 - 1)))) pa).
  set (qb := xr_take l (map snd (map (fun i => (i, (i - 1)%nat)) (seq 1 (n - 1 - 1)))) pb).
  assert (Al : xr_align pa pb = (qa, qb)).
  { unfold xr_align. rewrite Dp1, Dp2. cbn [filter smem existsb]. rewrite String.eqb_refl. cbn [orb fold_left].
    assert (E1 : align1 l (pa, pb) = (qa, qb)).
    { unfold align1. cbn [fst snd]. rewrite J1, J2. rewrite shifted_labels_differ, common_pos_shift; auto; try lia;
        intros i j Hi Hj; apply Linj; lia. }
    rewrite E1.
    assert (Hnone : forall d, d <> l -> index_labels qa d = None).
    { intros d Hd. unfold index_labels, qa, xr_take. rewrite Dp1. cbn [sindex]. rewrite String.eqb_refl.
      cbn [coords]. rewrite Cp1. cbn. destruct (String.eqb_spec d l); [contradiction|reflexivity]. }
    assert (Hin : forall d, In d (filter (fun d => smem d (l :: dims ps)) (dims ps)) -> d <> l).
    { intros d Hd. apply filter_In in Hd. intros ->. apply Hl. apply Hd. }
    cbn [smem existsb] in Hin.
    revert Hin. generalize (filter (fun d => (String.eqb d l || existsb (String.eqb d) (dims ps))%bool) (dims ps)) as ds.
    induction ds as [|d ds IH]; intros Hin; cbn [fold_left]; auto.
    assert (E2 : align1 d (qa, qb) = (qa, qb)).
    { unfold align1. cbn [fst snd]. rewrite Hnone by (apply Hin; cbn; auto). reflexivity. }
    rewrite E2. apply IH. intros x Hx. apply Hin. cbn; auto. }
  assert (Tq : forall (q : da fl) (ps' : list nat) (r : nat), dims q = l :: dims ps -> shp (dat q) = r :: shp (dat ps) ->
     dims (xr_take l ps' q) = l :: dims ps /\ shp (dat (xr_take l ps' q)) = List.length ps' :: shp (dat ps) /\
     forall k idx, get (dat (xr_take l ps' q)) (k :: idx) = get (dat q) (nth k ps' 0%nat :: idx)).
  { intros q ps' r Dq Sq. unfold xr_take. rewrite Dq. cbn [sindex]. rewrite String.eqb_refl.
    unfold take_axis. cbn. rewrite Sq. auto. }
  destruct (Tq pa (map fst (map (fun i => (i, (i - 1)%nat)) (seq 1 (n - 1 - 1)))) _ Dp1 Sp1) as (Dqa & Sqa & Gqa).
  destruct (Tq pb (map snd (map (fun i => (i, (i - 1)%nat)) (seq 1 (n - 1 - 1)))) _ Dp2 Sp2) as (Dqb & Sqb & Gqb).
  fold qa in Dqa, Sqa, Gqa. fold qb in Dqb, Sqb, Gqb. rewrite !map_length, seq_length in Sqa, Sqb.
  replace (n - 1 - 1)%nat with (n - 2)%nat in * by lia.
  destruct (xr_map2_aligned nsub pa pb qa qb Al) as (d & Ed & Dd & Cd & Gd & Sd).
  { apply sizes_agree_same; congruence. }
  rewrite Ed. cbn [bind]. eexists. split; [reflexivity|]. cbn [dims dat coords].
  assert (Dd' : dims d = l :: dims ps).
  { rewrite Dd, Dqa, Dqb. apply join_dims_sub. auto. }
  assert (Hnd : NoDup (l :: dims ps)) by (destruct Wp; constructor; auto).
  assert (Hlen : List.length (dims qa) = List.length (shp (dat qa))).
  { rewrite Dqa, Sqa. cbn. f_equal. apply Wp. }
  split; [exact Dd'|]. split.
  - cbn [shp amap]. rewrite Sd, <- Dd, Dd', <- Dqa, <- Sqa.
    etransitivity; [|apply (map_dsize qa); [rewrite Dqa; auto|auto]].
    apply map_ext_in. intros x Hx. destruct (dsize_In qa x) as [m Hm]; auto.
    { split; [auto|rewrite Dqa; auto]. }
    rewrite Hm. reflexivity.
  - intros k idx Hk Hidx. cbn [get amap]. cbv zeta. f_equal.
    pose proof (map_env_of (l :: dims ps) (k :: idx) Hnd ltac:(cbn; lia)) as E.
    specialize (Gd (env_of (l :: dims ps) (k :: idx))). unfold getn in Gd.
    rewrite Dd', Dqa, Dqb, E in Gd. rewrite Gd, Gqa, Gqb.
    rewrite !map_map. cbn [fst snd]. rewrite map_id.
    rewrite seq_nth by lia.
    rewrite (nth_indep _ 0%nat ((fun x : nat => (x - 1)%nat) 0%nat)) by (rewrite map_length, seq_length; lia).
    rewrite (map_nth (fun x : nat => (x - 1)%nat)), seq_nth by lia.
    rewrite Gp1, Gp2 by auto.
    rewrite G1, G2, G3, G4 by lia. rewrite Gha, Ghb. unfold hybp.
    replace (0 + (1 + k))%nat with (S k) by lia. replace (1 + (1 + k - 1))%nat with (S k) by lia. reflexivity.
Qed.
