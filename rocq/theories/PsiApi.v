From Coq Require Import Reals List Bool Arith ZArith Lra Lia String.
From Verif Require Import PyBase Num NumFacts Arr ArrFacts PyFacts XrFacts CellFacts ChunkFacts ListFacts Spec SpecPsi Hybrid HybridFacts
  DeltaP DeltaPFacts DeltaPApi Interp1d Interp1dFacts InterpHyb InterpExtrap ExtrapFacts InterpHybFacts StrFn GcUtil SpecVar GcUtilFacts Psi PsiFacts.
Import ListNotations.
Local Open Scope R_scope.

Definition lat_coord (lat : list R) : coordv fl := mkCoord ["latitudes"%string] (vec NaN (map Fin lat)).
Definition plev_labels (l : list R) (down : bool) : coordv fl :=
  mkCoord ["plev"%string] (vec NaN (map Fin (if down then l else rev l))).

Lemma slookup_map_snd {A B} (f : A -> B) x l :
  slookup x (map (fun p => (fst p, f (snd p))) l) = option_map f (slookup x l).
Proof. induction l as [|[k v] l IH]; simpl; auto. destruct (String.eqb x k); auto. Qed.
Lemma existsb_false {A} (f : A -> bool) l : (forall x, In x l -> f x = false) -> existsb f l = false.
Proof. induction l as [|x l IH]; simpl; intros H; auto. rewrite (H x), IH; auto. Qed.

Lemma ordered_len l down : List.length (ordered l down) = List.length l.
Proof. destruct down; simpl; rewrite ?rev_length; auto. Qed.
Lemma ordered_ends l down : increasing l -> (2 <= List.length l)%nat ->
  fl_lt (nth 0 (map Fin (ordered l down)) NaN) (last (map Fin (ordered l down)) NaN) = down.
Proof.
  intros Hi Hn.
  assert (Hl : forall (m : list fl), last m NaN = nth (List.length m - 1) m NaN).
  { intros m. induction m as [|x m IH]; auto. destruct m as [|y m]; auto.
    change (last (x :: y :: m) NaN) with (last (y :: m) NaN). rewrite IH. simpl. rewrite Nat.sub_0_r. auto. }
  rewrite Hl, map_length. pose proof (ordered_len l down) as Ho.
  assert (0 < List.length l - 1 < List.length l)%nat by lia.
  rewrite !at_map by lia. rewrite Ho. pose proof (Hi 0%nat (List.length l - 1)%nat ltac:(lia) ltac:(lia)).
  cbn [fl_lt]. destruct down; simpl.
  - apply rltb_true. auto.
  - rewrite !at_rev by lia. replace (List.length l - 1 - 0)%nat with (List.length l - 1)%nat by lia.
    replace (List.length l - 1 - (List.length l - 1))%nat with 0%nat by lia. apply rltb_false. lra.
Qed.

Lemma ravel_1d {A} (d : A) (a : arr A) l : shp a = [List.length l] ->
  (forall k, (k < List.length l)%nat -> get a [k] = nth k l d) -> ravel a = l.
Proof.
  intros Hs Hg. unfold ravel. rewrite Hs, all_idx_1, map_map.
  rewrite (map_ext_in _ (fun k => nth k l d)); [apply map_nth_seq|]. intros k Hk. apply in_seq in Hk. apply Hg. lia.
Qed.
(** reversing the level labels twice *)
Lemma take_rev_twice (x : list fl) :
  let r := rev (seq 0 (List.length x)) in
  ravel (take_axis 0 r (take_axis 0 r (vec NaN x))) = x.
Proof.
  intros r. assert (Hr : List.length r = List.length x) by (unfold r; rewrite rev_length, seq_length; auto).
  apply (ravel_1d NaN).
  - cbn. rewrite Hr. reflexivity.
  - intros k Hk. cbn.
    assert (Hx : forall j, (j < List.length x)%nat -> nth j r 0%nat = (List.length x - S j)%nat).
    { intros j Hj. unfold r. rewrite rev_nth by (rewrite seq_length; auto). rewrite seq_length, seq_nth by lia. lia. }
    rewrite (Hx k Hk), Hx by lia. f_equal. lia.
Qed.

Section Main.
  Variables (zmean : da fl -> da fl) (wind ps : da fl) (l : list R) (down : bool) (lat : list R) (nt : nat)
            (psz : nat -> nat -> R).
  Let n := List.length l.
  Let m := List.length lat.
  Let v0 := zmean wind.
  Let zps := zmean ps.
  Hypothesis Hinc : increasing l.
  Hypothesis Hn : (2 <= List.length l)%nat.
  Hypothesis Hpos : 0 <= at_ l 0.
  Hypothesis Hpc : dim_coord wind "plev"%string = plev_labels l down.
  Hypothesis Hwf : wf_da v0.
  Hypothesis Htime : dsize v0 "time"%string = Some nt.
  Hypothesis Hplev : dsize v0 "plev"%string = Some n.
  Hypothesis Hlat : dsize v0 "latitudes"%string = Some m.
  Hypothesis Hvlat : slookup "latitudes"%string (coords v0) = None \/ slookup "latitudes"%string (coords v0) = Some (lat_coord lat).
  Hypothesis Hwinds : forall i, inb (shp (dat v0)) i -> get (dat v0) i = NaN \/ exists r, get (dat v0) i = Fin r.
  Hypothesis Hzshape : shp (dat zps) = [nt; m].
  Hypothesis Hzlat : slookup "latitudes"%string (coords zps) = Some (lat_coord lat).
  Hypothesis Hzps : forall t j, (t < nt)%nat -> (j < m)%nat ->
    get (dat zps) [t; j] = Fin (psz t j) /\ (at_ l 0 + at_ l 1) / 2 < psz t j.
  Hypothesis Hps : forall i, inb (shp (dat ps)) i -> exists r, get (dat ps) i = Fin r /\ 0 < r.

  Lemma dsize_dims {T} (a : da T) d k : dsize a d = Some k -> In d (dims a).
  Proof.
    unfold dsize. destruct (sindex d (dims a)) as [j|] eqn:E; [|discriminate]. intros _.
    apply sindex_Some in E. apply nth_error_In in E. auto.
  Qed.

  Definition depth (p : nat) : nat := if down then p else (n - 1 - p)%nat.

  Lemma psi_integrate_ok : exists r, psi_integrate zmean wind "plev" ps = Ok r /\
    dims r = dims v0 /\ shp (dat r) = shp (dat v0) /\
    index_labels r "plev" = Some (map Fin (if down then l else rev l)) /\
    index_labels r "latitudes" = Some (map Fin lat) /\
    forall e, (forall d k, dsize v0 d = Some k -> (e d < k)%nat) ->
      getn r e = Fin (2 * PI * earth_radius * cos (nth (e "latitudes"%string) lat 0) / gravity *
                      sum_to (depth (e "plev"%string))
                        (fun k => wind_or_zero (getn v0 (at_pos e "plev" (depth k))) *
                                  air (at_ l 0) (psz (e "time"%string) (e "latitudes"%string)) l k)).
  Proof.
    unfold psi_integrate. fold v0 zps. rewrite Hpc. cbn [cdims cdat plev_labels].
    assert (Hol : List.length (map Fin (ordered l down)) = n) by (rewrite map_length, ordered_len; auto).
    fold (ordered l down).
    replace (shp (vec NaN (map Fin (ordered l down)))) with [n] by (cbn; rewrite Hol; reflexivity).
    cbn [combine forallb fst snd]. rewrite Hplev, Nat.eqb_refl. cbn [andb negb].
    rewrite existsb_false by (intros x Hx; unfold ravel in Hx; rewrite Hzshape in Hx; apply in_map_iff in Hx;
      destruct Hx as (i & <- & Hi); apply all_idx_inb in Hi;
      inversion Hi as [|t ? i' ? Ht Hi']; subst; inversion Hi' as [|j ? i'' ? Hj Hi'']; subst; inversion Hi''; subst;
      destruct (Hzps t j Ht Hj) as [-> _]; reflexivity).
    rewrite existsb_false by (intros x Hx; unfold ravel in Hx; apply in_map_iff in Hx;
      destruct Hx as (i & <- & Hi); apply all_idx_inb in Hi; destruct (Hps i Hi) as (r & -> & Hr); flsimpl; apply rleb_false; auto).
    cbn [bind]. rewrite ravel_vec.
    destruct (column_thickness true [] l down (SDa zps) (dat zps) None (at_ l 0) (fun i => psz (nth 0 i 0%nat) (nth 1 i 0%nat)))
      as (dp & Edp & Hsh & Hcol); auto; try lra.
    { intros i Hi. rewrite Hzshape in Hi.
      inversion Hi as [|t ? i' ? Ht Hi']; subst; inversion Hi' as [|j ? i'' ? Hj Hi'']; subst; inversion Hi''; subst.
      cbn [nth]. apply Hzps; auto. }
    rewrite Edp. cbn [bind].
    assert (Hsm : smem "latitudes"%string (map fst (coords zps) ++ dims zps) = true).
    { unfold smem. rewrite existsb_app. apply orb_true_iff. left. apply existsb_exists. exists "latitudes"%string. split; [|reflexivity].
      apply slookup_In in Hzlat. apply in_map_iff. exists ("latitudes"%string, lat_coord lat). auto. }
    assert (Hdl : dim_coord zps "latitudes" = lat_coord lat) by (unfold dim_coord; rewrite Hzlat; reflexivity).
    rewrite Hsm. cbn [negb]. cbv zeta. rewrite Hdl. rewrite Hzshape in Hsh. cbn [app] in Hsh.
    fold n in Hsh, Hcol. unfold ndim. rewrite Hsh. cbn [List.length Nat.eqb negb bind nth].
    replace (dims_eqb (cdims (plev_labels l down)) ["plev"%string]) with true by reflexivity.
    replace (dims_eqb (cdims (lat_coord lat)) ["latitudes"%string]) with true by reflexivity.
    replace (shape_eqb (shp (cdat (lat_coord lat))) [m]) with true
      by (cbn [shp cdat lat_coord vec]; rewrite map_length; destruct (shape_eqb_spec [List.length lat] [m]); [reflexivity|unfold m in *; congruence]).
    cbn [andb negb].
    set (v := mkDa (dims v0) (dat v0) _ (attrs v0) (daname v0)).
    set (dpz := mkDa ["time"; "latitudes"; "plev"]%string _ _ _ _).
    assert (Dt := dsize_dims _ _ _ Htime). assert (Dp := dsize_dims _ _ _ Hplev). assert (Dl := dsize_dims _ _ _ Hlat).
    assert (Hlab : labels_agree v dpz = true).
    { unfold labels_agree. apply forallb_forall. intros d Hd. apply filter_In in Hd. destruct Hd as [_ Hd].
      unfold index_labels. cbn [coords v dpz]. rewrite slookup_sset.
      destruct (String.eqb_spec d "plev") as [->|N1].
      - cbn [slookup String.eqb Ascii.eqb Bool.eqb cdims cdat plev_labels]. rewrite ravel_vec. fold (ordered l down). apply labels_eqb_fin.
      - destruct (String.eqb_spec d "latitudes") as [->|N2].
        + destruct Hvlat as [-> | ->]; auto.
          cbn [slookup String.eqb Ascii.eqb Bool.eqb cdims cdat lat_coord]. rewrite ravel_vec. apply labels_eqb_fin.
        + cbn [slookup]. rewrite (proj2 (String.eqb_neq _ _) N1), (proj2 (String.eqb_neq _ _) N2).
          destruct (slookup d (coords v0)) as [c|]; auto. destruct (cdims c) as [|d' [|]]; auto. destruct (String.eqb d d'); auto. }
    assert (Hsz : sizes_agree v dpz = true).
    { unfold sizes_agree. apply forallb_forall. intros d Hd.
      replace (dsize v d) with (dsize v0 d) by reflexivity.
      unfold dsize at 2. cbn [dims dpz sindex]. rewrite ?Hsh.
      destruct (String.eqb_spec d "time") as [->|N1]; [rewrite Htime; cbn [dat dpz]; rewrite Hsh; apply Nat.eqb_refl|].
      destruct (String.eqb_spec d "latitudes") as [->|N2]; [rewrite Hlat; cbn [dat dpz]; rewrite Hsh; apply Nat.eqb_refl|].
      destruct (String.eqb_spec d "plev") as [->|N3]; [rewrite Hplev; cbn [dat dpz]; rewrite Hsh; apply Nat.eqb_refl|].
      simpl. destruct (dsize v0 d); auto. }
    destruct (xr_map2_ok nmul v dpz Hlab Hsz) as (I & EI & DI & CI & GI & SI).
    rewrite EI. cbn [bind]. clear EI.
    assert (Dv : dims v = dims v0) by reflexivity.
    assert (Hj : join_dims (dims v) (dims dpz) = dims v0).
    { rewrite Dv. apply join_dims_sub. intros d Hd. cbn in Hd. destruct Hd as [<-|[<-|[<-|[]]]]; auto. }
    rewrite Hj in DI, SI.
    assert (SI' : shp (dat I) = shp (dat v0)).
    { rewrite SI. rewrite <- (map_dsize v0) by apply Hwf. apply map_ext_in. intros d Hd.
      destruct (dsize_In v0 d Hwf Hd) as (k & Ek). replace (dsize v d) with (dsize v0 d) by reflexivity. rewrite Ek. auto. }
    clear SI.
    assert (WI : wf_da I) by (destruct Hwf; split; rewrite ?DI, ?SI'; auto).
    assert (PI' : dsize I "plev" = Some n) by (unfold dsize in *; rewrite DI, SI'; auto).
    (* value of the integrand *)
    assert (VI : forall e, (forall d k, dsize v0 d = Some k -> (e d < k)%nat) ->
       getn I e = fl_mul (getn v0 e) (layer_val (at_ l 0) (psz (e "time"%string) (e "latitudes"%string)) l (depth (e "plev"%string)))).
    { intros e He. rewrite GI. cbn [nmul NumFl]. f_equal.
      unfold getn. cbn [dims dat dpz map].
      specialize (Hcol [e "time"%string; e "latitudes"%string]). cbn [nth] in Hcol.
      assert (Hb : inb (shp (dat zps)) [e "time"%string; e "latitudes"%string]).
      { rewrite Hzshape. constructor; [apply (He _ _ Htime)|constructor; [apply (He _ _ Hlat)|constructor]]. }
      specialize (Hcol Hb). pose proof (He _ _ Hplev) as Hk.
      transitivity (nth (e "plev"%string) (column (out_arr dp) [e "time"%string; e "latitudes"%string] n) NaN);
        [rewrite column_nth by auto; reflexivity|].
      rewrite Hcol. unfold depth. destruct down.
      - unfold layers. rewrite nth_map_seq; auto.
      - rewrite rev_nth by (unfold layers; rewrite map_length, seq_length; auto).
        unfold layers. rewrite map_length, seq_length. fold n. rewrite nth_map_seq by lia. f_equal. lia. }
    assert (CIp : slookup "plev"%string (coords I) = Some (plev_labels l down)).
    { rewrite CI, join_lookup. cbn [coords v]. rewrite slookup_sset. reflexivity. }
    assert (CIl : slookup "latitudes"%string (coords I) = Some (lat_coord lat)).
    { rewrite CI, join_lookup. cbn [coords v]. rewrite slookup_sset. cbn [String.eqb Ascii.eqb Bool.eqb].
      destruct Hvlat as [-> | ->]; reflexivity. }
    assert (Hin : forall e k, (forall d k, dsize v0 d = Some k -> (e d < k)%nat) -> (k < n)%nat ->
              forall d k', dsize v0 d = Some k' -> (at_pos e "plev" k d < k')%nat).
    { intros e k He Hk d k' Hd. unfold at_pos. destruct (String.eqb_spec d "plev") as [->|]; [|auto].
      rewrite Hplev in Hd. injection Hd as <-. auto. }
    assert (Hdep : forall k, (k < n)%nat -> (depth k < n)%nat) by (intros k Hk; unfold depth; destruct down; lia).
    assert (Hdd : forall k, (k < n)%nat -> depth (depth k) = k) by (intros k Hk; unfold depth; destruct down; lia).
    (* cumulative sums *)
    assert (HM : exists M, (if fl_lt (nth 0 (map Fin (ordered l down)) NaN) (last (map Fin (ordered l down)) NaN)
                            then xr_cumsum "plev"%string I
                            else do r0 <- xr_flip "plev"%string I ;; do c <- xr_cumsum "plev"%string r0 ;; xr_flip "plev"%string c) = Ok M /\
       dims M = dims v0 /\ shp (dat M) = shp (dat v0) /\
       index_labels M "plev" = Some (map Fin (ordered l down)) /\
       slookup "latitudes"%string (coords M) = Some (lat_coord lat) /\
       forall e, (forall d k, dsize v0 d = Some k -> (e d < k)%nat) ->
         getn M e = nansum (map (fun k => getn I (at_pos e "plev" (depth k))) (seq 0 (S (depth (e "plev"%string)))))).
    { rewrite ordered_ends by auto.
      assert (DpI : In "plev"%string (dims I)) by (rewrite DI; auto).
      destruct down eqn:Edown.
      - destruct (cumsum_ok I "plev" WI DpI) as (M & E & D & C & S & G). exists M. split; [exact E|].
        rewrite D, DI, S, SI'. split; [auto|]. split; [auto|].
        split; [unfold index_labels; rewrite C, CIp; cbn [cdims cdat plev_labels String.eqb Ascii.eqb Bool.eqb]; rewrite ravel_vec; reflexivity|].
        split; [rewrite C; auto|]. intros e He. rewrite G. unfold depth. rewrite Edown. reflexivity.
      - destruct (flip_ok I "plev" n WI DpI PI') as (A & EA & DA & SA & CA & GA). rewrite EA. cbn [bind].
        assert (WA : wf_da A) by (destruct WI; split; rewrite ?DA, ?SA; auto).
        assert (DpA : In "plev"%string (dims A)) by (rewrite DA; auto).
        destruct (cumsum_ok A "plev" WA DpA) as (B & EB & DB & CB & SB & GB). rewrite EB. cbn [bind].
        assert (WB : wf_da B) by (destruct WA; split; rewrite ?DB, ?SB; auto).
        assert (DpB : In "plev"%string (dims B)) by (rewrite DB; auto).
        assert (PB : dsize B "plev" = Some n) by (unfold dsize in *; rewrite DB, SB, DA, SA; auto).
        destruct (flip_ok B "plev" n WB DpB PB) as (M & EM & DM & SM & CM & GM). exists M. split; [exact EM|].
        rewrite DM, DB, DA, DI, SM, SB, SA, SI'. split; [auto|]. split; [auto|].
        split; [|split].
        + unfold index_labels. rewrite CM, slookup_map_snd, CB, CA, slookup_map_snd, CIp.
          cbn [option_map]. unfold xr_take_coord, plev_labels. cbn [cdims sindex String.eqb Ascii.eqb Bool.eqb cdat]. f_equal.
          cbn [ordered] in Hol. rewrite <- Hol. apply take_rev_twice.
        + rewrite CM, slookup_map_snd, CB, CA, slookup_map_snd, CIl. reflexivity.
        + intros e He. pose proof (He _ _ Hplev) as Hk. rewrite GM by auto. rewrite GB. rewrite at_pos_same.
          unfold depth at 2. rewrite Edown. f_equal. apply map_ext_in. intros k Hi. apply in_seq in Hi.
          rewrite GA by (rewrite at_pos_same; lia). rewrite at_pos_same. apply getn_ext. intros d _. rewrite !at_pos_at_pos.
          unfold depth. rewrite Edown. reflexivity. }
    destruct HM as (M & EM & DM & SM & LM & LatM & GM).
    change (nlt (nth 0 (map Fin (ordered l down)) nnan) (last (map Fin (ordered l down)) nnan))
      with (fl_lt (nth 0 (map Fin (ordered l down)) NaN) (last (map Fin (ordered l down)) NaN)).
    rewrite EM. cbn [bind]. clear EM.
    set (sc := mkDa ["latitudes"%string] _ _ [] None).
    assert (WM : wf_da M) by (destruct Hwf; split; rewrite ?DM, ?SM; auto).
    assert (Hlab2 : labels_agree M sc = true).
    { unfold labels_agree. apply forallb_forall. intros d Hd. apply filter_In in Hd. destruct Hd as [_ Hd].
      apply smem_In in Hd. cbn in Hd. destruct Hd as [<-|[]].
      unfold index_labels. rewrite LatM. cbn [coords sc slookup String.eqb Ascii.eqb Bool.eqb cdims cdat lat_coord].
      rewrite ravel_vec. apply labels_eqb_fin. }
    assert (Hsz2 : sizes_agree M sc = true).
    { unfold sizes_agree. apply forallb_forall. intros d Hd. destruct (dsize M d) as [k|] eqn:Ek; auto.
      unfold dsize at 1. cbn [dims sc sindex]. destruct (String.eqb_spec d "latitudes") as [->|]; [|auto].
      unfold dsize in Ek, Hlat. rewrite DM, SM in Ek. rewrite Hlat in Ek. injection Ek as <-.
      cbn. rewrite map_length. apply Nat.eqb_refl. }
    destruct (xr_map2_ok nmul M sc Hlab2 Hsz2) as (R & ER & DR & CR & GR & SR). rewrite ER. cbn [bind]. clear ER.
    assert (Hj2 : join_dims (dims M) (dims sc) = dims v0).
    { rewrite DM. apply join_dims_sub. intros d Hd. cbn in Hd. destruct Hd as [<-|[]]; auto. }
    rewrite Hj2 in DR, SR.
    eexists. split; [reflexivity|]. cbn [dims dat]. split; [exact DR|]. split.
    { rewrite SR, <- (map_dsize v0) by apply Hwf. apply map_ext_in. intros d Hd.
      destruct (dsize_In v0 d Hwf Hd) as (k & Ek). replace (dsize M d) with (dsize v0 d) by (unfold dsize; rewrite DM, SM; auto).
      rewrite Ek. auto. }
    assert (HIL : forall d c, slookup d (coords M) = Some c -> slookup d (coords R) = Some c).
    { intros d c Hc. rewrite CR, join_lookup, Hc. reflexivity. }
    split.
    { revert LM. unfold index_labels. cbn [coords]. destruct (slookup "plev" (coords M)) as [c|] eqn:E; [|discriminate].
      rewrite (HIL _ _ E). auto. }
    split.
    { unfold index_labels. cbn [coords]. rewrite (HIL _ _ LatM). cbn [cdims lat_coord String.eqb Ascii.eqb Bool.eqb cdat]. rewrite ravel_vec. reflexivity. }
    intros e He. change (getn (mkDa (dims R) (dat R) _ _ _) e) with (getn R e). rewrite GR, GM by auto.
    pose proof (He _ _ Hplev) as Hk. pose proof (Hdep _ Hk) as Hdk.
    assert (Hterm : forall k, (k <= depth (e "plev"%string))%nat ->
      getn I (at_pos e "plev" (depth k)) = fl_mul (getn v0 (at_pos e "plev" (depth k)))
        (layer_val (at_ l 0) (psz (e "time"%string) (e "latitudes"%string)) l k)).
    { intros k Hle. rewrite VI by (apply Hin; auto; apply Hdep; lia). rewrite at_pos_same, Hdd by lia.
      rewrite !at_pos_other by discriminate. reflexivity. }
    assert (Hfin : forall k, (k <= depth (e "plev"%string))%nat ->
       getn v0 (at_pos e "plev" (depth k)) = NaN \/ exists r, getn v0 (at_pos e "plev" (depth k)) = Fin r).
    { intros k Hle. unfold getn. apply Hwinds. rewrite <- (map_dsize v0) by apply Hwf.
      assert (Hgen : forall ds, (forall d, In d ds -> In d (dims v0)) ->
         inb (map (fun d => match dsize v0 d with Some n => n | None => 0%nat end) ds) (map (at_pos e "plev" (depth k)) ds)).
      { induction ds as [|d ds IH]; intros Hsub; [constructor|]. cbn [map]. constructor; [|apply IH; intros; apply Hsub; right; auto].
        destruct (dsize_In v0 d Hwf (Hsub d (or_introl eq_refl))) as (kk & Ek). rewrite Ek. apply (Hin e (depth k) He); auto. apply Hdep. lia. }
      apply Hgen. auto. }
    assert (Hpz : interface (at_ l 0) l 1 < psz (e "time"%string) (e "latitudes"%string)).
    { cbn. apply Hzps; [apply (He _ _ Htime)|apply (He _ _ Hlat)]. }
    rewrite nansum_winds.
    2:{ intros x Hx. apply in_map_iff in Hx. destruct Hx as (k & <- & Hi). apply in_seq in Hi. rewrite Hterm by lia.
        apply layer_air; auto; try lra; try lia. apply Hfin. lia. }
    rewrite map_map, sum_to_rsum.
    pose proof (He _ _ Hlat) as Hel.
    assert (Hsc : getn sc e = Fin (2 * PI * 6378137 * cos (nth (e "latitudes"%string) lat 0) / 9.80665)).
    { unfold getn, sc. cbn [dims dat map]. unfold amap. cbn [get cdat lat_coord vec hd nth].
      rewrite (nth_map_in Fin lat (e "latitudes"%string) 0) by auto.
      flsimpl. declit. change (@ndiv fl NumFl) with fl_div. rewrite fdiv_fin by lra. replace (980665 / 100000) with 9.80665 by lra. reflexivity. }
    rewrite Hsc. cbn [nmul NumFl fl_mul]. apply f_equal. unfold earth_radius, gravity. rewrite Rmult_comm. f_equal.
    apply sum_to_ext. intros k Hle. cbv beta. rewrite Hterm by lia. apply layer_air; auto; try lra; try lia.
  Qed.
End Main.
