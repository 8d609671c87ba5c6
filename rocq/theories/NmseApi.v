(** nmse at the API: validation, success, regular grids, Datasets. *)
From Coq Require Import Reals List Bool Arith ZArith Lra Lia String FunctionalExtensionality.
From Verif Require Import PyBase Num NumFacts PyFacts ListFacts Arr ArrFacts XrFacts CellFacts Hybrid HybridFacts ChunkFacts SpecSum SumFacts SpecStats PearsonFacts PearsonApi SphApi SphMore Nmse NmseFacts.
Import ListNotations.
Local Open Scope R_scope.

Section Api.
  Variables (cf_lat cf_lon : nin fl -> list string).
  Local Notation NMSE := (nmse cf_lat cf_lon).

  Definition names (x : nin fl) : list string := map fst (ncoords x).
  Definition same_coords (o m : nin fl) : Prop := forall n, In n (names o) <-> In n (names m).
  (** both fields have a recognised latitude and longitude *)
  Definition located (o m : nin fl) : Prop := cf_lat o <> [] /\ cf_lon o <> [] /\ cf_lat m <> [] /\ cf_lon m <> [].
  Definition same_kind (o m : nin fl) : Prop := match o, m with NDa _, NDa _ => True | NDs _, NDs _ => True | _, _ => False end.

  Lemma nmse_type_error o m : ~ same_kind o m -> NMSE o m = Err TypeError.
  Proof. intros H. destruct o, m; cbn in H |- *; auto; tauto. Qed.

  Lemma names_check o m :
    forallb (fun n => smem n (names m)) (names o) && forallb (fun n => smem n (names o)) (names m) = true <-> same_coords o m.
  Proof.
    rewrite andb_true_iff, !forallb_forall. unfold same_coords. setoid_rewrite smem_In. split.
    - intros [A B] n. split; auto.
    - intros H. split; intros n; apply H.
  Qed.
  Definition tail_ok (o m : nin fl) (lat lon : coordv fl) : res (nout fl) :=
    let sd := join_dims (cdims lat) (cdims lon) in
    let ssz := map (csize [lat; lon]) sd in
    match o, m with
    | NDa o, NDa m => rmap ODa (nmse_da lat sd ssz o m)
    | NDs o, NDs m => rmap (fun l => ODs l (map fst (ds_vars o))) (nmse_ds lat sd ssz (ds_vars o) (ds_vars m))
    | _, _ => Err TypeError
    end.
  Definition body (o m : nin fl) : res (nout fl) :=
    do lat <- cf_get (cf_lat o) o ;;
    do dlat <- spacing_diff (cdat lat) ;;
    do lon <- cf_get (cf_lon o) o ;;
    do dlon <- spacing_diff (cdat lon) ;;
    do c1 <- allclose0 dlat ;;
    guard negb c1 raise ValueError ;;
    do c2 <- allclose0 dlon ;;
    guard negb c2 raise ValueError ;;
    guard (Nat.ltb 1 (List.length (cf_lat o)) || Nat.ltb 1 (List.length (cf_lon o))) raise ValueError ;;
    tail_ok o m lat lon.
  Lemma nmse_key_error o m : same_kind o m -> ~ same_coords o m -> NMSE o m = Err KeyError.
  Proof.
    intros K H. assert (E : forallb (fun n => smem n (names m)) (names o) && forallb (fun n => smem n (names o)) (names m) = false).
    { destruct (_ && _) eqn:E; auto. apply names_check in E. contradiction. }
    unfold names in E. destruct o, m; cbn in K; try tauto; unfold nmse; cbv zeta; rewrite E; reflexivity.
  Qed.
  Lemma nmse_unlocated o m : same_kind o m -> same_coords o m -> ~ located o m -> NMSE o m = Err ValueError.
  Proof.
    intros K H L. apply names_check in H. unfold names in H. unfold located in L.
    destruct o, m; cbn in K; try tauto; unfold nmse; cbv zeta; rewrite H; cbn [negb];
      match goal with |- context [match cf_lat ?a with _ => _ end] => destruct (cf_lat a) eqn:?; try reflexivity end;
      match goal with |- context [match cf_lon ?a with _ => _ end] => destruct (cf_lon a) eqn:?; try reflexivity end;
      match goal with |- context [match cf_lat ?a with _ => _ end] => destruct (cf_lat a) eqn:?; try reflexivity end;
      match goal with |- context [match cf_lon ?a with _ => _ end] => destruct (cf_lon a) eqn:?; try reflexivity end;
      exfalso; apply L; repeat split; discriminate.
  Qed.
  Lemma nmse_body o m : same_kind o m -> same_coords o m -> located o m -> NMSE o m = body o m.
  Proof.
    intros K H L. apply names_check in H. unfold names in H. destruct L as (L1 & L2 & L3 & L4).
    destruct o, m; cbn in K; try tauto; unfold nmse, body; cbv zeta; rewrite H; cbn [negb];
      (destruct (cf_lat _) eqn:E1 in |- * at 1; [congruence|]); (destruct (cf_lon _) eqn:E2 in |- * at 1; [congruence|]);
      (destruct (cf_lat _) eqn:E3 in |- * at 1; [congruence|]); (destruct (cf_lon _) eqn:E4 in |- * at 1; [congruence|]); reflexivity.
  Qed.

  (** *** the coordinates *)
  Definition spacing_ok (c : coordv fl) : Prop := exists d, spacing_diff (cdat c) = Ok d /\ allclose0 d = Ok true.
  Definition one_latlon (o : nin fl) (lat lon : coordv fl) : Prop :=
    (exists a, cf_lat o = [a] /\ slookup a (ncoords o) = Some lat) /\ (exists b, cf_lon o = [b] /\ slookup b (ncoords o) = Some lon).
  Lemma one_get o lat lon : one_latlon o lat lon -> cf_get (cf_lat o) o = Ok lat /\ cf_get (cf_lon o) o = Ok lon.
  Proof. intros [(a & -> & A) (b & -> & B)]. cbn. rewrite A, B. auto. Qed.
  Lemma body_ok o m lat lon : one_latlon o lat lon -> spacing_ok lat -> spacing_ok lon -> body o m = tail_ok o m lat lon.
  Proof.
    intros H (d & S1 & C1) (d' & S2 & C2). destruct (one_get _ _ _ H) as [G1 G2]. unfold body. rewrite G1. cbn [bind]. rewrite S1. cbn [bind].
    rewrite G2. cbn [bind]. rewrite S2. cbn [bind]. rewrite C1. cbn [bind negb]. rewrite C2. cbn [bind negb].
    destruct H as [(a & -> & _) (b & -> & _)]. reflexivity.
  Qed.
  (** several latitudes: KeyError, not the documented ValueError *)
  Lemma nmse_multiple o m : same_kind o m -> same_coords o m -> located o m -> (1 < List.length (cf_lat o))%nat -> NMSE o m = Err KeyError.
  Proof.
    intros K H L Hn. rewrite nmse_body by auto. unfold body. destruct (cf_lat o) as [|a [|b l]]; cbn in Hn; try lia. reflexivity.
  Qed.

  Lemma forallb_false {A} (f : A -> bool) l : forallb f l = false <-> exists x, In x l /\ f x = false.
  Proof.
    split.
    - induction l as [|a l IH]; cbn; [discriminate|]. rewrite andb_false_iff. intros [H|H]; [exists a; auto|]. destruct (IH H) as (x & Hx & E). exists x. auto.
    - intros (x & Hx & E). destruct (forallb f l) eqn:F; auto. rewrite forallb_forall in F. rewrite F in E by auto. discriminate.
  Qed.
  (** one-dimensional coordinates *)
  Definition line (c : coordv fl) (n : nat) (l : nat -> R) : Prop :=
    shp (cdat c) = [n] /\ forall j, (j < n)%nat -> get (cdat c) [j] = Fin (l j).
  Lemma isclose_fin x y : isclose (Fin x) (Fin y) = true <-> Rabs (x - y) <= 1 / 100000000 + 1 / 100000 * Rabs y.
  Proof.
    unfold isclose. flsimpl. cbn [negb andb]. rewrite orb_true_iff, rleb_iff.
    change (IZR (10 ^ Z.of_nat 8)) with (IZR 100000000). change (IZR (10 ^ Z.of_nat 5)) with (IZR 100000).
    split; [|auto]. intros [H|H]; auto. destruct (reqb_spec x y) as [->|]; [|discriminate].
    rewrite Rminus_diag_eq, Rabs_R0 by auto. pose proof (Rabs_pos y). lra.
  Qed.
  Lemma line_diff c n l : line c n l -> exists d, np_diff 0%nat (cdat c) = Ok d /\ shp d = [(n - 1)%nat] /\ forall j, (S j < n)%nat -> get d [j] = Fin (l (S j) - l j).
  Proof.
    intros [Hs Hg]. unfold np_diff, ndim. rewrite Hs. cbn [List.length Nat.ltb Nat.leb nth upd]. eexists. split; [reflexivity|]. split; [reflexivity|].
    intros j Hj. cbn [get nth upd]. rewrite !Hg by lia. reflexivity.
  Qed.
  Lemma line_spacing c n l : line c n l ->
    (evenly_spaced n l -> spacing_ok c) /\
    (~ evenly_spaced n l -> spacing_diff (cdat c) = Err ValueError \/ exists d, spacing_diff (cdat c) = Ok d /\ allclose0 d = Ok false).
  Proof.
    intros Hl. destruct (line_diff c n l Hl) as (d & D & Ds & Dg). unfold spacing_ok, spacing_diff. rewrite D. cbn [bind].
    assert (Z : forallb (fun x => neqb x (ofZ 0)) (ravel d) = false <-> exists j, (S j < n)%nat /\ l (S j) <> l j).
    { rewrite forallb_false. unfold ravel. rewrite Ds, all_idx_1, map_map. split.
      - intros (x & Hx & E). apply in_map_iff in Hx. destruct Hx as (j & <- & Hj). apply in_seq in Hj. exists j. split; [lia|]. rewrite Dg in E by lia. cbn in E.
        intros Q. rewrite Q, reqb_true in E by ring. discriminate.
      - intros (j & Hj & E). exists (get d [j]). split; [apply in_map_iff; exists j; split; auto; apply in_seq; lia|]. rewrite Dg by lia. cbn. apply reqb_false. lra. }
    assert (Cl : (exists j, (S j < n)%nat) -> (allclose0 d = Ok true <-> forall j, (S j < n)%nat -> Rabs ((l (S j) - l j) - (l 1%nat - l 0%nat)) <= 1 / 100000000 + 1 / 100000 * Rabs (l 1%nat - l 0%nat))
                 /\ exists b, allclose0 d = Ok b).
    { intros (j0 & Hj0). unfold allclose0. rewrite Ds. cbn [hd]. rewrite (proj2 (Nat.eqb_neq _ _)) by lia. split; [|eauto]. rewrite all_idx_1. split.
      - intros E. injection E as E. rewrite forallb_forall in E. intros j Hj. specialize (E [j]). cbn beta in E. cbn [tl] in E. rewrite !Dg in E by lia. apply isclose_fin. apply E.
        apply in_map_iff. exists j. split; auto. apply in_seq; lia.
      - intros E. f_equal. apply forallb_forall. intros x Hx. apply in_map_iff in Hx. destruct Hx as (j & <- & Hj). apply in_seq in Hj. cbn [tl]. rewrite !Dg by lia. apply isclose_fin. apply E. lia. }
    split.
    - intros [Ex Ev]. rewrite (proj2 Z Ex). exists d. split; auto. apply Cl; auto. destruct Ex as (j & Hj & _). eauto.
    - intros Hne. destruct (forallb _ (ravel d)) eqn:F.
      + left. unfold np_diff, ndim. rewrite (proj1 Hl). reflexivity.
      + right. exists d. split; auto. pose proof (proj1 Z eq_refl) as Ex. assert (Ex' : exists j, (S j < n)%nat) by (destruct Ex as (j & Hj & _); eauto).
        destruct (Cl Ex') as [I [b Eb]]. destruct b; auto. exfalso. apply Hne. split; auto. apply I. auto.
  Qed.
  (** one-dimensional coordinates: accepted exactly when both are evenly spaced *)
  Lemma nmse_uneven o m lat lon na la no lo : same_kind o m -> same_coords o m -> located o m -> one_latlon o lat lon ->
    line lat na la -> line lon no lo -> ~ (evenly_spaced na la /\ evenly_spaced no lo) -> NMSE o m = Err ValueError.
  Proof.
    intros K H L O Ha Ho Hn. rewrite nmse_body by auto. destruct (one_get _ _ _ O) as [G1 G2]. unfold body. rewrite G1. cbn [bind].
    destruct (line_spacing _ _ _ Ha) as [P1 P2]. destruct (line_spacing _ _ _ Ho) as [Q1 Q2].
    destruct (Classical_Prop.classic (evenly_spaced na la)) as [Ea|Ea].
    - destruct (P1 Ea) as (d & D & C). rewrite D. cbn [bind]. rewrite G2. cbn [bind].
      destruct Q2 as [E|(d' & E & C')]; [intros E; apply Hn; auto|rewrite E; auto|]. rewrite E. cbn [bind]. rewrite C. cbn [bind negb]. rewrite C'. reflexivity.
    - destruct (P2 Ea) as [E|(d & E & C)]; rewrite E; [auto|]. cbn [bind]. rewrite G2. cbn [bind].
      destruct (Classical_Prop.classic (evenly_spaced no lo)) as [Eo|Eo].
      + destruct (Q1 Eo) as (d' & D & C'). rewrite D. cbn [bind]. rewrite C. reflexivity.
      + destruct (Q2 Eo) as [E2|(d' & E2 & C')]; rewrite E2; [auto|]. cbn [bind]. rewrite C. reflexivity.
  Qed.
  (** two-dimensional coordinates *)
  Definition plane (c : coordv fl) (a b : nat) (f : nat -> nat -> R) : Prop :=
    shp (cdat c) = [a; b] /\ forall i j, (i < a)%nat -> (j < b)%nat -> get (cdat c) [i; j] = Fin (f i j).
  (** varying along the second axis only: any spacing is accepted *)
  Lemma plane_blind c a b f g : plane c a b f -> (0 < a)%nat -> (forall i j, (i < a)%nat -> (j < b)%nat -> f i j = g j) -> spacing_ok c.
  Proof.
    intros [Hs Hg] Ha Hf. unfold spacing_ok, spacing_diff, np_diff, ndim. rewrite Hs. cbn [List.length Nat.ltb Nat.leb nth upd bind].
    rewrite (proj2 (forallb_forall _ _)).
    - eexists. split; [reflexivity|]. unfold allclose0. cbn [shp hd get]. rewrite (proj2 (Nat.eqb_neq _ _)) by lia. f_equal.
      apply forallb_forall. intros i Hi. apply all_idx_inb in Hi. destruct i as [|i [|j [|? ?]]]; try (apply inb_length in Hi; discriminate).
      apply inb_cons in Hi. destruct Hi as [Hi Hj]. apply inb_cons in Hj. destruct Hj as [Hj _]. cbn [nth upd tl].
      rewrite !Hg, !Hf by lia. change (isclose (Fin (g (S j) - g j)) (Fin (g (S j) - g j)) = true). apply isclose_fin.
      rewrite Rminus_diag_eq, Rabs_R0 by auto. pose proof (Rabs_pos (g (S j) - g j)). lra.
    - intros x Hx. unfold ravel in Hx. cbn [shp] in Hx. apply in_map_iff in Hx. destruct Hx as (i & <- & Hi). apply all_idx_inb in Hi.
      destruct i as [|i [|j [|? ?]]]; try (apply inb_length in Hi; discriminate).
      apply inb_cons in Hi. destruct Hi as [Hi Hj]. apply inb_cons in Hj. destruct Hj as [Hj _]. cbn [get nth upd].
      rewrite !Hg, !Hf by lia. cbn. apply reqb_true. ring.
  Qed.
  (** varying along the first axis only: same test as in one dimension *)
  Lemma plane_rows c a b f g : plane c a b f -> (0 < b)%nat -> (forall i j, (i < a)%nat -> (j < b)%nat -> f i j = g i) -> evenly_spaced a g -> spacing_ok c.
  Proof.
    intros [Hs Hg] Hb Hf [(j0 & Hj0 & Hne) Ev]. unfold spacing_ok, spacing_diff, np_diff, ndim. rewrite Hs. cbn [List.length Nat.ltb Nat.leb nth upd bind].
    rewrite (proj2 (forallb_false _ _)).
    - eexists. split; [reflexivity|]. unfold allclose0. cbn [shp hd get]. rewrite (proj2 (Nat.eqb_neq _ _)) by lia. f_equal.
      apply forallb_forall. intros i Hi. apply all_idx_inb in Hi. destruct i as [|i [|j [|? ?]]]; try (apply inb_length in Hi; discriminate).
      apply inb_cons in Hi. destruct Hi as [Hi Hj]. apply inb_cons in Hj. destruct Hj as [Hj _]. cbn [nth upd tl].
      rewrite !Hg, !Hf by lia. change (isclose (Fin (g (S i) - g i)) (Fin (g 1%nat - g 0%nat)) = true). apply isclose_fin. apply Ev. lia.
    - exists (nsub (get (cdat c) [S j0; 0%nat]) (get (cdat c) [j0; 0%nat])). split.
      + unfold ravel. cbn [shp]. apply in_map_iff. exists [j0; 0%nat]. split; [reflexivity|]. apply all_idx_inb. apply inb_cons. split; [lia|]. apply inb_cons. split; [lia|apply inb_nil].
      + rewrite !Hg, !Hf by lia. cbn. apply reqb_false. lra.
  Qed.

  (** *** DataArrays on a grid *)
  Definition same_grid (o m : da fl) (t sd : list string) (ts ss : list nat) : Prop :=
    dims o = t ++ sd /\ dims m = t ++ sd /\ NoDup (t ++ sd) /\ shp (dat o) = ts ++ ss /\ shp (dat m) = ts ++ ss /\
    List.length ts = List.length t /\ List.length ss = List.length sd /\ labels_agree o m = true.
  Definition lat_at (lat : coordv fl) (sd : list string) (q : list nat) : fl := get (cdat lat) (map (env_of sd q) (cdims lat)).

  Lemma sizeof_grid o m t sd ts ss d j : same_grid o m t sd ts ss -> nth_error (t ++ sd) j = Some d -> sizeof [o; m] d = nth j (ts ++ ss) 0%nat.
  Proof.
    intros (Do & Dm & ND & So & Sm & Lt & Ls & _) Hj. unfold sizeof. cbn [flat_map]. unfold dsize. rewrite Do, So.
    assert (Hin : In d (t ++ sd)) by (eapply nth_error_In; eauto). destruct (sindex_In _ _ Hin) as (j' & E & Hlt & _). rewrite E.
    assert (Ej : j' = j). { apply (proj1 (NoDup_nth_error _) ND); auto. rewrite Hj. apply sindex_Some. auto. } subst j'.
    destruct (nth_error (ts ++ ss) j) eqn:En.
    - cbn. symmetry. apply nth_error_nth. auto.
    - apply nth_error_None in En. rewrite app_length in En, Hlt. lia.
  Qed.
  Lemma grid_sym o m t sd ts ss : same_grid o m t sd ts ss -> forall d j, nth_error (t ++ sd) j = Some d -> sizeof [m; o] d = nth j (ts ++ ss) 0%nat.
  Proof.
    intros (Do & Dm & ND & So & Sm & Lt & Ls & _) d j Hj. unfold sizeof. cbn [flat_map]. unfold dsize. rewrite Dm, Sm.
    assert (Hin : In d (t ++ sd)) by (eapply nth_error_In; eauto). destruct (sindex_In _ _ Hin) as (j' & E & Hlt & _). rewrite E.
    assert (Ej : j' = j). { apply (proj1 (NoDup_nth_error _) ND); auto. rewrite Hj. apply sindex_Some. auto. } subst j'.
    destruct (nth_error (ts ++ ss) j) eqn:En.
    - cbn. symmetry. apply nth_error_nth. auto.
    - apply nth_error_None in En. rewrite app_length in En, Hlt. lia.
  Qed.
  Lemma keep_t t sd : NoDup (t ++ sd) -> keep_dims sd (t ++ sd) = t.
  Proof.
    intros ND. unfold keep_dims. rewrite filter_app.
    assert (E1 : filter (fun d => negb (smem d sd)) t = t).
    { assert (Q : forall d, In d t -> ~ In d sd).
      { intros d Ht Hs. clear -ND Ht Hs. induction t as [|a t IH]; [destruct Ht|]. cbn in ND. apply NoDup_cons_iff in ND. destruct ND as [Hn ND]. destruct Ht as [->|Ht]; [apply Hn; apply in_app_iff; auto|auto]. }
      clear -Q. induction t as [|a t IH]; cbn; auto. rewrite (proj2 (smem_false a sd)) by (apply Q; left; auto). cbn. f_equal. apply IH. intros; apply Q; right; auto. }
    assert (E2 : filter (fun d => negb (smem d sd)) sd = []).
    { assert (Q : forall l, (forall d, In d l -> In d sd) -> filter (fun d => negb (smem d sd)) l = []).
      { induction l as [|a l IH]; intros Q; cbn; auto. rewrite (proj2 (smem_In a sd)) by (apply Q; left; auto). cbn. apply IH. intros; apply Q; right; auto. }
      apply Q. auto. }
    rewrite E1, E2. apply app_nil_r.
  Qed.
  Lemma nodup_r {A} (l l' : list A) : NoDup (l ++ l') -> NoDup l.
  Proof. induction l as [|a l IH]; cbn; intros H; [constructor|]. apply NoDup_cons_iff in H. destruct H as [Hn H]. constructor; auto. intros Hi. apply Hn. apply in_app_iff. auto. Qed.
  Lemma nodup_l {A} (l l' : list A) : NoDup (l ++ l') -> NoDup l'.
  Proof. induction l as [|a l IH]; cbn; intros H; auto. apply NoDup_cons_iff in H. destruct H as [Hn H]. auto. Qed.
  Lemma over_grid t sd e i q : NoDup (t ++ sd) -> map e t = i -> List.length q = List.length sd ->
    map (over sd q e) (t ++ sd) = i ++ q.
  Proof.
    intros ND Hi Hq. rewrite map_app. f_equal.
    - rewrite <- Hi. apply map_ext_in. intros d Hd. unfold over.
      rewrite sindex_None; auto. intros Hs. clear -ND Hd Hs. induction t as [|a t IH]; [destruct Hd|]. cbn in ND. apply NoDup_cons_iff in ND. destruct ND as [Hn ND]. destruct Hd as [->|Ht]; [apply Hn; apply in_app_iff; auto|auto].
    - rewrite <- (map_env_of sd q) at 2; [|apply nodup_l in ND; auto|auto]. apply map_ext_in. intros d Hd. unfold over, env_of.
      destruct (sindex_In _ _ Hd) as (j & -> & _). auto.
  Qed.
  Lemma holds_grid o m t sd ts ss lat e i w x y : same_grid o m t sd ts ss -> (forall d, In d (cdims lat) -> In d sd) -> map e t = i ->
    latitude_sample (List.length (all_idx ss)) (fun k => lat_at lat sd (nth k (all_idx ss) [])) (fun k => get (dat o) (i ++ nth k (all_idx ss) [])) (fun k => get (dat m) (i ++ nth k (all_idx ss) [])) w x y ->
    holds_at sd ss lat o m e w x y.
  Proof.
    intros (Do & Dm & ND & So & Sm & Lt & Ls & La) Hc Hi Hs k Hk. specialize (Hs k Hk). cbn beta in Hs.
    assert (Lq : List.length (nth k (all_idx ss) []) = List.length sd).
    { rewrite <- Ls. apply inb_length. apply all_idx_inb. apply nth_In. auto. }
    assert (Ep : map (pt sd ss e k) (t ++ sd) = i ++ nth k (all_idx ss) []) by (apply over_grid; auto).
    assert (Eo : getn o (pt sd ss e k) = get (dat o) (i ++ nth k (all_idx ss) [])) by (unfold getn; rewrite Do, Ep; auto).
    assert (Em : getn m (pt sd ss e k) = get (dat m) (i ++ nth k (all_idx ss) [])) by (unfold getn; rewrite Dm, Ep; auto).
    assert (El : getc lat (pt sd ss e k) = lat_at lat sd (nth k (all_idx ss) [])).
    { unfold getc, lat_at. f_equal. apply map_ext_in. intros d Hd. unfold pt, over, env_of. destruct (sindex_In _ _ (Hc d Hd)) as (j & -> & _). auto. }
    cbn beta. rewrite Eo, Em, El. exact Hs.
  Qed.
  Lemma wgt_notnan lat o m e : (exists l, getc lat e = Fin l) -> isnan (wgt lat o m e) = false.
  Proof. intros [l E]. unfold wgt. destruct (_ || _); auto. unfold wraw, deg2rad. rewrite E. change (@ndiv fl NumFl) with fl_div. change (@npi fl NumFl) with (Fin PI). change (ofZ 180) with (Fin 180). rewrite fdiv_fin by lra. reflexivity. Qed.

  Lemma nmse_da_grid o m t sd ts ss lat ssz :
    same_grid o m t sd ts ss -> (forall d, In d (cdims lat) -> In d sd) -> ssz = ss ->
    (forall q, inb ss q -> exists l, lat_at lat sd q = Fin l) ->
    exists r, nmse_da lat sd ssz o m = Ok r /\ dims r = t /\ shp (dat r) = ts /\ attrs r = description /\
      forall i, inb ts i -> forall w x y,
        let n := List.length (all_idx ss) in
        latitude_sample n (fun k => lat_at lat sd (nth k (all_idx ss) [])) (fun k => get (dat o) (i ++ nth k (all_idx ss) [])) (fun k => get (dat m) (i ++ nth k (all_idx ss) [])) w x y ->
        (good_weights n w -> nmse_result n w x y (get (dat r) i)) /\ (bigsum n w = 0 -> get (dat r) i = NaN).
  Proof.
    intros G Hc -> Hl. pose proof G as (Do & Dm & ND & So & Sm & Lt & Ls & La).
    unfold nmse_da.
    assert (Cm : compatible o m = true). { unfold compatible. rewrite La. apply sizes_agree_same; congruence. }
    rewrite Cm. cbn [negb].
    assert (W : wdims lat o m = join_dims (cdims lat) (t ++ sd)). { unfold wdims. rewrite Do, Dm, (join_dims_sub (t ++ sd) (t ++ sd)); auto. }
    assert (Nw : nan_weights lat o m = false).
    { unfold nan_weights. cbv zeta. rewrite W. set (ds := join_dims (cdims lat) (t ++ sd)). destruct (existsb _ _) eqn:E; auto. apply existsb_exists in E. destruct E as (i & Hi & E).
      rewrite wgt_notnan in E; [discriminate|]. apply all_idx_inb in Hi.
      destruct (Hl (map (env_of ds i) sd)) as [l Hq].
      { apply inb_nth. rewrite map_length. split; auto. intros k Hk. rewrite Ls in Hk.
        destruct (nth_error sd k) as [d|] eqn:Ek; [|apply nth_error_None in Ek; lia].
        assert (Hd : In d ds) by (apply join_dims_In; right; apply in_app_iff; right; eapply nth_error_In; eauto).
        destruct (sindex_In _ _ Hd) as (j & Ej & Hj & _). apply inb_nth in Hi. rewrite map_length in Hi. destruct Hi as [_ Hi]. specialize (Hi j Hj).
        assert (Edj : nth_error ds j = Some d) by (apply sindex_Some; auto).
        rewrite (nth_indep (map (sizeof [o; m]) ds) 0%nat (sizeof [o; m] ""%string)) in Hi by (rewrite map_length; auto). rewrite map_nth in Hi. rewrite (nth_error_nth ds j ""%string Edj) in Hi.
        rewrite (sizeof_grid _ _ _ _ _ _ d (List.length t + k) G) in Hi.
        2:{ rewrite nth_error_app2 by lia. rewrite <- Ek. f_equal. lia. }
        rewrite app_nth2 in Hi by lia. replace (List.length t + k - List.length ts)%nat with k in Hi by lia.
        rewrite (nth_indep (map (env_of ds i) sd) 0%nat (env_of ds i ""%string)) by (rewrite map_length; lia). rewrite map_nth, (nth_error_nth sd k ""%string Ek). unfold env_of at 1. rewrite Ej. auto. }
      exists l. rewrite <- Hq. unfold getc, lat_at. f_equal. apply map_ext_in. intros d Hd. rewrite env_of_In by auto. auto. }
    rewrite Nw. cbv zeta. eexists. split; [reflexivity|]. cbn [dims dat shp get attrs].
    assert (K : keep_dims sd (join_dims (dims m) (wdims lat o m)) = t).
    { rewrite Dm, join_dims_sub; [apply keep_t; auto|]. intros d Hd. rewrite W in Hd. apply join_dims_In in Hd. destruct Hd as [Hd|Hd]; auto. apply in_app_iff. auto. }
    rewrite K. split; [reflexivity|]. split; [|split; [reflexivity|]].
    - apply nth_ext with (d := 0%nat) (d' := 0%nat); [rewrite map_length; auto|]. intros k Hk. rewrite map_length in Hk.
      destruct (nth_error t k) as [d|] eqn:Ek; [|apply nth_error_None in Ek; lia].
      rewrite (nth_indep (map (sizeof [m; o]) t) 0%nat (sizeof [m; o] ""%string)) by (rewrite map_length; auto). rewrite map_nth, (nth_error_nth t k ""%string Ek).
      rewrite (grid_sym _ _ _ _ _ _ G d k) by (rewrite nth_error_app1; auto). rewrite app_nth1 by lia. auto.
    - intros i Hi w x y Hs.
      assert (H : holds_at sd ss lat o m (env_of t i) w x y).
      { apply (holds_grid o m t sd ts ss lat (env_of t i) i w x y G Hc); [|exact Hs]. apply map_env_of; [apply nodup_r in ND; auto|apply inb_length in Hi; lia]. }
      split; [intros Gw; apply (metric_value sd ss lat o m (env_of t i) w x y H Gw)|].
      intros Z. apply (metric_empty sd ss lat o m (env_of t i) w x y H Z).
  Qed.
End Api.
