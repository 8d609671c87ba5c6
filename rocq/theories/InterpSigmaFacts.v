(** interp_sigma_to_hybrid: every column is interpolated at its own sigma values. *)
From Coq Require Import Reals List Bool Arith ZArith Lra Lia String Permutation.
From Verif Require Import PyBase PyFacts Num NumFacts Arr ArrFacts XrFacts Spec Hybrid HybridFacts Interp1d Interp1dFacts InterpHyb ChunkFacts
  InterpHybFacts InterpColumn InterpApi InterpProps ExtrapFacts InterpExtrap InterpFinal InterpSigma.
Import ListNotations.

Lemma remove_at_app {A} (l1 : list A) x l2 : remove_at (List.length l1) (l1 ++ x :: l2) = l1 ++ l2.
Proof.
  unfold remove_at. rewrite firstn_app, Nat.sub_diag, firstn_all, firstn_O, app_nil_r. f_equal.
  rewrite skipn_app. rewrite skipn_all2 by lia. cbn [app]. replace (S (List.length l1) - List.length l1) with 1 by lia. reflexivity.
Qed.
Lemma upd_app {A} (l1 : list A) x l2 v : upd (l1 ++ x :: l2) (List.length l1) v = l1 ++ v :: l2.
Proof. induction l1 as [|y l1 IH]; cbn; auto. rewrite IH. reflexivity. Qed.
Lemma split_nth {A} (l : list A) j : (j < List.length l)%nat ->
  exists l1 x l2, l = l1 ++ x :: l2 /\ List.length l1 = j /\ nth_error l j = Some x.
Proof.
  intros H. destruct (nth_error l j) as [x|] eqn:E; [|apply nth_error_None in E; lia].
  destruct (nth_error_split _ _ E) as (l1 & l2 & E1 & E2). exists l1, x, l2. auto.
Qed.
Lemma app_inj_len {A} (a b c d : list A) : a ++ b = c ++ d -> List.length a = List.length c -> a = c /\ b = d.
Proof.
  revert c; induction a as [|x a IH]; intros [|y c] E H; cbn in *; try discriminate; auto.
  injection E as -> E. destruct (IH c E); [lia|]. subst. auto.
Qed.
Lemma Forall2_nth_error {A B} (P : A -> B -> Prop) l1 l2 : Forall2 P l1 l2 ->
  forall k x, nth_error l1 k = Some x -> exists y, nth_error l2 k = Some y /\ P x y.
Proof.
  intros H. induction H as [|a b l1 l2 Hab H IH]; intros [|k] x E; cbn in *; try discriminate.
  - injection E as <-. eauto.
  - auto.
Qed.
Lemma map_eq_In {A B} (f g : A -> B) l : map f l = map g l -> forall x, In x l -> f x = g x.
Proof.
  induction l as [|y l IH]; cbn; intros H x Hx; [destruct Hx|]. injection H as H1 H2. destruct Hx as [->|Hx]; auto.
Qed.

Section Facts.
  Context {T : Type} {N : Num T}.
  Local Open Scope num_scope.

  Lemma remove_In {A} (l1 : list A) x l2 d : In d (l1 ++ l2) -> In d (l1 ++ x :: l2).
  Proof. rewrite !in_app_iff. cbn. tauto. Qed.

  (** reading by name through the stacked dimensions is reading by position *)
  Lemma stacked_env ds1 l ds2 (i1 : list nat) j i2 k : NoDup (ds1 ++ l :: ds2) ->
    List.length i1 = List.length ds1 -> List.length i2 = List.length ds2 ->
    map (set_env (env_of (ds1 ++ ds2) (i1 ++ i2)) l k) (ds1 ++ l :: ds2) = upd (i1 ++ j :: i2) (List.length ds1) k.
  Proof.
    intros Hn H1 H2. rewrite <- H1, upd_app.
    assert (Hn' : NoDup (ds1 ++ ds2)) by (eapply NoDup_remove_1; eauto).
    assert (Hl : ~ In l (ds1 ++ ds2)) by (eapply NoDup_remove_2; eauto).
    pose proof (map_env_of (ds1 ++ ds2) (i1 ++ i2) Hn') as E. rewrite !app_length in E. specialize (E ltac:(lia)).
    rewrite map_app in E. apply app_inj_len in E; [|rewrite map_length; auto]. destruct E as [E1 E2].
    rewrite map_app. cbn [map]. f_equal; [|f_equal].
    - rewrite <- E1 at 2. apply map_ext_in. intros d Hd. unfold set_env. destruct (String.eqb_spec d l) as [->|]; auto.
      exfalso. apply Hl. apply in_or_app. auto.
    - unfold set_env. rewrite String.eqb_refl. reflexivity.
    - rewrite <- E2 at 2. apply map_ext_in. intros d Hd. unfold set_env. destruct (String.eqb_spec d l) as [->|]; auto.
      exfalso. apply Hl. apply in_or_app. auto.
  Qed.
  (** the stacked assignment agrees with the data's on the remaining dimensions *)
  Lemma stacked_env_eq ds1 l ds2 (i1 : list nat) j i2 d : NoDup (ds1 ++ l :: ds2) ->
    List.length i1 = List.length ds1 -> List.length i2 = List.length ds2 -> In d (ds1 ++ ds2) ->
    env_of (ds1 ++ ds2) (i1 ++ i2) d = env_of (ds1 ++ l :: ds2) (i1 ++ j :: i2) d.
  Proof.
    intros Hn H1 H2 Hd. apply (map_eq_In _ _ (ds1 ++ ds2)); auto.
    assert (Hn' : NoDup (ds1 ++ ds2)) by (eapply NoDup_remove_1; eauto).
    rewrite (map_env_of (ds1 ++ ds2)) by (auto; rewrite !app_length; lia).
    pose proof (map_env_of (ds1 ++ l :: ds2) (i1 ++ j :: i2) Hn) as E. rewrite !app_length in E. cbn [List.length] in E.
    specialize (E ltac:(lia)). rewrite map_app in E. apply app_inj_len in E; [|rewrite map_length; auto]. destruct E as [E1 E2].
    cbn [map] in E2. injection E2 as _ E2. rewrite map_app, E1, E2. reflexivity.
  Qed.

  Lemma sigma_spec (ps hya hyb : da T) p0 h nh :
    dims hya = [h] -> dims hyb = [h] -> shp (dat hya) = [nh] -> shp (dat hyb) = [nh] ->
    wf_da ps -> ~ In h (dims ps) -> slookup h (coords ps) = None ->
    same_labels (index_labels hya h) (index_labels hyb h) ->
    exists r, sigma_from_hybrid ps hya hyb p0 = Ok r /\ dims r = h :: dims ps /\
      dsize r h = Some nh /\ (forall d, In d (dims ps) -> dsize r d = dsize ps d) /\
      forall e, getn r e = get (dat hya) [e h] * p0 / getn ps e + get (dat hyb) [e h].
  Proof.
    intros Da Db Sa Sb [Wl Wn] Hl Hc Hlab. unfold sigma_from_hybrid.
    destruct (xr_map2_ok ndiv (xr_map (fun v => v * p0) hya) ps) as (t & Et & Dt & Ct & Gt & St).
    { apply labels_agree_disjoint. cbn. rewrite Da. intros d [<-|[]]; auto. }
    { apply sizes_agree_disjoint. cbn. rewrite Da. intros d [<-|[]]; auto. }
    rewrite Et. cbn [bind]. cbn [dims xr_map] in *.
    assert (Dt' : dims t = h :: dims ps).
    { rewrite Dt, Da, join_dims_new; auto. intros d Hd [->|[]]; auto. }
    assert (Hsa : dsize (xr_map (fun v => v * p0) hya) h = Some nh).
    { unfold dsize, xr_map. cbn. rewrite Da, Sa. cbn. rewrite String.eqb_refl. reflexivity. }
    assert (Hsb : dsize hyb h = Some nh).
    { unfold dsize. rewrite Db, Sb. cbn. rewrite String.eqb_refl. reflexivity. }
    assert (St' : shp (dat t) = nh :: shp (dat ps)).
    { rewrite St, <- Dt, Dt'. cbn [map]. rewrite Hsa. f_equal.
      etransitivity; [|apply (map_dsize ps); auto]. apply map_ext_in. intros d Hd.
      rewrite (dsize_notIn (xr_map _ hya) d); auto. cbn. rewrite Da. intros [->|[]]; auto. }
    assert (Hst : dsize t h = Some nh).
    { unfold dsize. rewrite Dt', St'. cbn. rewrite String.eqb_refl. reflexivity. }
    assert (Htd : forall d, In d (dims ps) -> dsize t d = dsize ps d).
    { intros d Hd. unfold dsize. rewrite Dt', St'. cbn. destruct (String.eqb_spec d h) as [->|]; [contradiction|].
      destruct (sindex d (dims ps)); reflexivity. }
    destruct (xr_map2_ok nadd t hyb) as (r & Er & Dr & Cr & Gr & Sr).
    { unfold labels_agree. rewrite Dt', Db. apply forallb_forall. intros d Hd. apply filter_In in Hd.
      destruct Hd as [_ Hd]. apply smem_In in Hd. destruct Hd as [<-|[]].
      unfold index_labels in *. rewrite Ct. cbn [coords xr_map]. rewrite slookup_join by auto.
      destruct (slookup h (coords hya)) as [c|]; auto.
      destruct (cdims c) as [|d1 [|d2 dds]]; auto. destruct (String.eqb h d1); auto.
      destruct (slookup h (coords hyb)) as [c'|]; auto.
      destruct (cdims c') as [|d1' [|d2' ds']]; auto. destruct (String.eqb h d1'); auto. }
    { unfold sizes_agree. rewrite Dt'. apply forallb_forall. intros d Hd. destruct (String.eqb_spec d h) as [->|Hne].
      - rewrite Hst, Hsb. apply Nat.eqb_refl.
      - rewrite (dsize_notIn hyb d); [destruct (dsize t d); auto|]. rewrite Db. intros [->|[]]; auto. }
    assert (Dr' : dims r = h :: dims ps).
    { rewrite Dr, Dt', Db. apply join_dims_sub. intros d [<-|[]]. cbn. auto. }
    exists r. split; auto. split; auto.
    assert (Sr' : shp (dat r) = nh :: shp (dat ps)).
    { rewrite Sr, <- Dr, Dr'. cbn [map]. rewrite Hst. f_equal.
      etransitivity; [|apply (map_dsize ps); auto]. apply map_ext_in. intros d Hd. rewrite Htd by auto.
      destruct (dsize_In ps d (conj Wl Wn) Hd) as [nn ->]. reflexivity. }
    split; [unfold dsize; rewrite Dr', Sr'; cbn; rewrite String.eqb_refl; reflexivity|]. split.
    - intros d Hd. unfold dsize. rewrite Dr', Sr'. cbn. destruct (String.eqb_spec d h) as [->|]; [contradiction|].
      destruct (sindex d (dims ps)); reflexivity.
    - intros e. rewrite Gr, Gt. unfold getn at 1 3. cbn [dims dat get amap xr_map]. rewrite Da, Db. reflexivity.
  Qed.

  (** one-dimensional call of the interpolation routine *)
  Lemma interp_nd_1d m x sig var : x <> [] -> (2 <= List.length sig)%nat -> List.length var = List.length sig ->
    exists r a, interp_with m x sig var = Ok r /\ interp_nd m x (vec nnan sig) (vec nnan var) 0 = Ok a /\
      shp a = [List.length x] /\ forall k, get a [k] = nth k r nnan.
  Proof.
    intros Hx Hn Hl. destruct (interp_with_ok m x sig var Hx Hn Hl) as [r Er].
    assert (C : forall l i n, List.length l = n -> col_at (vec nnan l) 0 [i] n = l).
    { intros l i n <-. unfold col_at. cbn. clear. transitivity (map (fun k => nth k l nnan) (seq 0 (List.length l))); [reflexivity|].
      apply (nth_ext _ _ nnan nnan); rewrite map_length, seq_length; auto. intros k Hk.
      rewrite (nth_indep _ nnan (nth 0 l nnan)) by (rewrite map_length, seq_length; auto).
      rewrite (map_nth (fun k => nth k l nnan)), seq_nth; auto. }
    exists r. unfold interp_nd. cbn [shp vec combine forallb fst snd nth upd existsb]. rewrite Hl, Nat.leb_refl.
    cbn [andb negb Nat.eqb orb all_idx flat_map seq map app mapM].
    rewrite !C, Er by auto. cbn [bind]. eexists. split; auto. split; [reflexivity|]. split; [reflexivity|].
    intros k. cbn [get nth]. rewrite !C, Er by auto. reflexivity.
  Qed.
End Facts.

Section Core.
  Context {T : Type} {N : Num T}.
  Local Open Scope num_scope.

  (** a well-formed call: data has [n] sigma levels on axis [ax] named [l]; ps has data's other
      dimensions in any order; hyam and hybm have [nh <= n] levels on a dimension [h] *)
  Record sig_wf (data ps hyam hybm : da T) (sig : list T) (l h : string) (ax n nh : nat) : Prop := {
    s_data : wf_da data;
    s_ax : sindex l (dims data) = Some ax;
    s_n : nth_error (shp (dat data)) ax = Some n;
    s_pos : Forall (fun d => 0 < d)%nat (shp (dat data));
    s_da : dims hyam = [h]; s_db : dims hybm = [h];
    s_sa : shp (dat hyam) = [nh]; s_sb : shp (dat hybm) = [nh];
    s_ps : wf_da ps;
    s_perm : Permutation (l :: dims ps) (dims data);
    s_sizes : forall d, In d (dims ps) -> dsize ps d = dsize data d;
    s_h : ~ In h (dims ps);
    s_c1 : slookup h (coords ps) = None;
    s_lab : same_labels (index_labels hyam h) (index_labels hybm h);
    s_sig : List.length sig = n;
    s_hlev : ~ In "hlev"%string (dims data) \/ l = "hlev"%string }.

  Lemma set_env_neq (e : env) x k d : d <> x -> set_env e x k d = e d.
  Proof. unfold set_env. intros H. destruct (String.eqb_spec d x); congruence. Qed.
  Lemma filter_nd (nd : list string) h ps : ~ In h nd -> (forall d, In d ps -> In d nd) ->
    filter (fun d => negb (smem d nd)) (h :: ps) = [h].
  Proof.
    intros Hh Hp. cbn [filter]. rewrite (proj2 (smem_false h nd)) by auto. cbn. f_equal.
    induction ps as [|d ps IH]; cbn; auto. rewrite (proj2 (smem_In d nd)) by (apply Hp; cbn; auto). cbn.
    apply IH. intros; apply Hp; cbn; auto.
  Qed.
  Lemma inb_app_inv s1 s2 i : inb (s1 ++ s2) i -> exists i1 i2, i = i1 ++ i2 /\ inb s1 i1 /\ inb s2 i2.
  Proof. intros H. apply Forall2_app_inv_r in H. destruct H as (i1 & i2 & H1 & H2 & ->). eauto 6. Qed.
  Lemma zeros_first s : Forall (fun d => 0 < d)%nat s -> hd_error (all_idx s) = Some (repeat 0%nat (List.length s)).
  Proof.
    induction s as [|n s IH]; intros H; inversion H; subst; cbn [all_idx List.length repeat]; auto.
    destruct n; [lia|]. cbn [seq flat_map]. specialize (IH H3). destruct (all_idx s); cbn in *; [discriminate|].
    injection IH as ->. reflexivity.
  Qed.
  Lemma dsize_app (a : da T) ds1 l ds2 s1 x s2 : dims a = ds1 ++ l :: ds2 -> shp (dat a) = s1 ++ x :: s2 ->
    List.length s1 = List.length ds1 -> List.length s2 = List.length ds2 -> NoDup (dims a) ->
    sizes_of a (ds1 ++ ds2) = s1 ++ s2.
  Proof.
    intros Hd Hs H1 H2 Hn. pose proof (map_dsize a Hn) as E. rewrite Hd, Hs in E. rewrite !app_length in E. cbn [List.length] in E.
    specialize (E ltac:(lia)). rewrite map_app in E. apply app_inj_len in E; [|rewrite map_length; auto].
    destruct E as [E1 E2]. cbn [map] in E2. injection E2 as _ E2. unfold sizes_of. rewrite map_app. congruence.
  Qed.

  Lemma sigma_core data ps hyam hybm sig l h ax n nh p0 lev_dim cf_name m :
    sig_wf data ps hyam hybm sig l h ax n nh ->
    lev_dim = Some l \/ (lev_dim = None /\ cf_name = Some l) ->
    (2 <= n)%nat -> (0 < nh)%nat ->
    ((nh <= n)%nat ->
     exists out c, interp_sigma_to_hybrid data sig ps hyam hybm p0 lev_dim cf_name (meth_name m) = Ok out /\
      dims out = upd (dims data) ax "hlev"%string /\ shp (dat out) = upd (shp (dat data)) ax nh /\
      coords out = [("hlev"%string, c)] /\ cdims c = ["hlev"%string] /\ shp (cdat c) = [nh] /\
      (forall k, (k < nh)%nat -> get (cdat c) [k] = get (dat hyam) [k] * p0 / getn ps (fun _ => 0%nat) + get (dat hybm) [k]) /\
      forall i, inb (shp (dat out)) i ->
        exists r, interp_with m (map (fun k => get (dat hyam) [k] * p0 / getn ps (env_of (dims data) i) + get (dat hybm) [k]) (seq 0 nh))
                    sig (col_at (dat data) ax i n) = Ok r /\
          get (dat out) i = nth (nth ax i 0%nat) r nnan) /\
    ((n < nh)%nat -> interp_sigma_to_hybrid data sig ps hyam hybm p0 lev_dim cf_name (meth_name m) = Err ValueError).
  Proof.
    intros W Hlev Hn Hnh0. destruct W as [[Wl Wn] Wax Wsn Wpos Da Db Sa Sb Wps Wperm Wsz Wh Wc1 Wlab Wsig Whl].
    assert (Hlt : (ax < List.length (shp (dat data)))%nat) by (apply nth_error_Some; congruence).
    destruct (split_nth (shp (dat data)) ax Hlt) as (s1 & n' & s2 & Es & Ls1 & En).
    assert (n' = n) by congruence. subst n'.
    destruct (split_nth (dims data) ax ltac:(lia)) as (ds1 & l' & ds2 & Ed & Ld1 & El).
    assert (l' = l) by (apply sindex_Some in Wax; congruence). subst l'.
    assert (Ls2 : List.length s2 = List.length ds2).
    { rewrite Es, Ed, !app_length in Wl. cbn in Wl. lia. }
    assert (Enth : nth ax (shp (dat data)) 0%nat = n) by (apply nth_error_nth; auto).
    destruct (sigma_spec ps hyam hybm p0 h nh Da Db Sa Sb Wps Wh Wc1 Wlab) as (sigma & Esig & Dsig & Sh & Sd & Gs).
    set (nd := ds1 ++ ds2) in *.
    assert (Hnd : forall d, In d nd <-> In d (dims ps)).
    { intros d. assert (P : Permutation (l :: dims ps) (l :: nd)).
      { etransitivity; [exact Wperm|]. rewrite Ed. symmetry. apply Permutation_middle. }
      apply Permutation_cons_inv in P. split; apply Permutation_in; [symmetry|]; auto. }
    assert (Hnd2 : NoDup (ds1 ++ l :: ds2)) by (rewrite <- Ed; auto).
    assert (Szd : sizes_of data nd = s1 ++ s2).
    { apply (dsize_app data ds1 l ds2 s1 n s2); auto; congruence. }
    assert (Szs : sizes_of sigma nd = s1 ++ s2).
    { rewrite <- Szd. apply map_ext_in. intros d Hd. apply Hnd in Hd. rewrite Sd, Wsz by auto. reflexivity. }
    assert (Hs : hd 0%nat (sizes_of sigma [h]) = nh) by (cbn; rewrite Sh; reflexivity).
    assert (Hf : filter (fun d => negb (smem d nd)) (dims sigma) = [h]).
    { rewrite Dsig. apply filter_nd; [rewrite Hnd; auto|]. intros d. apply Hnd. }
    assert (Hall : forallb (fun d => smem d (dims sigma)) nd = true).
    { apply forallb_forall. intros d Hd. apply smem_In. rewrite Dsig. cbn. right. apply Hnd. auto. }
    assert (Pos : Forall (fun d => 0 < d)%nat (s1 ++ s2)).
    { rewrite Es in Wpos. apply Forall_app in Wpos. destruct Wpos as [P1 P2]. inversion P2. apply Forall_app. auto. }
    assert (Ehd : remove_at ax (dims data) = nd) by (rewrite Ed, <- Ld1; apply remove_at_app).
    assert (Pre : interp_sigma_to_hybrid data sig ps hyam hybm p0 lev_dim cf_name (meth_name m) =
      (let no := Nat.min n nh in
       do results <- mapM (fun c =>
         do r <- interp_nd m (col_by_name sigma nd (snd c) h nh) (vec nnan sig)
                  (vec nnan (col_by_name data nd (fst c) l n)) 0%nat ;;
         guard negb (shape_eqb (shp r) [no]) raise ValueError ;;
         Ok r) (combine (all_idx (s1 ++ s2)) (all_idx (s1 ++ s2))) ;;
       guard smem "hlev" (dims data) && negb (String.eqb l "hlev") raise ValueError ;;
       guard negb (Nat.eqb nh no) raise ValueError ;;
       Ok (mkDa (upd (dims data) ax "hlev"%string)
          (mkArr (upd (shp (dat data)) ax no)
             (fun i => match nth_error results (flat (s1 ++ s2) (remove_at ax i)) with
                       | Some r => get r [nth ax i 0%nat]
                       | None => get (dat data) i end))
          [("hlev"%string, mkCoord ["hlev"%string]
              (vec nnan (col_by_name sigma nd (repeat 0%nat (List.length (s1 ++ s2))) h nh)))] (attrs data) (daname data)))).
    { unfold interp_sigma_to_hybrid.
      replace (match lev_dim with Some l0 => Ok l0 | None => oget ValueError cf_name end) with (Ok l : res string)
        by (destruct Hlev as [->|[-> ->]]; reflexivity).
      cbn [bind]. replace (func_interpolate (meth_name m)) with (Ok m : res imethod) by (destruct m; reflexivity).
      cbn [bind]. rewrite Esig. cbn [bind]. rewrite Wax. cbn [oget bind]. rewrite Ehd, Hall. cbn [negb].
      rewrite Hf. cbn [bind]. rewrite Sa. cbn [hd_error oget bind]. rewrite Szs, Szd, zeros_first by auto.
      cbn [oget bind]. rewrite Hs, Enth. reflexivity. }
    (* one column *)
    assert (Col : forall q, inb (s1 ++ s2) q ->
      exists r a, interp_nd m (col_by_name sigma nd q h nh) (vec nnan sig) (vec nnan (col_by_name data nd q l n)) 0 = Ok a /\
        shp a = [nh] /\ interp_with m (col_by_name sigma nd q h nh) sig (col_by_name data nd q l n) = Ok r /\
        forall k, get a [k] = nth k r nnan).
    { intros q Hq. destruct (interp_nd_1d m (col_by_name sigma nd q h nh) sig (col_by_name data nd q l n)) as (r & a & E1 & E2 & E3 & E4).
      - unfold col_by_name. destruct nh; [lia|]. discriminate.
      - lia.
      - unfold col_by_name. rewrite map_length, seq_length. auto.
      - exists r, a. split; auto. split; auto. rewrite E3. unfold col_by_name. rewrite map_length, seq_length. reflexivity. }
    rewrite Pre. cbv zeta. clear Pre. split; intros Hnh.
    - replace (Nat.min n nh) with nh by lia.
      destruct (mapM_total (fun c =>
         do r <- interp_nd m (col_by_name sigma nd (snd c) h nh) (vec nnan sig)
                  (vec nnan (col_by_name data nd (fst c) l n)) 0%nat ;;
         guard negb (shape_eqb (shp r) [nh]) raise ValueError ;; Ok r) (combine (all_idx (s1 ++ s2)) (all_idx (s1 ++ s2))))
        as [results Er].
      { intros c Hc. destruct c as [c1 c2].
        assert (c1 = c2).
        { clear -Hc. induction (all_idx (s1 ++ s2)) as [|z zs IH]; cbn in Hc; [destruct Hc|]. destruct Hc as [Hc|Hc]; [congruence|auto]. }
        subst c2. apply in_combine_l in Hc. apply all_idx_inb in Hc. destruct (Col _ Hc) as (r & a & E1 & E2 & _).
        cbn [fst snd]. rewrite E1. cbn [bind]. rewrite E2. destruct (shape_eqb_spec [nh] [nh]); [|congruence]. cbn. eauto. }
      rewrite Er. cbn [bind].
      replace (smem "hlev" (dims data) && negb (String.eqb l "hlev")) with false.
      2:{ symmetry. destruct Whl as [Hx|Hx]; [rewrite (proj2 (smem_false _ _) Hx); reflexivity|rewrite Hx; cbn; apply andb_false_r]. }
      rewrite Nat.eqb_refl. cbn [negb].
      eexists. eexists. split; [reflexivity|]. cbn [dims dat shp coords]. split; auto. split; auto. split; [reflexivity|].
      cbn [cdims cdat]. split; auto. split; [cbn; unfold col_by_name; rewrite map_length, seq_length; auto|]. split.
      + intros k Hk. cbn [get vec hd]. unfold col_by_name.
        rewrite (nth_indep _ nnan (getn sigma (set_env (env_of nd (repeat 0%nat (List.length (s1 ++ s2)))) h 0%nat)))
          by (rewrite map_length, seq_length; auto).
        rewrite (map_nth (fun k => getn sigma (set_env (env_of nd (repeat 0%nat (List.length (s1 ++ s2)))) h k))), seq_nth by auto.
        cbn [plus]. rewrite Gs. unfold set_env at 1 3. rewrite String.eqb_refl. f_equal. f_equal.
        apply getn_ext. intros d Hd. rewrite set_env_neq by (intros ->; auto). unfold env_of.
        destruct (sindex d nd); auto. apply nth_repeat.
      + intros i Hi. rewrite Es, <- Ls1, upd_app in Hi. apply inb_app_inv in Hi. destruct Hi as (i1 & i2' & -> & Hi1 & Hi2).
        destruct i2' as [|j i2]; [inversion Hi2|]. apply inb_cons in Hi2. destruct Hi2 as [Hj Hi2].
        assert (L1 : List.length i1 = List.length ds1) by (apply inb_length in Hi1; lia).
        assert (L2 : List.length i2 = List.length ds2) by (apply inb_length in Hi2; lia).
        set (q := i1 ++ i2). assert (Erm : remove_at ax (i1 ++ j :: i2) = q) by (replace ax with (List.length i1) by lia; apply remove_at_app). assert (Hq : inb (s1 ++ s2) q) by (apply inb_app; auto).
        destruct (Col _ Hq) as (r & a & E1 & E2 & E3 & E4).
        assert (Ers : nth_error results (flat (s1 ++ s2) q) = Some a).
        { apply mapM_Ok_iff in Er.
          assert (Hflat : (flat (s1 ++ s2) q < List.length (all_idx (s1 ++ s2)))%nat) by (rewrite all_idx_length; apply flat_bound; auto).
          assert (Hc : nth_error (combine (all_idx (s1 ++ s2)) (all_idx (s1 ++ s2))) (flat (s1 ++ s2) q) = Some (q, q)).
          { rewrite (nth_error_nth' _ ([], [])) by (rewrite combine_length; lia). rewrite combine_nth by auto.
            rewrite nth_flat by auto. reflexivity. }
          destruct (Forall2_nth_error _ _ _ Er _ _ Hc) as (y & Hy & Ey). cbn [fst snd] in Ey. rewrite E1 in Ey. cbn [bind] in Ey.
          rewrite E2 in Ey. destruct (shape_eqb_spec [nh] [nh]); [|congruence]. cbn in Ey. congruence. }
        exists r. cbn [get]. rewrite Erm, Ers, E4. split; [|reflexivity].
        rewrite <- E3. f_equal.
        * unfold col_by_name. apply map_ext_in. intros k Hk. rewrite Gs.
          unfold set_env at 1 3. rewrite String.eqb_refl. f_equal. f_equal. apply getn_ext. intros d Hd.
          rewrite set_env_neq by (intros ->; auto). rewrite Ed. symmetry. apply stacked_env_eq; auto. apply Hnd. auto.
        * unfold col_by_name, col_at. apply map_ext_in. intros k Hk. unfold getn. f_equal. rewrite Ed.
          unfold nd, q. rewrite (stacked_env ds1 l ds2 i1 j i2 k) by auto. rewrite Ld1. reflexivity.
    - replace (Nat.min n nh) with n by lia.
      destruct (all_idx (s1 ++ s2)) as [|q qs] eqn:Eall.
      { exfalso. pose proof (zeros_first _ Pos) as Z. rewrite Eall in Z. discriminate. }
      cbn [combine mapM]. destruct (Col q) as (r & a & E1 & E2 & _); [apply all_idx_inb; rewrite Eall; cbn; auto|].
      cbn [fst snd]. rewrite E1. cbn [bind]. rewrite E2. destruct (shape_eqb_spec [nh] [n]) as [Heq|]; [injection Heq; lia|]. reflexivity.
  Qed.
End Core.

Local Open Scope R_scope.

Lemma c22_lemma (data ps hyam hybm : da fl) (sig : list R) l h ax n nh (A B : nat -> R) p0 lev_dim cf_name m :
  sig_wf data ps hyam hybm (map Fin sig) l h ax n nh ->
  lev_dim = Some l \/ (lev_dim = None /\ cf_name = Some l) ->
  (2 <= n)%nat -> (0 < nh <= n)%nat -> NoDup sig ->
  (forall k, (k < nh)%nat -> get (dat hyam) [k] = Fin (A k)) ->
  (forall k, (k < nh)%nat -> get (dat hybm) [k] = Fin (B k)) ->
  exists out c,
    interp_sigma_to_hybrid data (map Fin sig) ps hyam hybm (Fin p0) lev_dim cf_name (meth_name m) = Ok out /\
    dims out = upd (dims data) ax "hlev"%string /\ shp (dat out) = upd (shp (dat data)) ax nh /\
    coords out = [("hlev"%string, c)] /\ cdims c = ["hlev"%string] /\ shp (cdat c) = [nh] /\
    (forall s0 k, getn ps (fun _ => 0%nat) = Fin s0 -> s0 <> 0 -> (k < nh)%nat -> get (cdat c) [k] = Fin (hyb_sigma A B p0 s0 k)) /\
    forall i s, inb (shp (dat out)) i -> getn ps (env_of (dims data) i) = Fin s -> s <> 0 ->
      let want := map (hyb_sigma A B p0 s) (seq 0 nh) in
      (m = MLog -> Forall (Rlt 0) sig /\ Forall (Rlt 0) want) ->
      exists served, served_order want served /\ (one_direction want -> served = want) /\
        column_value (vcoord m) (fun k => nth k sig 0) (fun k => get (dat data) (upd i ax k)) n
          (nth (nth ax i 0%nat) served 0) (get (dat out) i).
Proof.
  intros W Hlev Hn Hnh Hsig HA HB.
  destruct (sigma_core data ps hyam hybm (map Fin sig) l h ax n nh (Fin p0) lev_dim cf_name m W Hlev Hn ltac:(lia)) as [C _].
  destruct (C ltac:(lia)) as (out & c & E & Do & So & Co & Cd & Cs & Cv & G). clear C.
  exists out, c. repeat (split; [assumption|]). split.
  - intros s0 k Hs0 Hne Hk. rewrite Cv, HA, HB, Hs0 by auto. cbn [nmul NumFl fl_mul]. change (@ndiv fl NumFl) with fl_div.
    rewrite fdiv_fin by auto. reflexivity.
  - intros i s Hi Hs Hne want Hm. destruct (G i Hi) as (r & Er & ->).
    assert (Ew : map (fun k => nadd (ndiv (nmul (get (dat hyam) [k]) (Fin p0)) (getn ps (env_of (dims data) i))) (get (dat hybm) [k])) (seq 0 nh)
                 = map Fin want).
    { unfold want. rewrite map_map. apply map_ext_in. intros k Hk. apply in_seq in Hk. rewrite HA, HB, Hs by lia.
      cbn [nmul NumFl fl_mul]. change (@ndiv fl NumFl) with fl_div. rewrite fdiv_fin by auto. reflexivity. }
    rewrite Ew in Er. clear Ew.
    assert (Lw : List.length want = nh) by (unfold want; rewrite map_length, seq_length; auto).
    assert (Ls : List.length sig = n) by (pose proof (s_sig _ _ _ _ _ _ _ _ _ _ W) as L; rewrite map_length in L; auto).
    assert (Hw : want <> []) by (intros E0; rewrite E0 in Lw; cbn in Lw; lia).
    destruct (col_list m want sig (col_at (dat data) ax i n)) as (x' & g & S' & Er' & V).
    + rewrite col_at_length. auto.
    + lia.
    + auto.
    + auto.
    + auto.
    + assert (r = map g x') by congruence. subst r.
      assert (Hj : (nth ax i 0%nat < nh)%nat).
      { rewrite So in Hi. apply inb_nth in Hi. destruct Hi as [_ Hi].
        assert (Lax : (ax < List.length (shp (dat data)))%nat).
        { apply nth_error_Some. rewrite (s_n _ _ _ _ _ _ _ _ _ _ W). discriminate. }
        specialize (Hi ax). rewrite upd_length in Hi. specialize (Hi Lax). rewrite nth_upd, Nat.eqb_refl in Hi.
        replace (Nat.ltb ax (List.length (shp (dat data)))) with true in Hi by (symmetry; apply Nat.ltb_lt; auto). exact Hi. }
      set (j := nth ax i 0%nat) in *.
      assert (Lx : List.length x' = nh).
      { destruct S' as [P' _]. apply Permutation_length in P'. rewrite map_length in P'. lia. }
      rewrite (nth_indep _ NaN (g 0)), map_nth by (rewrite map_length; lia).
      specialize (V (nth j x' 0)). rewrite Ls in V.
      assert (V2 : column_value (fun r => r) (fun k => vcoord m (nth k sig 0)) (fun k => get (dat data) (upd i ax k)) n (nth j x' 0) (g (nth j x' 0))).
      { eapply column_value_ext; [| |exact V]; auto. intros k Hk. apply nth_col. auto. }
      destruct m; cbn [vcoord] in *.
      * rewrite map_id in S'. exists x'. split; auto. split; auto. intros Hd. eapply served_order_sorted; eauto.
      * destruct (Hm eq_refl) as [H1 H2]. pose proof (served_order_ln _ _ H2 S') as S2. exists (map exp x'). split; auto.
        split; [intros Hd; eapply served_order_sorted; eauto|].
        apply column_value_ln.
        -- intros k Hk. rewrite Forall_forall in H1. apply H1. apply nth_In. lia.
        -- rewrite nth_map_R by lia. apply exp_pos.
        -- rewrite nth_map_R by lia. rewrite ln_exp. exact V2.
Qed.

Lemma c22_too_many (T : Type) (N : Num T) (data ps hyam hybm : da T) sig l h ax n nh p0 lev_dim cf_name m :
  sig_wf data ps hyam hybm sig l h ax n nh ->
  lev_dim = Some l \/ (lev_dim = None /\ cf_name = Some l) ->
  (2 <= n)%nat -> (n < nh)%nat ->
  interp_sigma_to_hybrid data sig ps hyam hybm p0 lev_dim cf_name (meth_name m) = Err ValueError.
Proof. intros W Hl Hn Hh. apply (sigma_core _ _ _ _ _ _ _ _ _ _ _ _ _ _ W Hl Hn); lia. Qed.
