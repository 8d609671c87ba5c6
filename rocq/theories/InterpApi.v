(** interp_hybrid_to_pressure as called: argument checks, chunk independence, extrapolation. *)
From Coq Require Import Reals List Bool Arith ZArith Lra Lia String Permutation.
From Verif Require Import PyBase PyFacts Num NumFacts Arr ArrFacts XrFacts Spec Hybrid HybridFacts Interp1d InterpHyb ChunkFacts
  InterpHybFacts.
Import ListNotations.

Definition meth_name (m : imethod) : string := match m with MLinear => "linear"%string | MLog => "log"%string end.

Section Api.
  Context {T : Type} {N : Num T}.

  (** arguments the function accepts, with the level dimension [l] and method [m] they select *)
  Record args_ok (a : ihp_args T) (l : string) (m : imethod) : Prop := {
    ok_lev : a_lev_dim a = Some l \/ (a_lev_dim a = None /\ cf_name a = Some l);
    ok_meth : a_method a = meth_name m;
    ok_var : a_variable a = None \/ a_variable a = Some "other"%string \/
             ((a_variable a = Some "temperature"%string \/ a_variable a = Some "geopotential"%string) /\
              a_t_bot a <> None /\ a_phi_sfc a <> None);
    ok_ext : a_extrapolate a = true -> a_variable a <> None }.

  (** the reasons for a ValueError before anything is computed *)
  Inductive bad_args (a : ihp_args T) : Prop :=
  | bad_no_variable : a_extrapolate a = true -> a_variable a = None -> bad_args a
  | bad_missing_field v : a_variable a = Some v -> v = "geopotential"%string \/ v = "temperature"%string ->
      a_t_bot a = None \/ a_phi_sfc a = None -> bad_args a
  | bad_variable v : a_variable a = Some v -> ~ In v ["geopotential"; "temperature"; "other"]%string -> bad_args a
  | bad_level : a_lev_dim a = None -> cf_name a = None -> bad_args a
  | bad_method : a_method a <> "linear"%string -> a_method a <> "log"%string -> bad_args a.

  (** all four are plain DataArrays, or all four of the (one) subclass *)
  Definition same_class (data ps hyam hybm : val T) : Prop :=
    (exists d p a b, data = VDa d /\ ps = VDa p /\ hyam = VDa a /\ hybm = VDa b) \/
    (exists d p a b, data = VSubDa d /\ ps = VSubDa p /\ hyam = VSubDa a /\ hybm = VSubDa b).

  Lemma one_type_spec data ps hyam hybm : reflect (same_class data ps hyam hybm) (one_type data ps hyam hybm).
  Proof.
    unfold one_type, same_class. destruct data, ps, hyam, hybm; cbn; constructor;
      first [left; do 4 eexists; repeat split; reflexivity | right; do 4 eexists; repeat split; reflexivity
            | intros [(?&?&?&?&?&?&?&?)|(?&?&?&?&?&?&?&?)]; discriminate].
  Qed.

  Lemma checks_ok data ps hyam hybm a l m : args_ok a l m -> same_class data ps hyam hybm ->
    ihp_checks data ps hyam hybm a = Ok (l, m).
  Proof.
    intros [Hl Hm Hv He] Hs. unfold ihp_checks. destruct (one_type_spec data ps hyam hybm); [|contradiction]. cbn [negb].
    assert (E1 : a_extrapolate a && is_none (a_variable a) = false).
    { destruct (a_extrapolate a); auto. destruct (a_variable a); auto. exfalso. apply He; auto. }
    rewrite E1.
    assert (E2 : var_needs_fields (a_variable a) && (is_none (a_t_bot a) || is_none (a_phi_sfc a)) = false).
    { destruct Hv as [->|[->|[Hv [Ht Hp]]]]; auto.
      destruct (a_t_bot a); [|congruence]. destruct (a_phi_sfc a); [|congruence]. apply andb_false_r. }
    rewrite E2.
    assert (E3 : var_known (a_variable a) = true).
    { destruct Hv as [->|[->|[[->| ->] _]]]; reflexivity. }
    rewrite E3. cbn [negb].
    assert (E4 : match a_lev_dim a with Some l => Ok l | None => oget ValueError (cf_name a) end = Ok l).
    { destruct Hl as [->|[-> ->]]; reflexivity. }
    rewrite E4. cbn [bind]. rewrite Hm. destruct m; reflexivity.
  Qed.

  Lemma checks_bad data ps hyam hybm a : bad_args a -> same_class data ps hyam hybm ->
    ihp_checks data ps hyam hybm a = Err ValueError.
  Proof.
    intros Hb Hs. unfold ihp_checks. destruct (one_type_spec data ps hyam hybm); [|contradiction]. cbn [negb].
    destruct (a_extrapolate a && is_none (a_variable a)) eqn:E1; auto.
    destruct (var_needs_fields (a_variable a) && (is_none (a_t_bot a) || is_none (a_phi_sfc a))) eqn:E2; auto.
    destruct (var_known (a_variable a)) eqn:E3; cbn [negb]; auto.
    destruct Hb as [H1 H2|v H1 H2 H3|v H1 H2|H1 H2|H1 H2].
    - rewrite H1, H2 in E1. discriminate.
    - rewrite H1 in E2. destruct H2 as [->| ->]; cbn in E2; destruct H3 as [H3|H3]; rewrite H3 in E2; cbn in E2;
        try discriminate; destruct (a_t_bot a); discriminate.
    - exfalso. apply H2. rewrite H1 in E3. cbn in E3. apply orb_true_iff in E3. destruct E3 as [E|E]; [apply String.eqb_eq in E; cbn; auto|].
      apply orb_true_iff in E. destruct E as [E|E]; [apply String.eqb_eq in E; cbn; auto|].
      apply orb_true_iff in E. destruct E as [E|E]; [apply String.eqb_eq in E; cbn; auto|discriminate].
    - rewrite H1, H2. reflexivity.
    - destruct (match a_lev_dim a with Some l => Ok l | None => oget ValueError (cf_name a) end) as [l|e] eqn:E4; cbn [bind].
      + unfold func_interpolate. destruct (String.eqb_spec (a_method a) "linear"); [congruence|].
        destruct (String.eqb_spec (a_method a) "log"); [congruence|]. reflexivity.
      + destruct (a_lev_dim a); [discriminate|]. destruct (cf_name a); cbn in E4; congruence.
  Qed.

  Lemma good_args a : ~ bad_args a -> exists l m, args_ok a l m.
  Proof.
    intros H.
    assert (Hl : exists l, a_lev_dim a = Some l \/ (a_lev_dim a = None /\ cf_name a = Some l)).
    { destruct (a_lev_dim a) as [l|] eqn:E1; [eauto|]. destruct (cf_name a) as [l|] eqn:E2; [eauto|].
      exfalso. apply H. apply bad_level; auto. }
    assert (Hm : exists m, a_method a = meth_name m).
    { destruct (string_dec (a_method a) "linear") as [->|n1]; [exists MLinear; auto|].
      destruct (string_dec (a_method a) "log") as [->|n2]; [exists MLog; auto|].
      exfalso. apply H. apply bad_method; auto. }
    destruct Hl as [l Hl], Hm as [m Hm]. exists l, m. constructor; auto.
    - destruct (a_variable a) as [v|] eqn:Ev; auto. right.
      destruct (in_dec string_dec v ["geopotential"; "temperature"; "other"]%string) as [Hin|Hin].
      + cbn in Hin. destruct Hin as [<-|[<-|[<-|[]]]]; auto; right; split; auto; split; intros E;
          apply H; eapply bad_missing_field; eauto.
      + exfalso. apply H. eapply bad_variable; eauto.
    - intros He Hv. apply H. apply bad_no_variable; auto.
  Qed.

  Lemma call_unfold data ps hyam hybm levels p0 a l m : args_ok a l m ->
    interp_hybrid_to_pressure (VDa data) (VDa ps) (VDa hyam) (VDa hybm) levels p0 a =
    ihp_compute l m data ps hyam hybm levels p0 a.
  Proof.
    intros H. unfold interp_hybrid_to_pressure. rewrite (checks_ok _ _ _ _ a l m H); [reflexivity|]. left. do 4 eexists. repeat split.
  Qed.

  (** ** chunk independence *)
  Definition same_arr (r1 r2 : res (arr T)) : Prop :=
    match r1, r2 with
    | Ok a, Ok b => shp a = shp b /\ forall i, inb (shp a) i -> get a i = get b i
    | Err e, Err e' => e = e'
    | _, _ => False
    end.
  (** same outcome: the same exception, or labelled arrays that agree everywhere *)
  Definition same_outcome (r1 r2 : res (da T)) : Prop :=
    match r1, r2 with
    | Ok a, Ok b => dims a = dims b /\ shp (dat a) = shp (dat b) /\ coords a = coords b /\ attrs a = attrs b /\
                    daname a = daname b /\ forall i, inb (shp (dat a)) i -> get (dat a) i = get (dat b) i
    | Err e, Err e' => e = e'
    | _, _ => False
    end.

  Lemma same_arr_refl r : same_arr r r.
  Proof. destruct r; cbn; auto. Qed.

  Lemma chunk_same m x (xp var : arr T) ax n cs :
    shp var = shp xp -> nth_error (shp xp) ax = Some n -> Forall (fun d => (0 < d)%nat) (shp xp) -> chunks_of cs (shp xp) ->
    same_arr (interp_nd m x xp var ax) (map_blocks (fun a b => interp_nd m x a b ax) cs ax (List.length x) xp var).
  Proof.
    intros Hsh Hax Hpos Hcs. destruct (interp_nd m x xp var ax) as [o|e] eqn:E.
    - assert (Hc : forall i, inb (shp xp) i -> exists r, colres m x xp var ax n i = Ok r).
      { intros i Hi. destruct (colres m x xp var ax n i) as [r|e'] eqn:Ec; eauto.
        assert (Ex : interp_nd m x xp var ax = Err (col_err x)) by (eapply interp_nd_err; eauto 6). congruence. }
      destruct (interp_nd_ok m x xp var ax n Hsh Hax Hpos Hc) as (o' & E' & So & Go).
      destruct (map_blocks_ok m x xp var ax n cs Hsh Hax Hpos Hcs Hc) as (b & Eb & Sb & Gb).
      rewrite Eb. assert (o = o') by congruence. subst. cbn. split; [congruence|].
      intros i Hi. rewrite Gb by congruence. apply Go.
    - pose proof E as E'. apply (interp_nd_err m x xp var ax n Hsh Hax Hpos) in E'. destruct E' as (He & i & Hi & e' & Ei).
      erewrite (map_blocks_err m x xp var ax n cs); cbn; eauto.
  Qed.

  (** the part of the computation after the interpolation itself *)
  Definition finish (lev : string) (ax : nat) (data ps pressure : da T) (levels : list T) (a : ihp_args T) (out : arr T) : res (da T) :=
    let ds := upd (dims data) ax "plev"%string in
    guard negb (if in_dec string_dec "plev"%string (dims data) then String.eqb lev "plev" else true) raise ValueError ;;
    let cs := out_coords lev levels (coords data) in
    guard negb (forallb (fun p => coord_ok ds (shp out) (snd p)) cs) raise ValueError ;;
    let output := mkDa ds out cs (attrs data) (daname data) in
    if a_extrapolate a
    then vertical_remap_extrap lev data output pressure ps (a_variable a) (a_t_bot a) (a_phi_sfc a)
    else Ok output.

  Lemma upd_nth_error {A} (l : list A) ax v k : nth_error (upd l ax v) k =
    if Nat.eqb k ax && Nat.ltb k (List.length l) then Some v else nth_error l k.
  Proof.
    revert ax k; induction l as [|x l IH]; intros ax k.
    - cbn. rewrite andb_false_r. destruct ax; reflexivity.
    - destruct ax, k; cbn; auto. rewrite IH. reflexivity.
  Qed.
  Lemma NoDup_upd ds ax (new : string) : NoDup ds -> ~ In new ds \/ nth_error ds ax = Some new -> NoDup (upd ds ax new).
  Proof.
    intros Hn H. apply NoDup_nth_error. intros i j Hi E. rewrite upd_length in Hi.
    rewrite !upd_nth_error in E.
    destruct (Nat.eqb_spec i ax) as [->|Hia]; destruct (Nat.eqb_spec j ax) as [->|Hja]; auto; cbn [andb] in E.
    - destruct (Nat.ltb_spec ax (List.length ds)); [|lia]. exfalso. symmetry in E. destruct H as [H|H].
      + apply H. eapply nth_error_In; eauto.
      + apply Hja. eapply (proj1 (NoDup_nth_error ds)); eauto; [apply nth_error_Some; congruence|congruence].
    - destruct (Nat.ltb_spec ax (List.length ds)).
      + exfalso. destruct H as [H|H].
        * apply H. eapply nth_error_In; eauto.
        * apply Hia. eapply (proj1 (NoDup_nth_error ds)); eauto. congruence.
      + rewrite (proj2 (nth_error_None ds ax)) in E by lia. apply nth_error_None in E. lia.
    - eapply (proj1 (NoDup_nth_error ds)); eauto.
  Qed.

  Lemma finish_same lev ax data ps pressure levels a o1 o2 : NoDup (dims data) -> sindex lev (dims data) = Some ax ->
    List.length (shp o1) = List.length (dims data) -> same_arr (Ok o1) (Ok o2) ->
    same_outcome (finish lev ax data ps pressure levels a o1) (finish lev ax data ps pressure levels a o2).
  Proof.
    intros Hn Hax Hl [Hs Hg]. unfold finish. rewrite <- Hs.
    assert (Hnd : negb (if in_dec string_dec "plev"%string (dims data) then String.eqb lev "plev" else true) = false ->
                  NoDup (upd (dims data) ax "plev"%string)).
    { intros Hp. apply NoDup_upd; auto. destruct (in_dec string_dec "plev"%string (dims data)) as [Hi|Hi]; [|auto].
      apply negb_false_iff, String.eqb_eq in Hp. subst. right. apply sindex_Some. auto. }
    destruct (negb _) eqn:Ep; [cbn; auto|]. specialize (Hnd eq_refl).
    destruct (negb (forallb _ _)); [cbn; auto|].
    destruct (a_extrapolate a); [|cbn; repeat split; auto].
    unfold vertical_remap_extrap. destruct (sfc_index pressure lev) as [k|e]; cbn [bind]; [|cbn; auto].
    cbn [coords]. destruct (slookup "plev" (out_coords lev levels (coords data))) as [plev|]; cbn [oget bind]; [|cbn; auto].
    assert (F : forall d : da T, fits d (mkDa (upd (dims data) ax "plev"%string) o1 (out_coords lev levels (coords data)) (attrs data) (daname data))
           = fits d (mkDa (upd (dims data) ax "plev"%string) o2 (out_coords lev levels (coords data)) (attrs data) (daname data))).
    { intros d. unfold fits, sizes_agree, labels_agree, dsize, index_labels. cbn [dims dat coords]. rewrite Hs. reflexivity. }
    assert (Ff : forall fs, forallb (fun d => fits d (mkDa (upd (dims data) ax "plev"%string) o1 (out_coords lev levels (coords data)) (attrs data) (daname data))) fs
           = forallb (fun d => fits d (mkDa (upd (dims data) ax "plev"%string) o2 (out_coords lev levels (coords data)) (attrs data) (daname data))) fs).
    { induction fs; cbn [forallb]; auto. rewrite F. f_equal. auto. }
    rewrite Ff. match goal with |- same_outcome (if ?c then _ else _) _ => destruct c; [cbn; auto|] end. cbn [same_outcome dims dat shp coords attrs daname get].
    repeat split; auto. intros i Hi.
    assert (G : getn (mkDa (upd (dims data) ax "plev"%string) o1 (out_coords lev levels (coords data)) (attrs data) (daname data))
                  (env_of (upd (dims data) ax "plev"%string) i)
              = getn (mkDa (upd (dims data) ax "plev"%string) o2 (out_coords lev levels (coords data)) (attrs data) (daname data))
                  (env_of (upd (dims data) ax "plev"%string) i)).
    { unfold getn. cbn [dims dat]. rewrite map_env_of; auto. rewrite upd_length, <- Hl. apply inb_length in Hi. auto. }
    cbv zeta. rewrite G. reflexivity.
  Qed.

  Lemma c16_lemma data ps hyam hybm l lb ax n levels p0 a a' m : ihp_wf data ps hyam hybm l lb ax n ->
    args_ok a l m ->
    a_method a' = a_method a -> a_lev_dim a' = a_lev_dim a -> a_extrapolate a' = a_extrapolate a ->
    a_variable a' = a_variable a -> a_t_bot a' = a_t_bot a -> a_phi_sfc a' = a_phi_sfc a -> cf_name a' = cf_name a ->
    chunks_ok a (shp (dat data)) -> chunks_ok a' (shp (dat data)) ->
    same_outcome (interp_hybrid_to_pressure (VDa data) (VDa ps) (VDa hyam) (VDa hybm) levels p0 a)
                 (interp_hybrid_to_pressure (VDa data) (VDa ps) (VDa hyam) (VDa hybm) levels p0 a').
  Proof.
    intros W Ha E1 E2 E3 E4 E5 E6 E7 C C'.
    assert (Ha' : args_ok a' l m).
    { destruct Ha. constructor; rewrite ?E1, ?E2, ?E3, ?E4, ?E5, ?E6, ?E7; auto. }
    rewrite (call_unfold _ _ _ _ _ _ _ _ _ Ha), (call_unfold _ _ _ _ _ _ _ _ _ Ha').
    destruct (pressure_step _ _ _ _ _ _ _ _ p0 W) as (w & r & pressure & Ep & Et & Dp & Sp & _ & _ & _).
    pose proof (w_data _ _ _ _ _ _ _ _ W) as [Wl Wn].
    assert (Hsh : shp (dat data) = shp (dat pressure)) by auto.
    assert (Hax : nth_error (shp (dat pressure)) ax = Some n) by (rewrite Sp; apply (w_n _ _ _ _ _ _ _ _ W)).
    assert (Hpos : Forall (fun d => 0 < d)%nat (shp (dat pressure))) by (rewrite Sp; apply (w_pos _ _ _ _ _ _ _ _ W)).
    set (whole := interp_nd m levels (dat pressure) (dat data) ax).
    assert (K : forall b, chunks_ok b (shp (dat data)) -> exists o, same_arr whole o /\
              ihp_compute l m data ps hyam hybm levels p0 b = do out <- o ;; finish l ax data ps pressure levels b out).
    { intros b Cb. unfold chunks_ok in Cb. unfold ihp_compute.
      rewrite (w_ax _ _ _ _ _ _ _ _ W). cbn [oget bind]. rewrite Ep. cbn [bind snd]. rewrite Et. cbn [bind].
      destruct (chunks b) as [cs|].
      - destruct ((negb (is_none (Some cs)) || other_dask b) && negb (Nat.eqb (List.length (nth ax cs [])) 1 && mb_ok b)).
        + destruct (shape_eqb_spec (shp (dat pressure)) (shp (dat data))); [|contradiction]. cbn [negb].
          eexists. split; [|reflexivity]. apply (chunk_same _ _ _ _ _ n); auto. rewrite Sp. auto.
        + eexists. split; [|reflexivity]. apply same_arr_refl.
      - rewrite Cb. cbn [is_none negb orb andb]. eexists. split; [|reflexivity]. apply same_arr_refl. }
    destruct (K a C) as (o & So & ->). destruct (K a' C') as (o' & So' & ->).
    assert (Ef : forall out, finish l ax data ps pressure levels a' out = finish l ax data ps pressure levels a out).
    { intros out. unfold finish. rewrite E3, E4, E5, E6. reflexivity. }
    destruct whole as [wh|e] eqn:Ew; destruct o as [o|eo]; destruct o' as [o'|eo']; cbn in So, So'; try contradiction; cbn [bind].
    - rewrite Ef. destruct So as [S1 G1], So' as [S2 G2].
      apply finish_same; auto; [apply (w_ax _ _ _ _ _ _ _ _ W)| |].
      + unfold whole in Ew. rewrite (interp_nd_unfold m levels _ _ ax n) in Ew by auto.
        destruct (mapM _ _); [|discriminate]. injection Ew as <-. rewrite <- S1. cbn [shp]. rewrite upd_length. congruence.
      + split; [congruence|]. intros i Hi. rewrite <- G1, <- G2; congruence.
    - cbn. congruence.
  Qed.

  (** ** errors *)
  Lemma c21_type data ps hyam hybm levels p0 a : ~ same_class data ps hyam hybm ->
    interp_hybrid_to_pressure data ps hyam hybm levels p0 a = Err TypeError.
  Proof.
    intros H. unfold interp_hybrid_to_pressure, ihp_checks. destruct (one_type_spec data ps hyam hybm); [contradiction|].
    reflexivity.
  Qed.
  Lemma c21_value data ps hyam hybm levels p0 a : same_class data ps hyam hybm -> bad_args a ->
    interp_hybrid_to_pressure data ps hyam hybm levels p0 a = Err ValueError.
  Proof. intros H Hb. unfold interp_hybrid_to_pressure. rewrite checks_bad; auto. Qed.
End Api.
