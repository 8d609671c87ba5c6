(** Proofs about [InterpHyb]: what a well-formed call returns. *)
From Coq Require Import Reals List Bool Arith ZArith Lra Lia String Permutation.
From Verif Require Import PyBase PyFacts Num NumFacts Arr ArrFacts XrFacts Hybrid HybridFacts Interp1d InterpHyb ChunkFacts.
Import ListNotations.

Section Facts.
  Context {T : Type} {N : Num T}.
  Local Open Scope num_scope.

  (** A well-formed call: [l] names the level dimension of [data] (axis [ax], n levels), hyam and
      hybm are 1-D of that length, ps has data's other dimensions in any order, and the remaining
      coordinates of data do not depend on the level. *)
  Record ihp_wf (data ps hyam hybm : da T) (l lb : string) (ax n : nat) : Prop := {
    w_data : wf_da data;
    w_ax : sindex l (dims data) = Some ax;
    w_n : nth_error (shp (dat data)) ax = Some n;
    w_pos : Forall (fun d => 0 < d)%nat (shp (dat data));
    w_da : dims hyam = [l]; w_db : dims hybm = [lb];
    w_sa : shp (dat hyam) = [n]; w_sb : shp (dat hybm) = [n];
    w_ps : wf_da ps;
    w_perm : Permutation (l :: dims ps) (dims data);
    w_sizes : forall d, In d (dims ps) -> dsize ps d = dsize data d;
    w_c1 : slookup l (coords ps) = None;
    w_c2 : wf_coords hybm;
    w_c3 : l <> lb -> slookup l (coords hybm) = None;
    w_lab : same_labels (index_labels hyam l) (index_labels hybm lb);
    w_plev : ~ In "plev"%string (dims data) \/ l = "plev"%string;
    w_coords : forall c, In c (coords data) -> fst c <> l ->
      forall d k, In (d, k) (combine (cdims (snd c)) (shp (cdat (snd c)))) -> d <> l /\ dsize data d = Some k }.

  Lemma sindex_nth l ds ax : sindex l ds = Some ax -> (ax < List.length ds)%nat /\ nth ax ds l = l.
  Proof.
    intros H. pose proof (sindex_Some _ _ _ H) as E. split; [apply nth_error_Some; congruence|].
    apply nth_error_nth. auto.
  Qed.
  Lemma sindex_nth_nodup ds j d : NoDup ds -> (j < List.length ds)%nat -> sindex (nth j ds d) ds = Some j.
  Proof.
    intros Hn Hj. destruct (sindex_In (nth j ds d) ds (nth_In _ _ Hj)) as (k & E & Hk & Ek).
    rewrite E. f_equal. rewrite NoDup_nth with (d := d) in Hn. apply Hn; auto.
    rewrite (nth_indep _ d (nth j ds d)); auto.
  Qed.
  Lemma env_of_upd ds i ax k d : NoDup ds -> List.length i = List.length ds ->
    env_of ds (upd i ax k) d = if (match sindex d ds with Some j => Nat.eqb j ax | None => false end) then k else env_of ds i d.
  Proof.
    intros Hn Hl. unfold env_of. destruct (sindex d ds) as [j|] eqn:E; auto. rewrite nth_upd.
    destruct (Nat.eqb_spec j ax) as [->|]; auto. cbn [andb].
    destruct (Nat.ltb_spec ax (List.length i)); auto. apply sindex_nth in E. lia.
  Qed.

  (** the surface value above position [i] of the data's dimensions *)
  Definition surf (ps : da T) (ds : list string) (i : list nat) : T := getn ps (env_of ds i).
  Lemma surf_upd data ps hyam hybm l lb ax n i k : ihp_wf data ps hyam hybm l lb ax n ->
    List.length i = List.length (dims data) ->
    surf ps (dims data) (upd i ax k) = surf ps (dims data) i.
  Proof.
    intros W Hi. unfold surf. apply getn_ext. intros d Hd.
    rewrite env_of_upd by (auto; apply (w_data _ _ _ _ _ _ _ _ W)).
    destruct (sindex d (dims data)) as [j|] eqn:E; auto. destruct (Nat.eqb_spec j ax) as [->|]; auto.
    exfalso. apply sindex_Some in E. pose proof (sindex_Some _ _ _ (w_ax _ _ _ _ _ _ _ _ W)) as E2.
    assert (d = l) by congruence. subst.
    assert (Hnd : NoDup (l :: dims ps)).
    { eapply Permutation_NoDup; [apply Permutation_sym, (w_perm _ _ _ _ _ _ _ _ W)|apply (w_data _ _ _ _ _ _ _ _ W)]. }
    inversion Hnd; auto.
  Qed.

  (** pressure on the data's grid *)
  Lemma pressure_step data ps hyam hybm l lb ax n p0 : ihp_wf data ps hyam hybm l lb ax n ->
    exists w r pressure, pressure_at_hybrid_levels (VDa ps) (VDa hyam) (VDa hybm) p0 = Ok (w, VDa r) /\
      xr_transpose (dims data) r = Ok pressure /\ dims pressure = dims data /\ shp (dat pressure) = shp (dat data) /\
      (forall L, index_labels hyam l = Some L -> index_labels pressure l = Some L) /\
      (slookup l (coords hyam) = None -> slookup lb (coords hybm) = None -> index_labels pressure l = None) /\
      forall i, List.length i = List.length (dims data) ->
        get (dat pressure) i = get (dat hyam) [nth ax i 0%nat] * p0 + get (dat hybm) [nth ax i 0%nat] * surf ps (dims data) i.
  Proof.
    intros W. pose proof (w_data _ _ _ _ _ _ _ _ W) as [Wl Wn]. pose proof (w_ps _ _ _ _ _ _ _ _ W) as [Pl Pn].
    pose proof (w_perm _ _ _ _ _ _ _ _ W) as Wp.
    assert (Hnd : NoDup (l :: dims ps)) by (eapply Permutation_NoDup; [apply Permutation_sym, Wp|auto]).
    assert (Hl : ~ In l (dims ps)) by (inversion Hnd; auto).
    destruct (pressure_xr_spec ps hyam hybm p0 l lb n) as (r & E & Dr & Sr & Gr);
      [apply (w_da _ _ _ _ _ _ _ _ W)|apply (w_db _ _ _ _ _ _ _ _ W)|apply (w_sa _ _ _ _ _ _ _ _ W)
      |apply (w_sb _ _ _ _ _ _ _ _ W)|split; auto|auto|apply (w_c1 _ _ _ _ _ _ _ _ W)|apply (w_c2 _ _ _ _ _ _ _ _ W)
      |apply (w_c3 _ _ _ _ _ _ _ _ W)|apply (w_lab _ _ _ _ _ _ _ _ W)|].
    eexists _, r, _. split.
    { unfold pressure_at_hybrid_levels. cbn -[pressure_xr].
      rewrite (w_sa _ _ _ _ _ _ _ _ W), (w_sb _ _ _ _ _ _ _ _ W).
      destruct (shape_eqb_spec [n] [n]); [|contradiction]. cbn -[pressure_xr]. rewrite E. reflexivity. }
    split.
    { unfold xr_transpose. assert (S : same_names (dims data) (dims r) = true).
      { unfold same_names. rewrite Dr. apply andb_true_iff; split; [apply andb_true_iff; split|].
        - apply Nat.eqb_eq. apply Permutation_length. symmetry. auto.
        - apply forallb_forall. intros d Hd. apply smem_In. eapply Permutation_in; [symmetry; apply Wp|auto].
        - apply forallb_forall. intros d Hd. apply smem_In. eapply Permutation_in; [apply Wp|auto]. }
      rewrite S. reflexivity. }
    cbn [dims dat coords shp get]. split; auto. split.
    { etransitivity; [|apply (map_dsize data); auto]. apply map_ext_in. intros d Hd.
      apply (Permutation_in _ (Permutation_sym Wp)) in Hd. destruct Hd as [<-|Hd].
      - unfold dsize at 1. rewrite Dr, Sr. cbn. rewrite String.eqb_refl. cbn.
        unfold dsize. rewrite (w_ax _ _ _ _ _ _ _ _ W), (w_n _ _ _ _ _ _ _ _ W). reflexivity.
      - rewrite <- (w_sizes _ _ _ _ _ _ _ _ W d Hd). unfold dsize. rewrite Dr, Sr. cbn.
        destruct (String.eqb_spec d l) as [->|]; [contradiction|]. destruct (sindex d (dims ps)); reflexivity. }
    assert (Lab := pressure_xr_labels ps hyam hybm r p0 l lb n _ (w_da _ _ _ _ _ _ _ _ W) (w_db _ _ _ _ _ _ _ _ W)
      (w_sa _ _ _ _ _ _ _ _ W) (w_sb _ _ _ _ _ _ _ _ W) (conj Pl Pn) Hl (w_c1 _ _ _ _ _ _ _ _ W) (w_c2 _ _ _ _ _ _ _ _ W)
      (w_c3 _ _ _ _ _ _ _ _ W) (w_lab _ _ _ _ _ _ _ _ W) E).
    destruct Lab as [Lab1 Lab2]. split; [exact Lab1|]. split; [exact Lab2|].
    intros i Hi. unfold getn. rewrite Dr. cbn [map].
    assert (El : env_of (dims data) i l = nth ax i 0%nat) by (unfold env_of; rewrite (w_ax _ _ _ _ _ _ _ _ W); auto).
    rewrite Gr by (rewrite map_length; auto). rewrite El. reflexivity.
  Qed.

  (** hybrid pressures of the column through [i] *)
  Definition hyb_col (hyam hybm : da T) (p0 ps : T) (n : nat) : list T :=
    map (fun k => get (dat hyam) [k] * p0 + get (dat hybm) [k] * ps) (seq 0 n).

  Lemma pressure_col data ps hyam hybm l lb ax n p0 (pressure : da T) i : ihp_wf data ps hyam hybm l lb ax n ->
    (forall i, List.length i = List.length (dims data) ->
        get (dat pressure) i = get (dat hyam) [nth ax i 0%nat] * p0 + get (dat hybm) [nth ax i 0%nat] * surf ps (dims data) i) ->
    List.length i = List.length (dims data) ->
    col_at (dat pressure) ax i n = hyb_col hyam hybm p0 (surf ps (dims data) i) n.
  Proof.
    intros W G Hi. unfold col_at, hyb_col. apply map_ext. intros k.
    rewrite G by (rewrite upd_length; auto). rewrite (surf_upd _ _ _ _ _ _ _ _ _ _ W) by auto.
    assert (E : nth ax (upd i ax k) 0%nat = k).
    { rewrite nth_upd, Nat.eqb_refl. replace (Nat.ltb ax (List.length i)) with true; auto.
      symmetry. apply Nat.ltb_lt. rewrite Hi. apply (sindex_nth _ _ _ (w_ax _ _ _ _ _ _ _ _ W)). }
    rewrite E. reflexivity.
  Qed.

  Definition chunks_ok (a : ihp_args T) (s : list nat) : Prop :=
    match chunks a with Some cs => chunks_of cs s | None => other_dask a = false end.

  Lemma coord_ok_sset ds s x c cs : coord_ok ds s c = true -> forallb (fun p => coord_ok ds s (snd p)) cs = true ->
    forallb (fun p : string * coordv T => coord_ok ds s (snd p)) (sset x c cs) = true.
  Proof.
    intros Hc. induction cs as [|[k w] cs IH]; cbn; [rewrite Hc; auto|]. intros H. apply andb_true_iff in H.
    destruct H as [H1 H2]. destruct (String.eqb x k); cbn; [rewrite Hc; auto|rewrite H1; auto].
  Qed.
  Lemma out_coords_ok ds s l levels cs :
    coord_ok ds s (plev_coord levels) = true ->
    (forall c, In c cs -> fst c <> l -> coord_ok ds s (snd c) = true) ->
    forallb (fun p => coord_ok ds s (snd p)) (out_coords l levels cs) = true.
  Proof.
    intros Hp Hc. unfold out_coords.
    assert (G : forall cs acc, (forall c, In c cs -> fst c <> l -> coord_ok ds s (snd c) = true) ->
       forallb (fun p : string * coordv T => coord_ok ds s (snd p)) acc = true ->
       forallb (fun p => coord_ok ds s (snd p))
         (fold_left (fun acc p => if String.eqb (fst p) l then sset "plev"%string (plev_coord levels) acc
                            else sset (fst p) (snd p) acc) cs acc) = true).
    { clear cs Hc. induction cs as [|c cs IH]; intros acc Hc Ha; cbn; auto. apply IH.
      - intros; apply Hc; cbn; auto.
      - destruct (String.eqb_spec (fst c) l); apply coord_ok_sset; auto. apply Hc; cbn; auto. }
    apply G; auto.
  Qed.

  Lemma sindex_upd_neq ds ax l d new : NoDup ds -> sindex l ds = Some ax -> d <> l -> d <> new ->
    sindex d (upd ds ax new) = sindex d ds.
  Proof.
    revert ax; induction ds as [|x ds IH]; intros ax Hn Hax Hdl Hdn; cbn in *; auto.
    inversion Hn as [|? ? Hx Hn']; subst. destruct (String.eqb_spec l x) as [->|Hlx].
    - injection Hax as <-. cbn. destruct (String.eqb_spec d new); [congruence|].
      destruct (String.eqb_spec d x); [congruence|]. reflexivity.
    - destruct (sindex l ds) as [k|] eqn:E; [|discriminate]. injection Hax as <-. cbn.
      destruct (String.eqb_spec d x); auto. rewrite (IH k) by auto. reflexivity.
  Qed.
  Lemma sindex_upd_new ds ax l new : NoDup ds -> sindex l ds = Some ax -> ~ In new ds \/ l = new ->
    sindex new (upd ds ax new) = Some ax.
  Proof.
    revert ax; induction ds as [|x ds IH]; intros ax Hn Hax Hd; cbn in *; [discriminate|].
    inversion Hn as [|? ? Hx Hn']; subst. destruct (String.eqb_spec l x) as [->|Hlx].
    - injection Hax as <-. cbn. rewrite String.eqb_refl. reflexivity.
    - destruct (sindex l ds) as [k|] eqn:E; [|discriminate]. injection Hax as <-. cbn.
      destruct (String.eqb_spec new x) as [->|].
      + exfalso. destruct Hd as [Hd| ->]; [apply Hd; auto|congruence].
      + rewrite (IH k) by (auto; destruct Hd; auto). reflexivity.
  Qed.

  (** The core: every well-formed call succeeds before extrapolation, whatever the chunking, and the
      value at an output position is the column routine's. *)
  Lemma ihp_core data ps hyam hybm l lb ax n levels p0 a m : ihp_wf data ps hyam hybm l lb ax n ->
    levels <> [] -> (2 <= n)%nat -> chunks_ok a (shp (dat data)) ->
    exists pressure out,
      dims pressure = dims data /\ shp (dat pressure) = shp (dat data) /\
      (forall i, List.length i = List.length (dims data) ->
        get (dat pressure) i = get (dat hyam) [nth ax i 0%nat] * p0 + get (dat hybm) [nth ax i 0%nat] * surf ps (dims data) i) /\
      (forall L, index_labels hyam l = Some L -> index_labels pressure l = Some L) /\
      (slookup l (coords hyam) = None -> slookup lb (coords hybm) = None -> index_labels pressure l = None) /\
      dims out = upd (dims data) ax "plev"%string /\
      shp (dat out) = upd (shp (dat data)) ax (List.length levels) /\
      coords out = out_coords l levels (coords data) /\ attrs out = attrs data /\ daname out = daname data /\
      (forall i, inb (shp (dat out)) i -> exists r,
         interp_with m levels (hyb_col hyam hybm p0 (surf ps (dims data) i) n) (col_at (dat data) ax i n) = Ok r /\
         get (dat out) i = nth (nth ax i 0%nat) r nnan) /\
      forall a', chunks a' = chunks a -> other_dask a' = other_dask a -> mb_ok a' = mb_ok a ->
      ihp_compute l m data ps hyam hybm levels p0 a' =
        (if a_extrapolate a'
         then vertical_remap_extrap l data out pressure ps (a_variable a') (a_t_bot a') (a_phi_sfc a')
         else Ok out).
  Proof.
    intros W Hlv Hn Hck. destruct (pressure_step _ _ _ _ _ _ _ _ p0 W) as (w & r & pressure & Ep & Et & Dp & Sp & Lp1 & Lp2 & Gp).
    pose proof (w_data _ _ _ _ _ _ _ _ W) as [Wl Wn].
    assert (Hcol : forall i, inb (shp (dat pressure)) i -> exists r, colres m levels (dat pressure) (dat data) ax n i = Ok r).
    { intros i _. unfold colres. apply interp_with_ok; rewrite ?col_at_length; auto. }
    assert (Hsh : shp (dat data) = shp (dat pressure)) by auto.
    assert (Hax : nth_error (shp (dat pressure)) ax = Some n) by (rewrite Sp; apply (w_n _ _ _ _ _ _ _ _ W)).
    assert (Hpos : Forall (fun d => 0 < d)%nat (shp (dat pressure))) by (rewrite Sp; apply (w_pos _ _ _ _ _ _ _ _ W)).
    (* both ways of computing agree *)
    set (mb_done := match chunks a with Some cs => Nat.eqb (List.length (nth ax cs [])) 1 && mb_ok a | None => false end).
    set (in_dask := negb (is_none (chunks a)) || other_dask a).
    assert (Hout : exists o, (if in_dask && negb mb_done then
                     match chunks a with
                     | None => Err TypeError
                     | Some cs =>
                         guard negb (shape_eqb (shp (dat pressure)) (shp (dat data))) raise ValueError ;;
                         map_blocks (fun xp v => interp_nd m levels xp v ax) cs ax (List.length levels)
                           (dat pressure) (dat data)
                     end
                   else interp_nd m levels (dat pressure) (dat data) ax) = Ok o /\
              shp o = upd (shp (dat data)) ax (List.length levels) /\
              forall i, inb (upd (shp (dat data)) ax (List.length levels)) i ->
                get o i = match colres m levels (dat pressure) (dat data) ax n i with Ok r => nth (nth ax i 0%nat) r nnan | Err _ => nnan end).
    { destruct (interp_nd_ok m levels (dat pressure) (dat data) ax n Hsh Hax Hpos Hcol) as (o & Eo & So & Go).
      rewrite Sp in So. unfold chunks_ok in Hck. destruct (chunks a) as [cs|] eqn:Ec.
      - destruct (in_dask && negb mb_done).
        + destruct (shape_eqb_spec (shp (dat pressure)) (shp (dat data))); [|contradiction]. cbn [negb].
          destruct (map_blocks_ok m levels (dat pressure) (dat data) ax n cs Hsh Hax Hpos) as (o' & Eo' & So' & Go');
            [rewrite Sp; auto|auto|].
          exists o'. rewrite Sp in So', Go'. split; auto.
        + exists o. split; auto.
      - unfold in_dask. cbn. rewrite Hck. cbn. exists o. split; auto. }
    destruct Hout as (o & Eo & So & Go).
    exists pressure, (mkDa (upd (dims data) ax "plev"%string) o (out_coords l levels (coords data)) (attrs data) (daname data)).
    split; auto. split; auto. split; auto. split; auto. split; auto. cbn [dims dat coords attrs daname].
    split; auto. split; auto. split; auto. split; auto. split; auto. split.
    { intros i Hi. rewrite So in Hi.
      assert (Li : List.length i = List.length (dims data)).
      { apply inb_length in Hi. rewrite upd_length in Hi. congruence. }
      rewrite Go by auto. unfold colres. rewrite (pressure_col _ _ _ _ _ _ _ _ _ _ i W Gp Li).
      destruct (interp_with_ok m levels (hyb_col hyam hybm p0 (surf ps (dims data) i) n) (col_at (dat data) ax i n)) as [r' Er]; auto.
      { unfold hyb_col. rewrite map_length, seq_length. auto. }
      { unfold hyb_col. rewrite map_length, seq_length, col_at_length. auto. }
      rewrite Er. eauto. }
    intros a' C1 C2 C3.
    unfold ihp_compute. rewrite (w_ax _ _ _ _ _ _ _ _ W). cbn [oget bind]. rewrite Ep. cbn [bind snd]. rewrite Et. cbn [bind].
    rewrite C1, C2, C3. fold mb_done. fold in_dask. rewrite Eo. cbn [bind].
    assert (Hpl : negb (if in_dec string_dec "plev"%string (dims data) then String.eqb l "plev" else true) = false).
    { destruct (in_dec string_dec "plev"%string (dims data)) as [Hin|]; auto.
      destruct (w_plev _ _ _ _ _ _ _ _ W) as [Hp| ->]; [contradiction|reflexivity]. }
    rewrite Hpl.
    assert (Hco : forallb (fun p => coord_ok (upd (dims data) ax "plev"%string) (shp o) (snd p)) (out_coords l levels (coords data)) = true).
    { assert (Lax : (ax < List.length (shp (dat data)))%nat) by (apply nth_error_Some; rewrite (w_n _ _ _ _ _ _ _ _ W); discriminate).
      apply out_coords_ok.
      - unfold coord_ok, plev_coord. cbn. rewrite (sindex_upd_new _ _ l); auto; [|apply (w_ax _ _ _ _ _ _ _ _ W)|apply (w_plev _ _ _ _ _ _ _ _ W)].
        rewrite So, nth_upd, Nat.eqb_refl. replace (Nat.ltb ax (List.length (shp (dat data)))) with true by (symmetry; apply Nat.ltb_lt; auto).
        cbn. rewrite Nat.eqb_refl. reflexivity.
      - intros c Hc Hne. unfold coord_ok. apply forallb_forall. intros [d k] Hdk. cbn [fst snd].
        destruct (w_coords _ _ _ _ _ _ _ _ W c Hc Hne d k Hdk) as [H1 H2].
        unfold dsize in H2. destruct (sindex d (dims data)) as [j|] eqn:Ej; [|discriminate].
        assert (Hdp : d <> "plev"%string).
        { intros ->. destruct (w_plev _ _ _ _ _ _ _ _ W) as [Hp|Hp]; [|congruence].
          apply Hp. eapply nth_error_In. apply sindex_Some. eauto. }
        rewrite (sindex_upd_neq _ _ l) by (auto; apply (w_ax _ _ _ _ _ _ _ _ W)). rewrite Ej.
        rewrite So, nth_upd. destruct (Nat.eqb_spec j ax) as [->|].
        + exfalso. apply H1. apply sindex_Some in Ej. pose proof (sindex_Some _ _ _ (w_ax _ _ _ _ _ _ _ _ W)). congruence.
        + cbn [andb]. apply Nat.eqb_eq. apply nth_error_nth. auto. }
    rewrite Hco. reflexivity.
  Qed.
End Facts.
