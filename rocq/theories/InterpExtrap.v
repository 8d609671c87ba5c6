(** interp_hybrid_to_pressure with extrapolate=True. *)
From Coq Require Import Reals List Bool Arith ZArith Lra Lia String Permutation.
From Verif Require Import PyBase PyFacts Num NumFacts Arr ArrFacts XrFacts Spec Hybrid HybridFacts Interp1d Interp1dFacts InterpHyb ChunkFacts
  InterpHybFacts InterpColumn InterpApi InterpProps ExtrapFacts.
Import ListNotations.
Local Open Scope R_scope.

Section OutCoords.
  Context {T : Type} {N : Num T}.
  Definition okey (l : string) (p : string * coordv T) : string := if String.eqb (fst p) l then "plev"%string else fst p.
  Definition oval (l : string) (levels : list T) (p : string * coordv T) : coordv T :=
    if String.eqb (fst p) l then plev_coord levels else snd p.

  Lemma slookup_sset {A} x k (v : A) cs : slookup x (sset k v cs) = if String.eqb x k then Some v else slookup x cs.
  Proof.
    induction cs as [|[k' w] cs IH]; cbn.
    - destruct (String.eqb x k); reflexivity.
    - destruct (String.eqb_spec k k') as [->|Hk]; cbn.
      + destruct (String.eqb_spec x k'); reflexivity.
      + destruct (String.eqb_spec x k') as [->|]; auto. destruct (String.eqb_spec k' k); [congruence|reflexivity].
  Qed.

  Definition ostep (l : string) (levels : list T) (acc : list (string * coordv T)) (p : string * coordv T) :=
    if String.eqb (fst p) l then sset "plev"%string (plev_coord levels) acc else sset (fst p) (snd p) acc.
  Lemma ostep_eq l levels acc p : ostep l levels acc p = sset (okey l p) (oval l levels p) acc.
  Proof. unfold ostep, okey, oval. destruct (String.eqb (fst p) l); reflexivity. Qed.

  Lemma ofold_notin l levels cs acc x : ~ In x (map (okey l) cs) ->
    slookup x (fold_left (ostep l levels) cs acc) = slookup x acc.
  Proof.
    revert acc; induction cs as [|p cs IH]; intros acc H; cbn [fold_left]; auto.
    rewrite IH by (intros Hi; apply H; cbn; auto). rewrite ostep_eq, slookup_sset.
    destruct (String.eqb_spec x (okey l p)) as [->|]; auto. exfalso. apply H. cbn; auto.
  Qed.
  Lemma ofold_in l levels cs acc p : NoDup (map (okey l) cs) -> In p cs ->
    slookup (okey l p) (fold_left (ostep l levels) cs acc) = Some (oval l levels p).
  Proof.
    revert acc; induction cs as [|q cs IH]; intros acc Hn Hi; [contradiction|]. cbn [map] in Hn.
    inversion Hn as [|? ? Hq Hn']; subst. cbn [fold_left]. destruct Hi as [->|Hi]; auto.
    rewrite ofold_notin by auto. rewrite ostep_eq, slookup_sset, String.eqb_refl. reflexivity.
  Qed.

  Lemma out_coords_fold l levels cs : out_coords l levels cs = fold_left (ostep l levels) cs [].
  Proof. reflexivity. Qed.

  Lemma okey_nodup l (cs : list (string * coordv T)) : NoDup (map fst cs) ->
    ~ In "plev"%string (map fst cs) \/ l = "plev"%string -> NoDup (map (okey l) cs).
  Proof.
    intros Hn Hp. induction cs as [|q cs IH]; cbn; [constructor|]. inversion Hn as [|? ? Hq Hn']; subst.
    constructor; [|apply IH; auto; destruct Hp as [Hp|]; auto; left; intros Hi; apply Hp; cbn; auto].
    rewrite in_map_iff. intros (p & E & Hi). unfold okey in E.
    assert (Hpi : In (fst p) (map fst cs)) by (apply in_map; auto).
    destruct (String.eqb_spec (fst p) l) as [E1|E1]; destruct (String.eqb_spec (fst q) l) as [E2|E2].
    - apply Hq. rewrite E2, <- E1. auto.
    - destruct Hp as [Hp| ->]; [|congruence]. apply Hp. cbn. auto.
    - destruct Hp as [Hp| ->]; [|congruence]. apply Hp. cbn. right. rewrite <- E. auto.
    - apply Hq. rewrite <- E. auto.
  Qed.

  Lemma slookup_unique {A} x (v : A) cs : NoDup (map fst cs) -> In (x, v) cs -> slookup x cs = Some v.
  Proof.
    induction cs as [|[k w] cs IH]; intros Hn Hi; [contradiction|]. cbn [map fst] in Hn. inversion Hn as [|? ? Hk Hn']; subst.
    cbn. destruct Hi as [E|Hi].
    - injection E as -> ->. rewrite String.eqb_refl. reflexivity.
    - destruct (String.eqb_spec x k) as [->|]; auto. exfalso. apply Hk. apply (in_map fst) in Hi. auto.
  Qed.
  Lemma slookup_None {A} x (cs : list (string * A)) : slookup x cs = None -> ~ In x (map fst cs).
  Proof.
    induction cs as [|[k w] cs IH]; cbn; auto. destruct (String.eqb_spec x k) as [->|]; [discriminate|].
    intros H [E|E]; [congruence|]. apply IH; auto.
  Qed.

  Lemma out_coords_plev l levels cs : NoDup (map fst cs) -> ~ In "plev"%string (map fst cs) \/ l = "plev"%string ->
    slookup l cs <> None -> slookup "plev"%string (out_coords l levels cs) = Some (plev_coord levels).
  Proof.
    intros Hn Hp Hl. destruct (slookup l cs) as [c|] eqn:E; [|congruence]. apply slookup_In in E.
    rewrite out_coords_fold. pose proof (ofold_in l levels cs [] (l, c) (okey_nodup _ _ Hn Hp) E) as F.
    unfold okey, oval in F. cbn [fst] in F. rewrite String.eqb_refl in F. exact F.
  Qed.
  Lemma out_coords_other l levels cs x : NoDup (map fst cs) -> ~ In "plev"%string (map fst cs) \/ l = "plev"%string ->
    x <> l -> x <> "plev"%string -> slookup x (out_coords l levels cs) = slookup x cs.
  Proof.
    intros Hn Hp Hl Hx. rewrite out_coords_fold. destruct (slookup x cs) as [c|] eqn:E.
    - apply slookup_In in E. pose proof (ofold_in l levels cs [] (x, c) (okey_nodup _ _ Hn Hp) E) as F.
      unfold okey, oval in F. cbn [fst snd] in F. destruct (String.eqb_spec x l); [contradiction|]. exact F.
    - rewrite ofold_notin; auto. rewrite in_map_iff. intros (p & Ep & Hi). unfold okey in Ep.
      destruct (String.eqb_spec (fst p) l); [congruence|]. apply slookup_None in E. apply E. rewrite <- Ep. apply in_map. auto.
  Qed.
End OutCoords.

(** a horizontal field on (some of) data's dimensions other than the level, with the same labels *)
Definition surface_field (F data : da fl) (l : string) : Prop :=
  wf_da F /\ (forall d, In d (dims F) -> d <> l /\ In d (dims data) /\ dsize F d = dsize data d) /\ labels_agree F data = true.

(** index of the level taken as the lowest: the (first) largest level label, missing labels aside, or the last level without labels *)
Definition bottom_level (hyam hybm : da fl) (l lb : string) (n kb : nat) : Prop :=
  (kb < n)%nat /\
  ((exists L b, index_labels hyam l = Some L /\ List.length L = n /\ nth kb L NaN = Fin b /\
     forall k, (k < n)%nat -> nth k L NaN = NaN \/ exists x, nth k L NaN = Fin x /\ (x < b \/ (x = b /\ (kb <= k)%nat))) \/
   (slookup l (coords hyam) = None /\ slookup lb (coords hybm) = None /\ n = S kb)).

Lemma argmax_keep (L : list fl) k best bv :
  (forall j, (j < List.length L)%nat -> nth j L NaN = NaN \/ exists x, nth j L NaN = Fin x /\ x <= bv) -> argmax_from k best (Fin bv) L = best.
Proof.
  revert k; induction L as [|y L IH]; intros k H; cbn -[nlt]; auto.
  replace (nlt (Fin bv) y) with false.
  - apply IH. intros j Hj. apply (H (S j)). cbn. lia.
  - destruct (H 0%nat ltac:(cbn; lia)) as [E|(x & E & Hx)]; cbn in E; subst y; cbn; auto. rewrite rltb_false; auto.
Qed.
Lemma argmax_move (L : list fl) b k best bv kb : (kb < List.length L)%nat -> nth kb L NaN = Fin b -> bv < b ->
  (forall j, (j < List.length L)%nat -> nth j L NaN = NaN \/ exists x, nth j L NaN = Fin x /\ (x < b \/ (x = b /\ (kb <= j)%nat))) ->
  argmax_from k best (Fin bv) L = (k + kb)%nat.
Proof.
  revert k best bv kb; induction L as [|y L IH]; intros k best bv kb Hk Hb Hv H; [cbn in Hk; lia|]. cbn -[nlt]. destruct kb as [|kb].
  - cbn in Hb. subst y. cbn [nlt NumFl fl_lt]. rewrite rltb_true by auto. rewrite argmax_keep; [lia|].
    intros j Hj. destruct (H (S j) ltac:(cbn; lia)) as [E|(x & E & Hx)]; [left; exact E|right; exists x; split; [exact E|lra]].
  - cbn in Hb, Hk.
    assert (H' : forall j, (j < List.length L)%nat -> nth j L NaN = NaN \/ exists x, nth j L NaN = Fin x /\ (x < b \/ (x = b /\ (kb <= j)%nat))).
    { intros j Hj. destruct (H (S j) ltac:(cbn; lia)) as [E|(x & E & [Hx|[Hx Hle]])]; [left; exact E| |]; right; exists x; split; auto. right. split; auto. lia. }
    destruct (H 0%nat ltac:(cbn; lia)) as [E|(x & E & [Hx|[Hx Hle]])]; [| |lia]; cbn in E; subst y; cbn [nlt NumFl fl_lt].
    + rewrite (IH _ _ _ kb); auto; lia.
    + destruct (rltb_spec bv x); rewrite (IH _ _ _ kb); auto; lia.
Qed.
Lemma nanargmax_gen (L : list fl) b k kb : (kb < List.length L)%nat -> nth kb L NaN = Fin b ->
  (forall j, (j < List.length L)%nat -> nth j L NaN = NaN \/ exists x, nth j L NaN = Fin x /\ (x < b \/ (x = b /\ (kb <= j)%nat))) ->
  nanargmax_from k L = Some (k + kb)%nat.
Proof.
  revert k kb; induction L as [|y L IH]; intros k kb Hk Hb H; [cbn in Hk; lia|]. cbn -[argmax_from isnan].
  destruct kb as [|kb].
  - cbn in Hb. subst y. cbn [isnan NumFl fl_isnan]. rewrite argmax_keep; [f_equal; lia|].
    intros j Hj. destruct (H (S j) ltac:(cbn; lia)) as [E|(x & E & Hx)]; [left; exact E|right; exists x; split; [exact E|lra]].
  - cbn in Hb, Hk.
    assert (H' : forall j, (j < List.length L)%nat -> nth j L NaN = NaN \/ exists x, nth j L NaN = Fin x /\ (x < b \/ (x = b /\ (kb <= j)%nat))).
    { intros j Hj. destruct (H (S j) ltac:(cbn; lia)) as [E|(x & E & [Hx|[Hx Hle]])]; [left; exact E| |]; right; exists x; split; auto. right. split; auto. lia. }
    destruct (H 0%nat ltac:(cbn; lia)) as [E|(x & E & [Hx|[Hx Hle]])]; [| |lia]; cbn in E; subst y.
    + change (isnan NaN) with true. cbv iota. rewrite (IH _ kb) by (auto; lia). f_equal. lia.
    + change (isnan (Fin x)) with false. cbv iota. rewrite (argmax_move L b _ _ _ kb) by (auto; lia). f_equal. lia.
Qed.
Lemma nanargmax_spec (L : list fl) b kb : (kb < List.length L)%nat -> nth kb L NaN = Fin b ->
  (forall j, (j < List.length L)%nat -> nth j L NaN = NaN \/ exists x, nth j L NaN = Fin x /\ (x < b \/ (x = b /\ (kb <= j)%nat))) ->
  nanargmax_from 0 L = Some kb.
Proof. intros. rewrite (nanargmax_gen L b 0 kb); auto. Qed.

Section Extrap.
  Variables (data ps hyam hybm : da fl) (l lb : string) (ax n kb : nat) (A B : nat -> R) (levels : list R) (p0 : R)
    (a : ihp_args fl) (m : imethod).
  Hypothesis H : hyb_call data ps hyam hybm l lb ax n A B levels a m.
  Hypothesis Hex : a_extrapolate a = true.
  Hypothesis Hkb : bottom_level hyam hybm l lb n kb.
  Hypothesis Hcn : NoDup (map fst (coords data)).
  Hypothesis Hcl : slookup l (coords data) <> None.
  Hypothesis Hcp : ~ In "plev"%string (map fst (coords data)) \/ l = "plev"%string.
  Hypothesis Hps : labels_agree ps data = true.

  Let W := h_wf _ _ _ _ _ _ _ _ _ _ _ _ _ H.
  Let odims := upd (dims data) ax "plev"%string.

  Lemma ps_surface : surface_field ps data l.
  Proof.
    destruct (w_ps _ _ _ _ _ _ _ _ W) as [Pl Pn]. pose proof (w_perm _ _ _ _ _ _ _ _ W) as Wp.
    split; [split; auto|]. split; auto. intros d Hd. split.
    - intros ->. assert (Hnd : NoDup (l :: dims ps)).
      { eapply Permutation_NoDup; [apply Permutation_sym, Wp|apply (w_data _ _ _ _ _ _ _ _ W)]. }
      inversion Hnd; auto.
    - split; [eapply Permutation_in; [apply Wp|cbn; auto]|]. apply (w_sizes _ _ _ _ _ _ _ _ W). auto.
  Qed.

  Lemma d_not_plev d : In d (dims data) -> d <> l -> d <> "plev"%string.
  Proof. intros Hd Hl ->. destruct (w_plev _ _ _ _ _ _ _ _ W) as [Hp|Hp]; [contradiction|congruence]. Qed.

  Lemma field_fits F out : surface_field F data l -> dims out = odims ->
    shp (dat out) = upd (shp (dat data)) ax (List.length levels) -> coords out = out_coords l (map Fin levels) (coords data) ->
    fits F out = true.
  Proof.
    intros [[Fl Fn] [Fd Fa]] Do So Co. destruct (w_data _ _ _ _ _ _ _ _ W) as [Wl Wn].
    assert (Hs : forall d, In d (dims F) -> sindex d (dims out) = sindex d (dims data)).
    { intros d Hd. destruct (Fd d Hd) as (D1 & D2 & D3). rewrite Do. unfold odims.
      apply sindex_upd_neq with (l := l); auto; [apply (w_ax _ _ _ _ _ _ _ _ W)|apply d_not_plev; auto]. }
    unfold fits. apply andb_true_iff; split; [apply andb_true_iff; split|].
    - apply forallb_forall. intros d Hd. apply smem_In. destruct (Fd d Hd) as (D1 & D2 & D3).
      destruct (sindex_In d (dims data) D2) as (j & Ej & _). rewrite <- Hs in Ej by auto.
      eapply nth_error_In. apply sindex_Some. eauto.
    - unfold sizes_agree. apply forallb_forall. intros d Hd. destruct (Fd d Hd) as (D1 & D2 & D3).
      assert (E : dsize out d = dsize data d).
      { unfold dsize. rewrite Hs by auto. destruct (sindex d (dims data)) as [j|] eqn:Ej; auto.
        rewrite So, upd_nth_error. destruct (Nat.eqb_spec j ax) as [->|]; auto. exfalso. apply D1.
        apply sindex_Some in Ej. pose proof (sindex_Some _ _ _ (w_ax _ _ _ _ _ _ _ _ W)). congruence. }
      rewrite E, D3. destruct (dsize data d); auto. apply Nat.eqb_refl.
    - unfold labels_agree in *. rewrite forallb_forall in Fa. apply forallb_forall. intros d Hd. apply filter_In in Hd.
      destruct Hd as [Hd _]. destruct (Fd d Hd) as (D1 & D2 & D3).
      assert (E : index_labels out d = index_labels data d).
      { unfold index_labels. rewrite Co, out_coords_other; auto. apply d_not_plev; auto. }
      rewrite E. apply Fa. apply filter_In. split; auto. apply smem_In. auto.
  Qed.

  Lemma env_field F i : surface_field F data l -> getn F (env_of odims i) = getn F (env_of (dims data) i).
  Proof.
    intros [_ [Fd _]]. apply getn_ext. intros d Hd. destruct (Fd d Hd) as (D1 & D2 & D3). unfold env_of, odims.
    rewrite (sindex_upd_neq _ _ l); auto; [apply (w_data _ _ _ _ _ _ _ _ W)|apply (w_ax _ _ _ _ _ _ _ _ W)|apply d_not_plev; auto].
  Qed.

  Lemma env_level i k : List.length i = List.length (dims data) ->
    map (set_env (env_of odims i) l k) (dims data) = upd i ax k.
  Proof.
    intros Hi. destruct (w_data _ _ _ _ _ _ _ _ W) as [Wl Wn]. pose proof (w_ax _ _ _ _ _ _ _ _ W) as Hax.
    apply nth_ext with (d := 0%nat) (d' := 0%nat); [rewrite map_length, upd_length; auto|].
    rewrite map_length. intros j Hj.
    rewrite (nth_indep _ 0%nat (set_env (env_of odims i) l k ""%string)) by (rewrite map_length; auto).
    rewrite map_nth. rewrite nth_upd. unfold set_env.
    assert (Ej : sindex (nth j (dims data) ""%string) (dims data) = Some j) by (apply sindex_nth_nodup; auto).
    destruct (String.eqb_spec (nth j (dims data) ""%string) l) as [E|E].
    - rewrite E, Hax in Ej. injection Ej as ->. rewrite Nat.eqb_refl.
      replace (Nat.ltb j (List.length i)) with true by (symmetry; apply Nat.ltb_lt; lia). reflexivity.
    - assert (j <> ax).
      { intros ->. apply E. pose proof (sindex_nth _ _ _ Hax) as [_ E2]. etransitivity; [apply nth_indep; auto|exact E2]. }
      destruct (Nat.eqb_spec j ax); [contradiction|]. cbn [andb]. unfold env_of, odims.
      rewrite (sindex_upd_neq _ _ l); auto; [|apply d_not_plev; auto; apply nth_In; auto]. rewrite Ej. reflexivity.
  Qed.

  Lemma map_env_out i : List.length i = List.length (dims data) -> map (env_of odims i) odims = i.
  Proof.
    intros Hi. apply map_env_of; [|unfold odims; rewrite upd_length; auto]. unfold odims.
    apply NoDup_upd; [apply (w_data _ _ _ _ _ _ _ _ W)|]. destruct (w_plev _ _ _ _ _ _ _ _ W) as [Hp|Hp]; auto.
    right. rewrite <- Hp. apply sindex_Some. apply (w_ax _ _ _ _ _ _ _ _ W).
  Qed.

  Lemma env_plev i : env_of odims i "plev"%string = nth ax i 0%nat.
  Proof.
    unfold env_of, odims. rewrite (sindex_upd_new _ _ l); auto; [apply (w_data _ _ _ _ _ _ _ _ W)|apply (w_ax _ _ _ _ _ _ _ _ W)|apply (w_plev _ _ _ _ _ _ _ _ W)].
  Qed.

  Definition no_extrap : ihp_args fl :=
    mkIhp (a_method a) (a_lev_dim a) false (a_variable a) (a_t_bot a) (a_phi_sfc a) (cf_name a) (chunks a) (other_dask a) (mb_ok a).

  Definition filler (i : list nat) (x psfc s : R) (y : fl) : Prop :=
    (a_variable a = Some "other"%string -> y = get (dat data) (upd i ax kb)) /\
    (a_variable a = Some "temperature"%string -> forall t phi, a_t_bot a = Some t -> a_phi_sfc a = Some phi ->
       y = temp_extrapolate (getn t (env_of (dims data) i)) (Fin x) (Fin psfc) (Fin s) (getn phi (env_of (dims data) i))) /\
    (a_variable a = Some "geopotential"%string -> forall t phi, a_t_bot a = Some t -> a_phi_sfc a = Some phi ->
       y = geo_height_extrapolate (getn t (env_of (dims data) i)) (Fin x) (Fin psfc) (Fin s) (getn phi (env_of (dims data) i))).

  Lemma c18_core : (forall F, a_t_bot a = Some F \/ a_phi_sfc a = Some F -> surface_field F data l) ->
    exists out0 out, the_call data ps hyam hybm levels p0 no_extrap = Ok out0 /\
      the_call data ps hyam hybm levels p0 a = Ok out /\
      dims out = dims out0 /\ shp (dat out) = shp (dat out0) /\ coords out = coords out0 /\
      dims out0 = odims /\ shp (dat out0) = upd (shp (dat data)) ax (List.length levels) /\
      forall i s, inb (shp (dat out)) i -> getn ps (env_of (dims data) i) = Fin s ->
        let psfc := hyb_pressure A B p0 s kb in
        let x := nth (nth ax i 0%nat) levels 0 in
        (x <= psfc -> get (dat out) i = get (dat out0) i) /\
        (psfc < x -> filler i x psfc s (get (dat out) i)).
  Proof.
    intros HF. pose proof H as H'. destruct H' as [W' Hn HA HB Hl Ha Hc]. pose proof (w_data _ _ _ _ _ _ _ _ W) as [Wl Wn].
    destruct (ihp_core data ps hyam hybm l lb ax n (map Fin levels) (Fin p0) a m W (map_nonempty _ _ Hl) Hn Hc)
      as (pr & out0 & Dp & Sp & Gp & L1 & L2 & Do & So & Co & Ao & No & Go & E).
    rewrite map_length in So. fold odims in Do.
    assert (Ha0 : args_ok no_extrap l m) by (destruct Ha; constructor; cbn; auto; discriminate).
    assert (E0 : the_call data ps hyam hybm levels p0 no_extrap = Ok out0).
    { unfold the_call. rewrite (call_unfold _ _ _ _ _ _ _ _ _ Ha0).
      rewrite (E no_extrap eq_refl eq_refl eq_refl). reflexivity. }
    assert (Ek : sfc_index pr l = Ok kb).
    { unfold sfc_index. destruct Hkb as [Hlt [(L & b & EL & LL & Hb & Hmax)|(N1 & N2 & En)]].
      - rewrite (L1 _ EL). rewrite nanargmax_spec with (b := b) (kb := kb); rewrite ?LL; auto.
      - rewrite (L2 N1 N2). unfold dsize. rewrite Dp, (w_ax _ _ _ _ _ _ _ _ W), Sp, (w_n _ _ _ _ _ _ _ _ W), En. reflexivity. }
    assert (Hv : exists v, a_variable a = Some v /\ (v = "other" \/ ((v = "temperature" \/ v = "geopotential") /\ exists t phi, a_t_bot a = Some t /\ a_phi_sfc a = Some phi))%string).
    { destruct (ok_var _ _ _ Ha) as [Hv|[Hv|[Hv [Ht Hp]]]].
      - exfalso. apply (ok_ext _ _ _ Ha); auto.
      - eauto.
      - destruct (a_t_bot a) as [t|]; [|congruence]. destruct (a_phi_sfc a) as [phi|]; [|congruence].
        destruct Hv as [Hv|Hv]; rewrite Hv; eexists; split; eauto 7. }
    destruct Hv as (v & Ev & Hv).
    exists out0. unfold the_call at 2. rewrite (call_unfold _ _ _ _ _ _ _ _ _ Ha), (E a eq_refl eq_refl eq_refl), Hex.
    unfold vertical_remap_extrap. rewrite Ek. cbn [bind]. rewrite Co, out_coords_plev by auto. cbn [oget bind].
    match goal with |- context [if negb ?c then Err ValueError else _] => assert (Ef : c = true) end.
    { apply forallb_forall. intros F HFi. cbn [In] in HFi. destruct HFi as [<-|HFi].
      - apply field_fits; auto. apply ps_surface.
      - apply field_fits; auto. apply HF. rewrite Ev in HFi. destruct (String.eqb v "other"); [contradiction|].
        destruct (a_t_bot a) as [t|]; [|contradiction]. destruct (a_phi_sfc a) as [phi|]; [|contradiction].
        destruct HFi as [<-|[<-|[]]]; auto. }
    rewrite Ef. cbn [negb]. eexists. split; [exact E0|]. split; [reflexivity|]. cbn [dims dat shp coords get].
    split; auto. split; auto. split; auto. split; auto. split; auto.
    intros i s Hi Hs. set (psfc := hyb_pressure A B p0 s kb). set (x := nth (nth ax i 0%nat) levels 0).
    assert (Li : List.length i = List.length (dims data)).
    { apply inb_length in Hi. rewrite So, upd_length in Hi. congruence. }
    rewrite Do.
    assert (Eold : getn out0 (env_of odims i) = get (dat out0) i) by (unfold getn; rewrite Do, map_env_out; auto).
    assert (Ep : getn pr (set_env (env_of odims i) l kb) = Fin psfc).
    { unfold getn. rewrite Dp, env_level by auto. rewrite Gp by (rewrite upd_length; auto).
      rewrite nth_upd, Nat.eqb_refl, Li. pose proof (sindex_nth _ _ _ (w_ax _ _ _ _ _ _ _ _ W)) as [Hax _].
      replace (Nat.ltb ax (List.length (dims data))) with true by (symmetry; apply Nat.ltb_lt; auto). cbn [andb].
      rewrite HA, HB by apply Hkb. rewrite (surf_upd _ _ _ _ _ _ _ _ i kb W Li). unfold surf. rewrite Hs. reflexivity. }
    assert (El : get (cdat (plev_coord (map Fin levels))) [env_of odims i "plev"%string] = Fin x).
    { unfold plev_coord, vec. cbn [cdat get hd]. rewrite env_plev. unfold x.
      rewrite (nth_indep _ nnan (Fin 0)); [apply map_nth|]. rewrite map_length.
      eapply in_axis; [exact H|exact So|]. auto. }
    assert (Ed : getn data (set_env (env_of odims i) l kb) = get (dat data) (upd i ax kb)).
    { unfold getn. rewrite env_level; auto. }
    assert (Es : getn ps (env_of odims i) = Fin s) by (rewrite env_field; [auto|apply ps_surface]).
    unfold filler. rewrite Ev, Eold, Ep, El, Ed, Es. cbn [nle NumFl fl_le].
    destruct Hv as [->|[Hv (t & phi & Et & Ephi)]].
    - assert (Ebr : (match a_t_bot a with
               | Some t => match a_phi_sfc a with
                   | Some phi => if String.eqb "other" "temperature" then nwhere (rleb x psfc) (get (dat out0) i) (temp_extrapolate (getn t (env_of odims i)) (Fin x) (Fin psfc) (Fin s) (getn phi (env_of odims i)))
                       else if String.eqb "other" "geopotential" then nwhere (rleb x psfc) (get (dat out0) i) (geo_height_extrapolate (getn t (env_of odims i)) (Fin x) (Fin psfc) (Fin s) (getn phi (env_of odims i)))
                       else nwhere (rleb x psfc) (get (dat out0) i) (get (dat data) (upd i ax kb))
                   | None => nwhere (rleb x psfc) (get (dat out0) i) (get (dat data) (upd i ax kb)) end
               | None => nwhere (rleb x psfc) (get (dat out0) i) (get (dat data) (upd i ax kb)) end) = nwhere (rleb x psfc) (get (dat out0) i) (get (dat data) (upd i ax kb))).
      { destruct (a_t_bot a); auto. destruct (a_phi_sfc a); auto. }
      rewrite Ebr. unfold nwhere. split; intros Hx.
      + rewrite rleb_true by auto. reflexivity.
      + rewrite rleb_false by auto. split; [auto|]. split; discriminate.
    - rewrite Et, Ephi. rewrite (env_field t), (env_field phi) by (apply HF; auto).
      destruct Hv as [->| ->]; cbn [String.eqb Ascii.eqb Bool.eqb]; unfold nwhere; (split; intros Hx;
        [rewrite rleb_true by auto; reflexivity|rewrite rleb_false by auto; split; [discriminate|split; try discriminate]]);
        intros _ t' phi' E1 E2; injection E1 as <-; injection E2 as <-; reflexivity.
  Qed.
End Extrap.
