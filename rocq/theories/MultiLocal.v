(** Every value interp_multidim returns is a function of its own horizontal slice and its own target point (C115), and
    every value of interp_sigma_to_hybrid of its own column (C114); for any number type. *)
From Coq Require Import List Bool Arith ZArith Lia String Permutation.
From Verif Require Import PyBase PyFacts Num Arr ArrFacts ListFacts XrFacts Hybrid HybridFacts Interp1d InterpHyb InterpHybFacts InterpApi InterpSigma InterpSigmaFacts InterpMulti.
Import ListNotations.

Section Local.
  Context {T : Type} {N : Num T}.

  (** [d] has the horizontal grid ys x xs on its last two dimensions *)
  Record on_grid (d : da T) (s : list nat) (ys xs : list T) : Prop := {
    og_names : exists lead dy dx, dims d = lead ++ [dy; dx] /\ dy <> dx /\ List.length lead = List.length s /\
      index_labels d dy = Some ys /\ index_labels d dx = Some xs;
    og_shape : shp (dat d) = s ++ [List.length ys; List.length xs] }.

  Lemma last2 {A} (l : list A) a b d : nth (List.length (l ++ [a; b]) - 2) (l ++ [a; b]) d = a /\ nth (List.length (l ++ [a; b]) - 1) (l ++ [a; b]) d = b /\
    firstn (List.length (l ++ [a; b]) - 2) (l ++ [a; b]) = l.
  Proof.
    rewrite app_length. cbn [List.length]. replace (List.length l + 2 - 2)%nat with (List.length l) by lia. replace (List.length l + 2 - 1)%nat with (S (List.length l)) by lia.
    split; [|split].
    - rewrite app_nth2, Nat.sub_diag by lia. reflexivity.
    - rewrite app_nth2 by lia. replace (S (List.length l) - List.length l)%nat with 1%nat by lia. reflexivity.
    - rewrite firstn_app, Nat.sub_diag, firstn_all. cbn [firstn]. apply app_nil_r.
  Qed.
  (** the interpolated value in terms of the slice *)
  Definition slice_value md fill (ys xs : list T) (f : nat -> nat -> T) (y x : T) : T :=
    interp_dim md fill ys (map (fun a => interp_dim md fill xs (map (fun c => f a c) (seq 0 (List.length xs))) x) (seq 0 (List.length ys))) y.
  Lemma last2_value md fill d s ys xs yo xo out : on_grid d s ys xs -> interp_last2 md fill d yo xo = Ok out ->
    shp (dat out) = s ++ [List.length yo; List.length xo] /\
    forall q a b, List.length q = List.length s -> get (dat out) (q ++ [a; b]) = slice_value md fill ys xs (fun k c => get (dat d) (q ++ [k; c])) (nth a yo nnan) (nth b xo nnan).
  Proof.
    intros [(lead & dy & dx & Ed & Hne & Hl & Ly & Lx) Hs] E. unfold interp_last2 in E. rewrite Ed in E.
    destruct (last2 lead dy dx ""%string) as (E1 & E2 & _). rewrite E1, E2 in E.
    assert (Er : List.length (lead ++ [dy; dx]) = List.length (s ++ [List.length ys; List.length xs])) by (rewrite !app_length, Hl; reflexivity).
    rewrite Er, Hs in E. destruct (last2 s (List.length ys) (List.length xs) 0%nat) as (F1 & F2 & F3). rewrite F1, F2, F3 in E.
    match type of E with (if ?c then _ else _) = _ => destruct c; [discriminate|] end. injection E as <-. cbn [dat shp get].
    split; [reflexivity|]. intros q a b Hq. destruct (last2 q a b 0%nat) as (G1 & G2 & G3).
    assert (Eq : List.length (s ++ [List.length ys; List.length xs]) = List.length (q ++ [a; b])) by (rewrite !app_length, Hq; reflexivity).
    rewrite Eq, G1, G2, G3. unfold slice_value, dim_values. rewrite Ly, Lx. reflexivity.
  Qed.

  Lemma mask_grid missing d s ys xs : on_grid d s ys xs -> on_grid (mask_missing missing d) s ys xs.
  Proof.
    intros [(lead & dy & dx & Ed & Hne & Hl & Ly & Lx) Hs]. destruct missing; [|constructor; eauto 9].
    constructor; [|exact Hs]. exists lead, dy, dx. repeat split; auto.
  Qed.
  Definition masked (missing : option T) (v : T) : T := match missing with Some m => nwhere (neqb v m) nnan v | None => v end.
  Definition filled (missing : option T) (v : T) : T := match missing with Some m => nwhere (isnan v) m v | None => v end.
  Lemma mask_get missing d i : get (dat (mask_missing missing d)) i = masked missing (get (dat d) i).
  Proof. destruct missing; reflexivity. Qed.

  Definition wrapped (xs : list T) : list T :=
    let p := pad_wrap nnan xs in
    let p := upd p 0 (nsub (nth 0 p nnan) (ofZ 360)) in
    upd p (S (List.length xs)) (nadd (nth (S (List.length xs)) p nnan) (ofZ 360)).
  Lemma cyclic_grid d s ys xs d' : on_grid d s ys xs -> add_cyclic d = Ok d' -> s = [] /\ on_grid d' [] ys (wrapped xs) /\
    forall k c, get (dat d') [k; c] = get (dat d) [k; pad_src (List.length xs) c].
  Proof.
    intros [(lead & dy & dx & Ed & Hne & Hl & Ly & Lx) Hs] E. unfold add_cyclic in E. rewrite Ed, Hs in E.
    destruct lead as [|u lead]; [destruct s; [|discriminate]|exfalso; destruct lead as [|u' [|u'' lead]]; cbn in E; discriminate].
    cbn [app] in E. match type of E with (if ?c then _ else _) = _ => destruct c; [discriminate|] end.
    unfold dim_values in E. rewrite Ly, Lx in E. injection E as <-. split; auto. split; [|reflexivity]. constructor.
    - exists [], dy, dx. repeat split; auto; unfold index_labels; cbn [coords slookup].
      + rewrite String.eqb_refl. cbn [cdims]. rewrite String.eqb_refl. cbn [cdat]. rewrite ravel_vec. reflexivity.
      + destruct (String.eqb_spec dx dy) as [->|]; [congruence|]. rewrite String.eqb_refl. cbn [cdims]. rewrite String.eqb_refl. cbn [cdat]. rewrite ravel_vec. reflexivity.
    - cbn [dat shp app]. unfold wrapped. rewrite !upd_length. unfold pad_wrap. cbn [List.length]. rewrite app_length. cbn [List.length]. do 2 f_equal. lia.
  Qed.

  (** the whole function on a DataArray *)
  Lemma multi_value md cyclic missing fill d s ys xs yo xo la lo out : on_grid d s ys xs ->
    interp_multidim md (VDa d) yo xo la lo cyclic missing fill = Ok out ->
    shp (dat out) = s ++ [List.length yo; List.length xo] /\ (cyclic = true -> s = []) /\
    forall q a b, List.length q = List.length s -> get (dat out) (q ++ [a; b]) =
      filled missing (slice_value md fill ys (if cyclic then wrapped xs else xs)
        (fun k c => masked missing (get (dat d) (q ++ [k; if cyclic then pad_src (List.length xs) c else c]))) (nth a yo nnan) (nth b xo nnan)).
  Proof.
    intros G E. unfold interp_multidim in E. cbn [bind] in E.
    match type of E with (if ?c then _ else _) = _ => destruct c; [discriminate|] end.
    pose proof (mask_grid missing d s ys xs G) as G1.
    assert (F : forall o, shp (dat (fill_missing missing o)) = shp (dat o) /\ forall i, get (dat (fill_missing missing o)) i = filled missing (get (dat o) i)).
    { intros o. destruct missing; split; reflexivity. }
    destruct cyclic.
    - destruct (add_cyclic (mask_missing missing d)) as [d1|] eqn:Ec; [|discriminate]. cbn [bind] in E.
      destruct (cyclic_grid _ _ _ _ _ G1 Ec) as (-> & G2 & V). destruct (interp_last2 md fill d1 yo xo) as [o|] eqn:El; [|discriminate]. cbn [bind] in E. injection E as <-.
      destruct (last2_value _ _ _ _ _ _ _ _ _ G2 El) as [So Go]. destruct (F o) as [F1 F2]. rewrite F1. split; auto. split; auto.
      intros [|] a b Hq; [|discriminate]. rewrite F2, Go by auto. f_equal. unfold slice_value. f_equal. apply map_ext. intros k. f_equal. apply map_ext. intros c.
      cbn [app]. rewrite V, mask_get. reflexivity.
    - cbn [bind] in E. destruct (interp_last2 md fill (mask_missing missing d) yo xo) as [o|] eqn:El; [|discriminate]. cbn [bind] in E. injection E as <-.
      destruct (last2_value _ _ _ _ _ _ _ _ _ G1 El) as [So Go]. destruct (F o) as [F1 F2]. rewrite F1. split; auto. split; [discriminate|].
      intros q a b Hq. rewrite F2, Go by auto. f_equal. unfold slice_value. f_equal. apply map_ext. intros k. f_equal. apply map_ext. intros c. rewrite mask_get. reflexivity.
  Qed.

  Lemma pad_src_lt n c : (0 < n)%nat -> (c < n + 2)%nat -> (pad_src n c < n)%nat.
  Proof. intros Hn Hc. unfold pad_src. destruct (Nat.eqb_spec c 0); [lia|]. destruct (Nat.eqb_spec c (S n)); lia. Qed.
  Lemma multi_nonempty md cyclic missing fill d s ys xs yo xo la lo out : on_grid d s ys xs ->
    interp_multidim md (VDa d) yo xo la lo cyclic missing fill = Ok out -> (0 < List.length ys)%nat /\ (0 < List.length xs)%nat.
  Proof.
    intros G E. unfold interp_multidim in E. cbn [bind] in E.
    match type of E with (if ?c then _ else _) = _ => destruct c; [discriminate|] end.
    assert (K : forall d s ys xs o, on_grid d s ys xs -> interp_last2 md fill d yo xo = Ok o -> (0 < List.length ys)%nat /\ (0 < List.length xs)%nat).
    { clear. intros d s ys xs o [(lead & dy & dx & Ed & Hne & Hl & Ly & Lx) Hs] E. unfold interp_last2 in E. rewrite Ed in E.
      assert (Er : List.length (lead ++ [dy; dx]) = List.length (s ++ [List.length ys; List.length xs])) by (rewrite !app_length, Hl; reflexivity).
      rewrite Er, Hs in E. destruct (last2 s (List.length ys) (List.length xs) 0%nat) as (F1 & F2 & F3). rewrite F1, F2, F3 in E.
      destruct (Nat.eqb_spec (List.length ys) 0); [discriminate|]. destruct (Nat.eqb_spec (List.length xs) 0); [discriminate|]. lia. }
    pose proof (mask_grid missing d s ys xs G) as G1. destruct cyclic.
    - destruct (add_cyclic (mask_missing missing d)) as [d1|] eqn:Ec; [|discriminate]. cbn [bind] in E.
      destruct (cyclic_grid _ _ _ _ _ G1 Ec) as (-> & G2 & V). destruct (interp_last2 md fill d1 yo xo) as [o|] eqn:El; [|discriminate].
      destruct (K _ _ _ _ _ G2 El) as [K1 _]. split; auto. destruct G1 as [(lead & dy & dx & Ed & Hne & Hl & Ly & Lx) Hs]. unfold add_cyclic in Ec. rewrite Ed, Hs in Ec.
      destruct lead; [|discriminate]. cbn [app] in Ec. destruct (Nat.eqb_spec (List.length xs) 0); [discriminate|lia].
    - cbn [bind] in E. destruct (interp_last2 md fill (mask_missing missing d) yo xo) as [o|] eqn:El; [|discriminate]. eapply K; eauto.
  Qed.

  Lemma c115_lemma md cyclic missing fill d d' s s' ys xs yo xo yo' xo' la lo la' lo' out out' :
    on_grid d s ys xs -> on_grid d' s' ys xs ->
    interp_multidim md (VDa d) yo xo la lo cyclic missing fill = Ok out ->
    interp_multidim md (VDa d') yo' xo' la' lo' cyclic missing fill = Ok out' ->
    forall q q' a b a' b', List.length q = List.length s -> List.length q' = List.length s' ->
      nth a' yo' nnan = nth a yo nnan -> nth b' xo' nnan = nth b xo nnan ->
      (forall k c, (k < List.length ys)%nat -> (c < List.length xs)%nat -> get (dat d') (q' ++ [k; c]) = get (dat d) (q ++ [k; c])) ->
      get (dat out') (q' ++ [a'; b']) = get (dat out) (q ++ [a; b]).
  Proof.
    intros G G' E E' q q' a b a' b' Hq Hq' Hy Hx Hs.
    destruct (multi_value _ _ _ _ _ _ _ _ _ _ _ _ _ G E) as (_ & _ & V). destruct (multi_value _ _ _ _ _ _ _ _ _ _ _ _ _ G' E') as (_ & _ & V').
    destruct (multi_nonempty _ _ _ _ _ _ _ _ _ _ _ _ _ G E) as [_ Nx].
    rewrite V, V' by auto. rewrite Hy, Hx. f_equal. unfold slice_value. f_equal. apply map_ext_in. intros k Hk. apply in_seq in Hk. f_equal. apply map_ext_in. intros c Hc. apply in_seq in Hc.
    f_equal. apply Hs; [lia|]. destruct cyclic; [|lia]. apply pad_src_lt; [auto|]. unfold wrapped in Hc. rewrite !upd_length in Hc. unfold pad_wrap in Hc. cbn [List.length] in Hc. rewrite app_length in Hc. cbn [List.length] in Hc. lia.
  Qed.

  Lemma c114_sigma data ps hyam hybm sig l h ax n nh data' ps' hyam' hybm' l' h' ax' p0 lev_dim cf_name lev_dim' cf_name' m out out' :
    sig_wf data ps hyam hybm sig l h ax n nh -> sig_wf data' ps' hyam' hybm' sig l' h' ax' n nh ->
    lev_dim = Some l \/ (lev_dim = None /\ cf_name = Some l) -> lev_dim' = Some l' \/ (lev_dim' = None /\ cf_name' = Some l') ->
    (2 <= n)%nat -> (0 < nh)%nat ->
    (forall k, (k < nh)%nat -> get (dat hyam') [k] = get (dat hyam) [k] /\ get (dat hybm') [k] = get (dat hybm) [k]) ->
    interp_sigma_to_hybrid data sig ps hyam hybm p0 lev_dim cf_name (meth_name m) = Ok out ->
    interp_sigma_to_hybrid data' sig ps' hyam' hybm' p0 lev_dim' cf_name' (meth_name m) = Ok out' ->
    forall i i', inb (shp (dat out)) i -> inb (shp (dat out')) i' -> nth ax' i' 0%nat = nth ax i 0%nat ->
      getn ps' (env_of (dims data') i') = getn ps (env_of (dims data) i) ->
      (forall k, (k < n)%nat -> get (dat data') (upd i' ax' k) = get (dat data) (upd i ax k)) ->
      get (dat out') i' = get (dat out) i.
  Proof.
    intros W W' Hl Hl' Hn Hnh Hab E E' i i' Hi Hi' Hj Hs Hd.
    destruct (sigma_core data ps hyam hybm sig l h ax n nh p0 lev_dim cf_name m W Hl Hn Hnh) as [K1 K2].
    destruct (sigma_core data' ps' hyam' hybm' sig l' h' ax' n nh p0 lev_dim' cf_name' m W' Hl' Hn Hnh) as [K1' K2'].
    destruct (Nat.le_gt_cases nh n) as [Hle|Hgt]; [|rewrite (K2 Hgt) in E; discriminate].
    destruct (K1 Hle) as (o & c & Eo & _ & _ & _ & _ & _ & _ & G). rewrite Eo in E. injection E as <-.
    destruct (K1' Hle) as (o' & c' & Eo' & _ & _ & _ & _ & _ & _ & G'). rewrite Eo' in E'. injection E' as <-.
    destruct (G i Hi) as (r & Er & Gr). destruct (G' i' Hi') as (r' & Er' & Gr'). rewrite Gr, Gr', Hj. f_equal.
    assert (X : Ok r' = Ok r); [|congruence]. rewrite <- Er, <- Er', Hs. f_equal.
    - apply map_ext_in. intros k Hk. apply in_seq in Hk. destruct (Hab k) as [-> ->]; [lia|reflexivity].
    - unfold col_at. apply map_ext_in. intros k Hk. apply in_seq in Hk. apply Hd. lia.
  Qed.
End Local.
