(** Every value interp_hybrid_to_pressure returns is a function of its own column (C114), for any number type. *)
From Coq Require Import List Bool Arith ZArith Lia String Permutation.
From Verif Require Import PyBase PyFacts Num Arr ArrFacts XrFacts Hybrid HybridFacts Interp1d InterpHyb ChunkFacts InterpHybFacts InterpApi InterpExtrap.
Import ListNotations.

Section Local.
  Context {T : Type} {N : Num T}.

  Section One.
    Variables (data ps hyam hybm : da T) (l lb : string) (ax n : nat).
    Hypothesis W : ihp_wf data ps hyam hybm l lb ax n.
    Let odims := upd (dims data) ax "plev"%string.
    Lemma not_plev d : In d (dims data) -> d <> l -> d <> "plev"%string.
    Proof. intros Hd Hl ->. destruct (w_plev _ _ _ _ _ _ _ _ W) as [Hp|Hp]; [contradiction|congruence]. Qed.
    Lemma ps_dims d : In d (dims ps) -> d <> l /\ In d (dims data).
    Proof.
      intros Hd. pose proof (w_perm _ _ _ _ _ _ _ _ W) as Wp. split; [|eapply Permutation_in; [apply Wp|cbn; auto]].
      intros ->. assert (Hnd : NoDup (l :: dims ps)) by (eapply Permutation_NoDup; [apply Permutation_sym, Wp|apply (w_data _ _ _ _ _ _ _ _ W)]).
      inversion Hnd; auto.
    Qed.
    Lemma env_ps i : getn ps (env_of odims i) = surf ps (dims data) i.
    Proof.
      unfold surf. apply getn_ext. intros d Hd. destruct (ps_dims d Hd) as [D1 D2]. unfold env_of, odims.
      rewrite (sindex_upd_neq _ _ l); auto; [apply (w_data _ _ _ _ _ _ _ _ W)|apply (w_ax _ _ _ _ _ _ _ _ W)|apply not_plev; auto].
    Qed.
    Lemma env_lev i k : List.length i = List.length (dims data) -> map (set_env (env_of odims i) l k) (dims data) = upd i ax k.
    Proof.
      intros Hi. destruct (w_data _ _ _ _ _ _ _ _ W) as [Wl Wn]. pose proof (w_ax _ _ _ _ _ _ _ _ W) as Hax.
      apply nth_ext with (d := 0%nat) (d' := 0%nat); [rewrite map_length, upd_length; auto|].
      rewrite map_length. intros j Hj.
      rewrite (nth_indep _ 0%nat (set_env (env_of odims i) l k ""%string)) by (rewrite map_length; auto).
      rewrite map_nth. rewrite nth_upd. unfold set_env.
      assert (Ej : sindex (nth j (dims data) ""%string) (dims data) = Some j) by (apply sindex_nth_nodup; auto).
      destruct (String.eqb_spec (nth j (dims data) ""%string) l) as [E|E].
      - rewrite E, Hax in Ej. injection Ej as ->. rewrite Nat.eqb_refl.
        replace (Nat.ltb j (List.length i)) with true by (symmetry; apply Nat.ltb_lt; lia). reflexivity.
      - assert (j <> ax).
        { intros ->. apply E. pose proof (sindex_nth _ _ _ Hax) as [_ E2]. etransitivity; [apply nth_indep; auto|exact E2]. }
        destruct (Nat.eqb_spec j ax); [contradiction|]. cbn [andb]. unfold env_of, odims.
        rewrite (sindex_upd_neq _ _ l); auto; [|apply not_plev; auto; apply nth_In; auto]. rewrite Ej. reflexivity.
    Qed.
    Lemma map_env_o i : List.length i = List.length (dims data) -> map (env_of odims i) odims = i.
    Proof.
      intros Hi. apply map_env_of; [|unfold odims; rewrite upd_length; auto]. unfold odims.
      apply NoDup_upd; [apply (w_data _ _ _ _ _ _ _ _ W)|]. destruct (w_plev _ _ _ _ _ _ _ _ W) as [Hp|Hp]; auto.
      right. rewrite <- Hp. apply sindex_Some. apply (w_ax _ _ _ _ _ _ _ _ W).
    Qed.
    Lemma env_pl i : env_of odims i "plev"%string = nth ax i 0%nat.
    Proof.
      unfold env_of, odims. rewrite (sindex_upd_new _ _ l); auto; [apply (w_data _ _ _ _ _ _ _ _ W)|apply (w_ax _ _ _ _ _ _ _ _ W)|apply (w_plev _ _ _ _ _ _ _ _ W)].
    Qed.

    (** the value filled in at a point below the lowest level *)
    Definition fill (a : ihp_args T) (tb ph dk lev p_sfc s : T) : T :=
      match a_variable a, a_t_bot a, a_phi_sfc a with
      | Some v, Some _, Some _ => if String.eqb v "temperature" then temp_extrapolate tb lev p_sfc s ph
                                  else if String.eqb v "geopotential" then geo_height_extrapolate tb lev p_sfc s ph else dk
      | _, _, _ => dk
      end.
    Definition at_field (F : option (da T)) (e : env) : T := match F with Some F => getn F e | None => nnan end.

    (** the output in terms of one column *)
    Lemma column_form levels p0 a m out : args_ok a l m -> levels <> [] -> (2 <= n)%nat -> chunks_ok a (shp (dat data)) ->
      (a_extrapolate a = true -> (index_labels hyam l <> None \/ (slookup l (coords hyam) = None /\ slookup lb (coords hybm) = None)) /\
         NoDup (map fst (coords data)) /\ slookup l (coords data) <> None /\ (~ In "plev"%string (map fst (coords data)) \/ l = "plev"%string)) ->
      interp_hybrid_to_pressure (VDa data) (VDa ps) (VDa hyam) (VDa hybm) levels p0 a = Ok out ->
      dims out = odims /\ shp (dat out) = upd (shp (dat data)) ax (List.length levels) /\
      forall i, inb (shp (dat out)) i -> exists r,
         interp_with m levels (hyb_col hyam hybm p0 (surf ps (dims data) i) n) (col_at (dat data) ax i n) = Ok r /\
         if a_extrapolate a then
           exists k, (match index_labels hyam l with Some L => oget ValueError (nanargmax_from 0 L) | None => Ok (n - 1)%nat end) = Ok k /\
             let p_sfc := nadd (nmul (get (dat hyam) [k]) p0) (nmul (get (dat hybm) [k]) (surf ps (dims data) i)) in
             let lev := nth (nth ax i 0%nat) levels nnan in
             get (dat out) i = nwhere (nle lev p_sfc) (nth (nth ax i 0%nat) r nnan)
               (fill a (at_field (a_t_bot a) (env_of (dims out) i)) (at_field (a_phi_sfc a) (env_of (dims out) i))
                  (get (dat data) (upd i ax k)) lev p_sfc (surf ps (dims data) i))
         else get (dat out) i = nth (nth ax i 0%nat) r nnan.
    Proof.
      intros Ha Hl Hn Hc Hx E. pose proof (w_data _ _ _ _ _ _ _ _ W) as [Wl Wn].
      destruct (ihp_core data ps hyam hybm l lb ax n levels p0 a m W Hl Hn Hc) as (pr & o & Dp & Sp & Gp & L1 & L2 & Do & So & Co & Ao & No & Go & Ec).
      rewrite (call_unfold _ _ _ _ _ _ _ _ _ Ha), (Ec a eq_refl eq_refl eq_refl) in E. fold odims in Do.
      destruct (a_extrapolate a) eqn:Ex.
      - destruct (Hx eq_refl) as (H1 & H2 & H3 & H4). unfold vertical_remap_extrap in E.
        destruct (sfc_index pr l) as [k|] eqn:Ek; [|discriminate]. cbn [bind] in E. rewrite Co, out_coords_plev in E by auto. cbn [oget bind] in E.
        match type of E with (if ?c then _ else _) = _ => destruct c; [discriminate|] end. injection E as <-. cbn [dims dat shp get].
        split; auto. split; auto. intros i Hi. destruct (Go i Hi) as (r & Er & Gr). exists r. split; auto. exists k. split.
        { unfold sfc_index in Ek. destruct (index_labels hyam l) as [L|] eqn:EL.
          - rewrite (L1 _ eq_refl) in Ek. auto.
          - destruct H1 as [H1|[H1 H1']]; [congruence|]. rewrite (L2 H1 H1') in Ek. unfold dsize in Ek.
            rewrite Dp, (w_ax _ _ _ _ _ _ _ _ W), Sp, (w_n _ _ _ _ _ _ _ _ W) in Ek. destruct n; [lia|]. injection Ek as <-. f_equal. lia. }
        assert (Li : List.length i = List.length (dims data)) by (apply inb_length in Hi; rewrite So, upd_length in Hi; congruence).
        rewrite Do.
        assert (Eold : getn o (env_of odims i) = nth (nth ax i 0%nat) r nnan) by (rewrite <- Gr; unfold getn; rewrite Do, map_env_o; auto).
        assert (Epr : getn pr (set_env (env_of odims i) l k) = nadd (nmul (get (dat hyam) [k]) p0) (nmul (get (dat hybm) [k]) (surf ps (dims data) i))).
        { unfold getn. rewrite Dp, env_lev by auto. rewrite Gp by (rewrite upd_length; auto).
          rewrite nth_upd, Nat.eqb_refl, Li. pose proof (sindex_nth _ _ _ (w_ax _ _ _ _ _ _ _ _ W)) as [Hax _].
          replace (Nat.ltb ax (List.length (dims data))) with true by (symmetry; apply Nat.ltb_lt; auto). cbn [andb].
          rewrite (surf_upd _ _ _ _ _ _ _ _ i k W Li). reflexivity. }
        pose proof (env_pl i) as El. fold odims in El.
        assert (Ed : getn data (set_env (env_of odims i) l k) = get (dat data) (upd i ax k)) by (unfold getn; rewrite env_lev; auto).
        cbv zeta. rewrite Eold, Epr, El, Ed, env_ps. unfold fill, at_field.
        destruct (a_variable a); [|reflexivity]. destruct (a_t_bot a); [|reflexivity]. destruct (a_phi_sfc a); [|reflexivity].
        destruct (String.eqb s "temperature"); [reflexivity|]. destruct (String.eqb s "geopotential"); reflexivity.
      - injection E as <-. split; auto.
    Qed.
  End One.

  (** what the extrapolation needs to know about the labels *)
  Definition extrap_labels (data hyam hybm : da T) (l lb : string) (a : ihp_args T) : Prop :=
    a_extrapolate a = true -> (index_labels hyam l <> None \/ (slookup l (coords hyam) = None /\ slookup lb (coords hybm) = None)) /\
      NoDup (map fst (coords data)) /\ slookup l (coords data) <> None /\ (~ In "plev"%string (map fst (coords data)) \/ l = "plev"%string).

  Lemma c114_lemma data ps hyam hybm l lb ax n data' ps' hyam' hybm' l' lb' ax' levels p0 a a' m out out' :
    ihp_wf data ps hyam hybm l lb ax n -> ihp_wf data' ps' hyam' hybm' l' lb' ax' n ->
    levels <> [] -> (2 <= n)%nat -> args_ok a l m -> args_ok a' l' m -> chunks_ok a (shp (dat data)) -> chunks_ok a' (shp (dat data')) ->
    a_extrapolate a' = a_extrapolate a -> a_variable a' = a_variable a ->
    extrap_labels data hyam hybm l lb a -> extrap_labels data' hyam' hybm' l' lb' a' ->
    (a_extrapolate a = true -> index_labels hyam' l' = index_labels hyam l) ->
    (forall k, (k < n)%nat -> get (dat hyam') [k] = get (dat hyam) [k] /\ get (dat hybm') [k] = get (dat hybm) [k]) ->
    interp_hybrid_to_pressure (VDa data) (VDa ps) (VDa hyam) (VDa hybm) levels p0 a = Ok out ->
    interp_hybrid_to_pressure (VDa data') (VDa ps') (VDa hyam') (VDa hybm') levels p0 a' = Ok out' ->
    forall i i', inb (shp (dat out)) i -> inb (shp (dat out')) i' -> nth ax' i' 0%nat = nth ax i 0%nat ->
      getn ps' (env_of (dims data') i') = getn ps (env_of (dims data) i) ->
      (forall k, (k < n)%nat -> get (dat data') (upd i' ax' k) = get (dat data) (upd i ax k)) ->
      (a_extrapolate a = true -> (forall L, index_labels hyam l = Some L -> List.length L = n) /\
         (a_variable a = Some "other"%string \/ (exists t t' phi phi', a_t_bot a = Some t /\ a_t_bot a' = Some t' /\ a_phi_sfc a = Some phi /\ a_phi_sfc a' = Some phi' /\
            getn t' (env_of (dims out') i') = getn t (env_of (dims out) i) /\ getn phi' (env_of (dims out') i') = getn phi (env_of (dims out) i)))) ->
      get (dat out') i' = get (dat out) i.
  Proof.
    intros W W' Hl Hn Ha Ha' Hc Hc' Ee Ev Hx Hx' HL Hab E E' i i' Hi Hi' Hj Hs Hd Hf.
    destruct (column_form _ _ _ _ _ _ _ _ W levels p0 a m out Ha Hl Hn Hc Hx E) as (_ & _ & G).
    destruct (column_form _ _ _ _ _ _ _ _ W' levels p0 a' m out' Ha' Hl Hn Hc' Hx' E') as (_ & _ & G').
    destruct (G i Hi) as (r & Er & K). destruct (G' i' Hi') as (r' & Er' & K').
    assert (Ecol : col_at (dat data') ax' i' n = col_at (dat data) ax i n).
    { unfold col_at. apply map_ext_in. intros k Hk. apply in_seq in Hk. apply Hd. lia. }
    assert (Eh : hyb_col hyam' hybm' p0 (surf ps' (dims data') i') n = hyb_col hyam hybm p0 (surf ps (dims data) i) n).
    { unfold hyb_col, surf. rewrite Hs. apply map_ext_in. intros k Hk. apply in_seq in Hk. destruct (Hab k) as [-> ->]; [lia|reflexivity]. }
    rewrite Ecol, Eh, Er in Er'. injection Er' as <-. rewrite Ee in K'. destruct (a_extrapolate a) eqn:Ex; [|congruence].
    destruct K as (k & Ek & Gk). destruct K' as (k' & Ek' & Gk'). rewrite (HL eq_refl), Ek in Ek'. injection Ek' as <-.
    destruct (Hf eq_refl) as [HLn Hf']. cbv zeta in Gk, Gk'.
    assert (Hk : (k < n)%nat).
    { destruct (index_labels hyam l) as [L|]; [|injection Ek as <-; lia]. rewrite <- (HLn L eq_refl).
      assert (AM : forall L q b v, (argmax_from q b v L < q + List.length L)%nat \/ argmax_from q b v L = b).
      { induction L0 as [|y L0 IH]; intros q b v; cbn -[nlt]; auto. destruct (nlt v y).
        - destruct (IH (S q) q y) as [Q|Q]; left; lia.
        - destruct (IH (S q) b v) as [Q|Q]; [left; lia|auto]. }
      assert (NM : forall L q z, nanargmax_from q L = Some z -> (z < q + List.length L)%nat).
      { induction L0 as [|y L0 IH]; intros q z; cbn; [discriminate|]. destruct (isnan y).
        - intros Q. apply IH in Q. lia.
        - intros Q. injection Q as <-. destruct (AM L0 (S q) q y); lia. }
      destruct (nanargmax_from 0 L) eqn:EN; [|discriminate]. injection Ek as <-. apply (NM L 0%nat _ EN). }
    destruct (Hab k Hk) as [A1 A2]. unfold surf in *. rewrite Hj, Hs, A1, A2, (Hd k Hk) in Gk'. rewrite Gk, Gk'. f_equal.
    unfold fill, at_field. rewrite Ev. destruct Hf' as [->|(t & t' & phi & phi' & -> & -> & -> & -> & -> & ->)]; [|reflexivity].
    destruct (a_t_bot a), (a_phi_sfc a), (a_t_bot a'), (a_phi_sfc a'); reflexivity.
  Qed.
End Local.
