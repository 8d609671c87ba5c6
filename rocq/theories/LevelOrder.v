(** The order of the model levels in interp_hybrid_to_pressure, and the labels of the level dimension (C109, C110). *)
From Coq Require Import Reals List Bool Arith ZArith Lra Lia String Permutation.
From Verif Require Import PyBase PyFacts Num NumFacts Arr ArrFacts XrFacts Hybrid HybridFacts Spec Interp1d Interp1dFacts InterpHyb InterpHybFacts InterpApi ChunkFacts InterpProps InterpFinal InterpExtrap.
Import ListNotations.
Local Open Scope R_scope.

(** [sg] rearranges the positions below n *)
Definition rearranges (n : nat) (sg : nat -> nat) : Prop :=
  (forall k, (k < n)%nat -> (sg k < n)%nat) /\
  (forall j k, (j < n)%nat -> (k < n)%nat -> sg j = sg k -> j = k) /\
  (forall j, (j < n)%nat -> exists k, (k < n)%nat /\ sg k = j).

(** [data'] is [data] with level k taken from level [sg k]; coordinates of other names unchanged *)
Record same_levels (data data' : da fl) (l : string) (ax n : nat) (sg : nat -> nat) : Prop := {
  s_perm : rearranges n sg;
  s_dims : dims data' = dims data;
  s_shape : shp (dat data') = shp (dat data);
  s_cells : forall i, inb (shp (dat data)) i -> get (dat data') i = get (dat data) (upd i ax (sg (nth ax i 0%nat)));
  s_coords : Forall2 (fun p q => fst p = fst q /\ (fst p <> l -> snd p = snd q)) (coords data) (coords data');
  s_attrs : attrs data' = attrs data;
  s_name : daname data' = daname data }.

Lemma out_coords_same {T} {N : Num T} l levels (c c' : list (string * coordv T)) :
  Forall2 (fun p q => fst p = fst q /\ (fst p <> l -> snd p = snd q)) c c' -> out_coords l levels c = out_coords l levels c'.
Proof.
  intros H. unfold out_coords. generalize (@nil (string * coordv T)) as acc. induction H as [|p q c c' [E1 E2] H IH]; intros acc; cbn [fold_left]; auto.
  rewrite <- E1. destruct (String.eqb_spec (fst p) l) as [E|E]; [|rewrite E2 by auto]; apply IH.
Qed.

Lemma bracket_unique p n i j i' j' x : distinct_levels p n -> code_bracket p n i j x -> code_bracket p n i' j' x -> i = i' /\ j = j'.
Proof.
  intros D ((Hi & Hj & Hl & Hn) & Hx & Hb) ((Hi' & Hj' & Hl' & Hn') & Hx' & Hb').
  assert (Ei : p i = p i').
  { apply Rle_antisym.
    - destruct (Hn' i Hi) as [K|K]; [auto|]. destruct Hb as [Hb|Hb]; [lra|]. apply Hb; auto.
    - destruct (Hn i' Hi') as [K|K]; [auto|]. destruct Hb' as [Hb'|Hb']; [lra|]. apply Hb'; auto. }
  assert (Ej : p j = p j').
  { apply Rle_antisym.
    - destruct (Hn j' Hj') as [K|K]; [lra|auto].
    - destruct (Hn' j Hj) as [K|K]; [lra|auto]. }
  split; apply D; auto.
Qed.

Lemma column_value_det f p v n x y y' : distinct_levels p n -> (0 < n)%nat ->
  column_value f p v n x y -> column_value f p v n x y' -> y = y'.
Proof.
  intros D Hn [(O & ->)|(i & j & B & ->)] [(O' & ->)|(i' & j' & B' & ->)]; auto.
  - destruct B' as ((Hi & Hj & _) & Hx & _). destruct O as [O|O]; [specialize (O _ Hj)|specialize (O _ Hi)]; lra.
  - destruct B as ((Hi & Hj & _) & Hx & _). destruct O' as [O|O]; [specialize (O _ Hj)|specialize (O _ Hi)]; lra.
  - destruct (bracket_unique _ _ _ _ _ _ _ D B B') as [-> ->]. reflexivity.
Qed.

Lemma column_value_rearranged f p p' v v' n sg x y : rearranges n sg ->
  (forall k, (k < n)%nat -> p' k = p (sg k)) -> (forall k, (k < n)%nat -> v' k = v (sg k)) ->
  column_value f p' v' n x y -> column_value f p v n x y.
Proof.
  intros (R1 & R2 & R3) Ep Ev [(O & ->)|(i & j & B & ->)].
  - left. split; auto. destruct O as [O|O]; [left|right]; intros k Hk; destruct (R3 k Hk) as (k' & Hk' & <-); rewrite <- Ep by auto; apply O; auto.
  - right. destruct B as ((Hi & Hj & Hl & Hn) & Hx & Hb). exists (sg i), (sg j).
    rewrite !Ep in * by auto. rewrite !Ev by auto. split; auto. split; [|split; auto].
    + split; [auto|]. split; [auto|]. split; [auto|]. intros k Hk. destruct (R3 k Hk) as (k' & Hk' & <-). specialize (Hn k' Hk'). rewrite !Ep in Hn by auto. auto.
    + destruct Hb as [Hb|Hb]; auto. right. intros k Hk. destruct (R3 k Hk) as (k' & Hk' & <-). specialize (Hb k' Hk'). rewrite !Ep in Hb by auto. auto.
Qed.

Lemma distinct_rearranged p p' n sg : rearranges n sg -> (forall k, (k < n)%nat -> p' k = p (sg k)) -> distinct_levels p n -> distinct_levels p' n.
Proof.
  intros (R1 & R2 & R3) Ep D j k Hj Hk E. rewrite !Ep in E by auto. apply R2; auto.
Qed.

Lemma c109_lemma (data data' ps hyam hybm hyam' hybm' : da fl) l lb lb' ax n A B A' B' levels p0 a a' m sg :
  hyb_call data ps hyam hybm l lb ax n A B levels a m -> hyb_call data' ps hyam' hybm' l lb' ax n A' B' levels a' m ->
  a_extrapolate a = false -> a_extrapolate a' = false ->
  same_levels data data' l ax n sg ->
  (forall k, (k < n)%nat -> A' k = A (sg k) /\ B' k = B (sg k)) ->
  exists out out',
    interp_hybrid_to_pressure (VDa data) (VDa ps) (VDa hyam) (VDa hybm) (map Fin levels) (Fin p0) a = Ok out /\
    interp_hybrid_to_pressure (VDa data') (VDa ps) (VDa hyam') (VDa hybm') (map Fin levels) (Fin p0) a' = Ok out' /\
    dims out' = dims out /\ shp (dat out') = shp (dat out) /\ coords out' = coords out /\ attrs out' = attrs out /\ daname out' = daname out /\
    forall i s, inb (shp (dat out)) i -> getn ps (env_of (dims data) i) = Fin s ->
      let p := hyb_pressure A B p0 s in
      distinct_levels p n -> (m = MLog -> (forall k, (k < n)%nat -> 0 < p k) /\ Forall (Rlt 0) levels) ->
      get (dat out') i = get (dat out) i.
Proof.
  intros H H' Hex Hex' S0 HAB.
  destruct (c17_any _ _ _ _ _ _ _ _ _ _ _ p0 _ _ H Hex) as (out & served & E & Hs & So & G).
  destruct (c17_any _ _ _ _ _ _ _ _ _ _ _ p0 _ _ H' Hex') as (out' & served' & E' & Hs' & So' & G').
  destruct (call_values _ _ _ _ _ _ _ _ _ _ _ p0 _ _ H Hex) as (o1 & E1 & D1 & _ & C1 & A1 & N1 & _).
  destruct (call_values _ _ _ _ _ _ _ _ _ _ _ p0 _ _ H' Hex') as (o2 & E2 & D2 & _ & C2 & A2 & N2 & _).
  assert (o1 = out) by (unfold the_call in E1; congruence). assert (o2 = out') by (unfold the_call in E2; congruence). subst o1 o2.
  assert (served' = served) by (eapply served_order_unique; eauto). subst served'.
  destruct S0 as [R Sd Ss Sc Sco Sa Sn].
  exists out, out'. split; auto. split; auto. split; [congruence|]. split; [congruence|].
  split; [rewrite C1, C2; symmetry; apply out_coords_same; auto|]. split; [congruence|]. split; [congruence|].
  intros i s Hi Hps p Hd Hm.
  assert (Ep : forall k, (k < n)%nat -> hyb_pressure A' B' p0 s k = p (sg k)).
  { intros k Hk. unfold p, hyb_pressure. destruct (HAB k Hk) as [-> ->]. reflexivity. }
  assert (Hm2 : m = MLog -> (forall k, (k < n)%nat -> 0 < p k) /\ Forall (Rlt 0) served).
  { intros Em. destruct (Hm Em) as [Q1 Q2]. split; auto. rewrite Forall_forall in *. intros z Hz. apply Q2. eapply Permutation_in; [apply Hs|auto]. }
  assert (Hi' : inb (shp (dat out')) i) by (rewrite So', Ss, <- So; auto).
  specialize (G i s Hi Hps Hd Hm2). fold p in G. rewrite <- Sd in Hps. specialize (G' i s Hi' Hps (distinct_rearranged _ _ _ _ R Ep Hd)).
  assert (Hm3 : m = MLog -> (forall k, (k < n)%nat -> 0 < hyb_pressure A' B' p0 s k) /\ Forall (Rlt 0) served).
  { intros Em. destruct (Hm2 Em) as [Q1 Q2]. split; auto. intros k Hk. rewrite Ep by auto. apply Q1. apply R; auto. }
  specialize (G' Hm3).
  assert (Hn : (2 <= n)%nat) by (apply (h_n _ _ _ _ _ _ _ _ _ _ _ _ _ H)).
  eapply column_value_det; [exact Hd| lia| | exact G].
  eapply column_value_rearranged; [exact R|exact Ep| |exact G'].
  intros k Hk. cbv beta.
  pose proof (h_wf _ _ _ _ _ _ _ _ _ _ _ _ _ H) as W. pose proof (w_n _ _ _ _ _ _ _ _ W) as Wn.
  assert (Hax : (ax < List.length i)%nat).
  { apply inb_length in Hi. rewrite Hi, So, upd_length. apply nth_error_Some. congruence. }
  rewrite Sc.
  - f_equal. rewrite nth_upd, Nat.eqb_refl. replace (Nat.ltb ax (List.length i)) with true by (symmetry; apply Nat.ltb_lt; auto). cbn [andb].
    apply upd_upd.
  - rewrite So in Hi. apply (inb_upd _ _ ax n k) in Hi; [|auto]. rewrite upd_upd in Hi.
    pose proof (upd_same (shp (dat data)) ax 0%nat) as U. rewrite (nth_error_nth _ _ _ Wn) in U. rewrite U in Hi. auto.
Qed.

Lemma no_extrap_call data ps hyam hybm l lb ax n A B levels a m :
  hyb_call data ps hyam hybm l lb ax n A B levels a m -> hyb_call data ps hyam hybm l lb ax n A B levels (no_extrap a) m.
Proof.
  intros [W Hn HA HB Hl Ha Hc]. constructor; auto. destruct Ha; constructor; cbn; auto; discriminate.
Qed.

Lemma Forall2_names (l : string) (c c' : list (string * coordv fl)) :
  Forall2 (fun p q => fst p = fst q /\ (fst p <> l -> snd p = snd q)) c c' -> map fst c' = map fst c.
Proof. intros H. induction H as [|p q c c' [E _] H IH]; cbn; congruence. Qed.
Lemma slookup_names {A B} x (c : list (string * A)) (c' : list (string * B)) : map fst c' = map fst c -> slookup x c <> None -> slookup x c' <> None.
Proof.
  revert c'. induction c as [|[k v] c IH]; intros [|[k' v'] c']; cbn; try congruence. intros E. injection E as -> E. destruct (String.eqb x k); [discriminate|]. apply IH; auto.
Qed.

Lemma c109_extrapolation (data data' ps hyam hybm hyam' hybm' : da fl) l lb lb' ax n kb kb' A B A' B' levels p0 a a' m sg :
  hyb_call data ps hyam hybm l lb ax n A B levels a m -> hyb_call data' ps hyam' hybm' l lb' ax n A' B' levels a' m ->
  a_extrapolate a = true -> a_extrapolate a' = true ->
  a_variable a' = a_variable a -> a_t_bot a' = a_t_bot a -> a_phi_sfc a' = a_phi_sfc a ->
  same_levels data data' l ax n sg ->
  (forall k, (k < n)%nat -> A' k = A (sg k) /\ B' k = B (sg k)) ->
  bottom_level hyam hybm l lb n kb -> bottom_level hyam' hybm' l lb' n kb' -> sg kb' = kb ->
  NoDup (map fst (coords data)) -> slookup l (coords data) <> None ->
  ~ In "plev"%string (map fst (coords data)) \/ l = "plev"%string -> labels_agree ps data = true -> labels_agree ps data' = true ->
  (forall F, a_t_bot a = Some F \/ a_phi_sfc a = Some F -> surface_field F data l /\ surface_field F data' l) ->
  exists out out',
    interp_hybrid_to_pressure (VDa data) (VDa ps) (VDa hyam) (VDa hybm) (map Fin levels) (Fin p0) a = Ok out /\
    interp_hybrid_to_pressure (VDa data') (VDa ps) (VDa hyam') (VDa hybm') (map Fin levels) (Fin p0) a' = Ok out' /\
    dims out' = dims out /\ shp (dat out') = shp (dat out) /\ coords out' = coords out /\
    forall i s, inb (shp (dat out)) i -> getn ps (env_of (dims data) i) = Fin s ->
      let p := hyb_pressure A B p0 s in
      distinct_levels p n -> (m = MLog -> (forall k, (k < n)%nat -> 0 < p k) /\ Forall (Rlt 0) levels) ->
      get (dat out') i = get (dat out) i.
Proof.
  intros H H' Hex Hex' Ev Et Ef S0 HAB Hkb Hkb' Esg Hnd Hl Hp Hlab Hlab' HF.
  destruct (c109_lemma _ _ _ _ _ _ _ _ _ _ _ _ _ _ _ _ _ p0 _ _ _ _ (no_extrap_call _ _ _ _ _ _ _ _ _ _ _ _ _ H) (no_extrap_call _ _ _ _ _ _ _ _ _ _ _ _ _ H') eq_refl eq_refl S0 HAB)
    as (o & o' & E & E' & D & S1 & C & _ & _ & G).
  destruct S0 as [R Sd Ss Sc Sco Sa Sn]. pose proof (Forall2_names _ _ _ Sco) as Enames.
  assert (HF1 : forall F, a_t_bot a = Some F \/ a_phi_sfc a = Some F -> surface_field F data l) by (intros F Q; apply HF; auto).
  assert (HF2 : forall F, a_t_bot a' = Some F \/ a_phi_sfc a' = Some F -> surface_field F data' l) by (rewrite Et, Ef; intros F Q; apply HF; auto).
  destruct (c18_core data ps hyam hybm l lb ax n kb A B levels p0 a m H Hex Hkb Hnd Hl Hp Hlab HF1)
    as (o1 & out & E1 & Eo & D1 & Sh1 & C1 & _ & So1 & G1).
  destruct (c18_core data' ps hyam' hybm' l lb' ax n kb' A' B' levels p0 a' m H' Hex' Hkb'
     ltac:(rewrite Enames; auto) ltac:(eapply slookup_names; eauto) ltac:(rewrite Enames; auto) Hlab' HF2)
    as (o2 & out' & E2 & Eo' & D2 & Sh2 & C2 & _ & So2 & G2).
  unfold the_call in E1, E2, Eo, Eo'. assert (o1 = o) by congruence. assert (o2 = o') by congruence. subst o1 o2.
  exists out, out'. split; auto. split; auto. split; [congruence|]. split; [congruence|]. split; [congruence|].
  intros i s Hi Hps p Hd Hm.
  assert (Hi' : inb (shp (dat out')) i) by (rewrite Sh2, S1, <- Sh1; auto).
  assert (Hps' : getn ps (env_of (dims data') i) = Fin s) by (rewrite Sd; auto).
  assert (Hk' : (kb' < n)%nat) by apply Hkb'.
  specialize (G1 i s Hi Hps). specialize (G2 i s Hi' Hps'). cbv zeta in G1, G2.
  replace (hyb_pressure A' B' p0 s kb') with (hyb_pressure A B p0 s kb) in G2
    by (unfold hyb_pressure; destruct (HAB kb' Hk') as [-> ->]; rewrite Esg; reflexivity).
  set (x := nth (nth ax i 0%nat) levels 0) in *. set (psfc := hyb_pressure A B p0 s kb) in *.
  destruct (Rle_lt_dec x psfc) as [K|K].
  - destruct G1 as [-> _]; auto. destruct G2 as [-> _]; auto. apply (G i s); auto. rewrite <- Sh1. auto.
  - destruct G1 as [_ G1]. specialize (G1 K). destruct G2 as [_ G2]. specialize (G2 K).
    unfold filler in G1, G2. rewrite Ev, Et, Ef in G2. destruct G1 as (F1 & F2 & F3), G2 as (F1' & F2' & F3').
    destruct (ok_var _ _ _ (h_args _ _ _ _ _ _ _ _ _ _ _ _ _ H)) as [Hv|[Hv|[Hv [Ht Hph]]]].
    + exfalso. apply (ok_ext _ _ _ (h_args _ _ _ _ _ _ _ _ _ _ _ _ _ H)); auto.
    + rewrite (F1 Hv), (F1' Hv).
      pose proof (h_wf _ _ _ _ _ _ _ _ _ _ _ _ _ H) as W. pose proof (w_n _ _ _ _ _ _ _ _ W) as Wn.
      assert (Hax : (ax < List.length i)%nat).
      { apply inb_length in Hi. rewrite Hi, Sh1, So1, upd_length. apply nth_error_Some. congruence. }
      rewrite Sc.
      * f_equal. rewrite nth_upd, Nat.eqb_refl. replace (Nat.ltb ax (List.length i)) with true by (symmetry; apply Nat.ltb_lt; auto). cbn [andb].
        rewrite Esg. apply upd_upd.
      * rewrite Sh1, So1 in Hi. apply (inb_upd _ _ ax n kb') in Hi; [|auto]. rewrite upd_upd in Hi.
        pose proof (upd_same (shp (dat data)) ax 0%nat) as U. rewrite (nth_error_nth _ _ _ Wn) in U. rewrite U in Hi. auto.
    + destruct (a_t_bot a) as [t|]; [|congruence]. destruct (a_phi_sfc a) as [phi|]; [|congruence].
      destruct Hv as [Hv|Hv].
      * rewrite (F2 Hv t phi eq_refl eq_refl), (F2' Hv t phi eq_refl eq_refl), Sd. reflexivity.
      * rewrite (F3 Hv t phi eq_refl eq_refl), (F3' Hv t phi eq_refl eq_refl), Sd. reflexivity.
Qed.

(** ** coefficient arrays without level labels, bottom level first *)
Lemma c109_unlabelled (data ps hyam hybm : da fl) l lb ax kb A B levels p0 a m :
  hyb_call data ps hyam hybm l lb ax (S kb) A B levels a m -> a_extrapolate a = true -> a_variable a = Some "other"%string ->
  slookup l (coords hyam) = None -> slookup lb (coords hybm) = None ->
  NoDup (map fst (coords data)) -> slookup l (coords data) <> None ->
  ~ In "plev"%string (map fst (coords data)) \/ l = "plev"%string -> labels_agree ps data = true ->
  (forall F, a_t_bot a = Some F \/ a_phi_sfc a = Some F -> surface_field F data l) ->
  exists out,
    interp_hybrid_to_pressure (VDa data) (VDa ps) (VDa hyam) (VDa hybm) (map Fin levels) (Fin p0) a = Ok out /\
    shp (dat out) = upd (shp (dat data)) ax (List.length levels) /\
    forall i s, inb (shp (dat out)) i -> getn ps (env_of (dims data) i) = Fin s ->
      let p := hyb_pressure A B p0 s in
      p kb < nth (nth ax i 0%nat) levels 0 -> get (dat out) i = get (dat data) (upd i ax kb).
Proof.
  intros H Hex Hv N1 N2 Hnd Hl Hp Hlab HF.
  assert (Hkb : bottom_level hyam hybm l lb (S kb) kb) by (split; [lia|right; auto]).
  destruct (c18_core data ps hyam hybm l lb ax (S kb) kb A B levels p0 a m H Hex Hkb Hnd Hl Hp Hlab HF)
    as (o1 & out & E1 & Eo & D1 & Sh1 & C1 & _ & So1 & G1).
  exists out. split; auto. split; [congruence|]. intros i s Hi Hps p Hx. apply (G1 i s Hi Hps); auto.
Qed.

(** ** the labels of the data's level dimension are not looked at (any number type, any arguments) *)
Lemma c110_lemma (T : Type) (N : Num T) (data data' : da T) (ps hyam hybm : val T) levels p0 a l :
  a_lev_dim a = Some l \/ (a_lev_dim a = None /\ cf_name a = Some l) ->
  dims data' = dims data -> dat data' = dat data -> attrs data' = attrs data -> daname data' = daname data ->
  Forall2 (fun p q => fst p = fst q /\ (fst p <> l -> snd p = snd q)) (coords data) (coords data') ->
  interp_hybrid_to_pressure (VDa data') ps hyam hybm levels p0 a = interp_hybrid_to_pressure (VDa data) ps hyam hybm levels p0 a.
Proof.
  intros Hl Ed Et Ea En Hc. unfold interp_hybrid_to_pressure.
  replace (ihp_checks (VDa data') ps hyam hybm a) with (ihp_checks (VDa data) ps hyam hybm a) by reflexivity.
  destruct (ihp_checks (VDa data) ps hyam hybm a) as [[lev m]|e] eqn:Ec; [|reflexivity]. cbn [bind fst snd].
  assert (lev = l).
  { unfold ihp_checks in Ec. do 4 match type of Ec with (if ?b then _ else _) = _ => destruct b; [discriminate|] end.
    destruct Hl as [Hl|[Hl Hcf]]; rewrite Hl in Ec; [|rewrite Hcf in Ec]; cbn [bind oget] in Ec; destruct (func_interpolate _); cbn in Ec; congruence. }
  subst lev.
  assert (Eo : forall p ya yb, ihp_compute l m data' p ya yb levels p0 a = ihp_compute l m data p ya yb levels p0 a).
  { intros p ya yb. unfold ihp_compute. rewrite Ed, Et, Ea, En, <- (out_coords_same _ _ _ _ Hc).
    destruct (oget _ _) as [ax|]; [|reflexivity]. cbn [bind].
    destruct (pressure_at_hybrid_levels _ _ _ _) as [pr|]; [|reflexivity]. cbn [bind]. destruct (snd pr); try reflexivity.
    destruct (xr_transpose _ _) as [pressure|]; [|reflexivity]. cbn [bind].
    match goal with |- bind ?X _ = bind ?X _ => destruct X as [out|]; [|reflexivity] end. cbn [bind].
    destruct (negb _); [reflexivity|]. destruct (negb _); [reflexivity|]. destruct (a_extrapolate a); [|reflexivity].
    unfold vertical_remap_extrap, getn. rewrite Ed, Et. reflexivity. }
  destruct ps, hyam, hybm; try reflexivity; apply Eo.
Qed.
