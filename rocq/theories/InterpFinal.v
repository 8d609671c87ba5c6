(** Lemmas behind the interpolation properties C12-C18. *)
From Coq Require Import Reals List Bool Arith ZArith Lra Lia String Permutation.
From Verif Require Import PyBase PyFacts Num NumFacts Arr ArrFacts XrFacts Spec Hybrid HybridFacts Interp1d Interp1dFacts InterpHyb ChunkFacts
  InterpHybFacts InterpColumn InterpApi InterpProps ExtrapFacts InterpExtrap.
Import ListNotations.
Local Open Scope R_scope.

(** the shape of every statement about a non-extrapolating call *)
Definition call_satisfies (data ps hyam hybm : da fl) (ax n : nat) (A B : nat -> R) (levels : list R) (p0 : R)
    (a : ihp_args fl) (m : imethod) (P : (nat -> R) -> (nat -> fl) -> R -> fl -> Prop) : Prop :=
  exists out, interp_hybrid_to_pressure (VDa data) (VDa ps) (VDa hyam) (VDa hybm) (map Fin levels) (Fin p0) a = Ok out /\
    dims out = upd (dims data) ax "plev"%string /\
    shp (dat out) = upd (shp (dat data)) ax (List.length levels) /\
    in_every_column data ps A B p0 ax n m levels out P.

Section Final.
  Variables (data ps hyam hybm : da fl) (l lb : string) (ax n : nat) (A B : nat -> R) (levels : list R) (p0 : R)
    (a : ihp_args fl) (m : imethod).
  Hypothesis H : hyb_call data ps hyam hybm l lb ax n A B levels a m.
  Hypothesis Hex : a_extrapolate a = false.
  Hypothesis Hd : one_direction levels.

  Lemma satisfies_weaken (P : (nat -> R) -> (nat -> fl) -> R -> fl -> Prop) :
    (forall p v x y, distinct_levels p n -> (m = MLog -> (forall k, (k < n)%nat -> 0 < p k) /\ 0 < x) ->
       column_value (vcoord m) p v n x y -> P p v x y) ->
    call_satisfies data ps hyam hybm ax n A B levels p0 a m P.
  Proof.
    intros HP. destruct (call_columns _ _ _ _ _ _ _ _ _ _ _ p0 _ _ H Hex Hd) as (out & E & Do & So & G).
    exists out. split; auto. split; auto. split; auto.
    eapply columns_weaken; [exact G| |].
    - intros p v x y Hdl Hm Hx Hy. apply HP; auto. intros Em. destruct (Hm Em) as [H1 H2]. auto.
    - intros i Hi. eapply in_axis; eauto.
  Qed.

  Lemma column_value_fin f (p : nat -> R) v (V : nat -> R) x y : (forall k, (k < n)%nat -> v k = Fin (V k)) ->
    column_value f p v n x y -> column_value f p (fun k => Fin (V k)) n x y.
  Proof. intros HV. apply column_value_ext; auto. Qed.

  Lemma c12_lemma : call_satisfies data ps hyam hybm ax n A B levels p0 a m
    (fun p v x y => forall V k, (forall j, (j < n)%nat -> v j = Fin (V j)) -> (k < n)%nat -> x = p k -> y = Fin (V k)).
  Proof.
    apply satisfies_weaken. intros p v x y Hdl Hm Hy V k HV Hk Hx.
    eapply (value_node m p n x Hm V); eauto. apply column_value_fin with (v := v); auto.
  Qed.
  Lemma c13_lemma : call_satisfies data ps hyam hybm ax n A B levels p0 a m
    (fun p v x y => ~ out_of_range p n x ->
       exists i j, neighbours p n i j /\ p i <= x <= p j /\
         forall vi vj, v i = Fin vi -> v j = Fin vj ->
           exists r, y = Fin r /\ Rmin vi vj <= r <= Rmax vi vj).
  Proof.
    apply satisfies_weaken. intros p v x y Hdl Hm Hy Hr.
    destruct Hy as [[Ho _]|(i & j & Hc & Ey)]; [contradiction|].
    pose proof Hc as [Hn [Hx _]]. exists i, j. split; auto. split; auto. intros vi vj Hi Hj.
    destruct (bracket_weight m p n x Hm i j Hc) as [Hw _].
    rewrite Ey, Hi, Hj, blend_fin. eexists. split; [reflexivity|].
    set (w := (vcoord m x - vcoord m (p i)) / (vcoord m (p j) - vcoord m (p i))) in *. clearbody w.
    unfold Rmin, Rmax. destruct (Rle_dec vi vj) as [Hle|Hle].
    - assert (0 <= (vj - vi) * w) by (apply Rmult_le_pos; lra).
      assert ((vj - vi) * w <= (vj - vi) * 1) by (apply Rmult_le_compat_l; lra). lra.
    - assert (0 <= (vi - vj) * w) by (apply Rmult_le_pos; lra).
      assert ((vi - vj) * w <= (vi - vj) * 1) by (apply Rmult_le_compat_l; lra). lra.
  Qed.
  Lemma c14_lemma : call_satisfies data ps hyam hybm ax n A B levels p0 a m
    (fun p v x y => (out_of_range p n x -> y = NaN) /\
       ((forall j, (j < n)%nat -> finite (v j)) -> y = NaN -> out_of_range p n x)).
  Proof.
    apply satisfies_weaken. intros p v x y Hdl Hm Hy. split.
    - intros Ho. destruct Hy as [[_ E]|(i & j & [(Hi & Hj & _) [Hx _]] & E)]; auto.
      exfalso. destruct Ho as [Ho|Ho]; [specialize (Ho j Hj)|specialize (Ho i Hi)]; lra.
    - intros HV E. destruct Hy as [[Ho _]|(i & j & [(Hi & Hj & _) _] & E2)]; auto.
      destruct (HV i Hi) as [vi Ei], (HV j Hj) as [vj Ej]. rewrite Ei, Ej, blend_fin in E2. congruence.
  Qed.
  Lemma c15_lemma : call_satisfies data ps hyam hybm ax n A B levels p0 a m
    (fun p v x y => forall c0 c1, (forall k, (k < n)%nat -> v k = Fin (c0 + c1 * vcoord m (p k))) ->
       ~ out_of_range p n x -> y = Fin (c0 + c1 * vcoord m x)).
  Proof.
    apply satisfies_weaken. intros p v x y Hdl Hm Hy c0 c1 HV Hr.
    eapply (value_exact m p n x Hm (fun k => c0 + c1 * vcoord m (p k))); eauto. apply column_value_fin with (v := v); auto.
  Qed.
End Final.

(** ** any order of the requested levels *)
Lemma rev_map_exp l : rev (map exp l) = map exp (rev l).
Proof. symmetry. apply map_rev. Qed.
Lemma sorted_exp l : sorted_le l -> sorted_le (map exp l).
Proof.
  intros Hs i j Hij. rewrite map_length in Hij. rewrite !nth_map_R by lia. specialize (Hs i j Hij).
  destruct Hs as [Hs|Hs]; [apply Rlt_le, exp_increasing; auto|rewrite Hs; lra].
Qed.
Lemma map_exp_ln l : Forall (Rlt 0) l -> map exp (map ln l) = l.
Proof.
  intros Hf. rewrite map_map. rewrite <- (map_id l) at 2. apply map_ext_in. intros x Hx.
  rewrite Forall_forall in Hf. apply exp_ln. apply Hf. auto.
Qed.
Lemma last_map_R (f : R -> R) l : l <> [] -> last (map f l) 0 = f (last l 0).
Proof.
  induction l as [|x [|y l] IH]; intros Hn; [congruence|reflexivity|].
  change (last (map f (x :: y :: l)) 0) with (last (map f (y :: l)) 0). rewrite IH by discriminate. reflexivity.
Qed.
Lemma served_order_ln x x' : Forall (Rlt 0) x -> served_order (map ln x) x' -> served_order x (map exp x').
Proof.
  intros Hp [P S]. assert (P2 : Permutation (map exp x') x).
  { rewrite <- (map_exp_ln x Hp). apply Permutation_map. auto. }
  split; auto. destruct x as [|x0 x].
  - left. split; [cbn; lra|]. apply Permutation_sym, Permutation_nil in P2. rewrite P2. intros i j Hij. cbn in Hij. lia.
  - assert (L : 0 < last (x0 :: x) 0).
    { rewrite Forall_forall in Hp. apply Hp. destruct (exists_last (l := x0 :: x)) as (q & z & E); [discriminate|].
      rewrite E, last_last. apply in_or_app. cbn; auto. }
    rewrite last_map_R in S by discriminate. cbn [map nth] in S. cbn [nth]. inversion Hp; subst.
    destruct S as [[S1 S2]|[S1 S2]].
    + left. split; [apply ln_le_iff; auto|apply sorted_exp; auto].
    + right. split; [apply ln_inj_iff; auto|]. rewrite rev_map_exp. apply sorted_exp; auto.
Qed.
Lemma served_order_unique x x1 x2 : served_order x x1 -> served_order x x2 -> x1 = x2.
Proof.
  intros [P1 S1] [P2 S2]. assert (P : Permutation x1 x2) by (etransitivity; [exact P1|symmetry; auto]).
  destruct S1 as [[A1 S1]|[A1 S1]], S2 as [[A2 S2]|[A2 S2]]; try lra.
  - apply sorted_perm_eq; auto.
  - rewrite <- (rev_involutive x1), <- (rev_involutive x2). f_equal. apply sorted_perm_eq; auto.
    etransitivity; [symmetry; apply Permutation_rev|]. etransitivity; [exact P|apply Permutation_rev].
Qed.
Lemma served_order_exists x : exists x', served_order x x'.
Proof.
  destruct (keys_of_sorted x) as (y & _ & P & S). destruct (Rle_lt_dec (nth 0 x 0) (last x 0)) as [Hle|Hlt].
  - exists y. split; auto.
  - exists (rev y). split; [etransitivity; [symmetry; apply Permutation_rev|auto]|]. right. rewrite rev_involutive. auto.
Qed.

Lemma c17_any data ps hyam hybm l lb ax n A B levels p0 a m :
  hyb_call data ps hyam hybm l lb ax n A B levels a m -> a_extrapolate a = false ->
  exists out served, interp_hybrid_to_pressure (VDa data) (VDa ps) (VDa hyam) (VDa hybm) (map Fin levels) (Fin p0) a = Ok out /\
    served_order levels served /\
    shp (dat out) = upd (shp (dat data)) ax (List.length levels) /\
    in_every_column data ps A B p0 ax n m served out (fun p v x y => column_value (vcoord m) p v n x y).
Proof.
  intros H Hex. destruct (call_values _ _ _ _ _ _ _ _ _ _ _ p0 _ _ H Hex) as (out & E & Do & So & _ & _ & _ & G).
  destruct (served_order_exists levels) as [served Hs]. exists out, served. split; auto. split; auto. split; auto.
  intros i s Hi Hps p Hp Hm. destruct (G i s Hi Hps) as (r & Er & ->). fold p in Er.
  assert (Hserved : Permutation served levels) by apply Hs.
  assert (Hm' : m = MLog -> Forall (Rlt 0) (map p (seq 0 n)) /\ Forall (Rlt 0) levels).
  { intros Em. destruct (Hm Em) as [H1 H2]. split; [apply Forall_levels; auto|].
    rewrite Forall_forall in *. intros z Hz. apply H2. eapply Permutation_in; [symmetry; exact Hserved|auto]. }
  destruct (col_list m levels (map p (seq 0 n)) (col_at (dat data) ax i n)) as (x' & g & S' & Er' & V).
  - rewrite col_at_length, map_length, seq_length. auto.
  - rewrite map_length, seq_length. apply (h_n _ _ _ _ _ _ _ _ _ _ _ _ _ H).
  - apply NoDup_levels. auto.
  - apply (h_levels _ _ _ _ _ _ _ _ _ _ _ _ _ H).
  - auto.
  - assert (r = map g x') by congruence. subst r.
    assert (Hj : (nth ax i 0%nat < List.length levels)%nat) by (eapply in_axis; eauto).
    set (j := nth ax i 0%nat) in *.
    assert (Lx : List.length x' = List.length levels).
    { destruct S' as [P' _]. apply Permutation_length in P'. rewrite map_length in P'. auto. }
    rewrite (nth_indep _ NaN (g 0)), map_nth by (rewrite map_length; lia).
    specialize (V (nth j x' 0)). rewrite map_length, seq_length in V.
    assert (V2 : column_value (fun r => r) (fun k => vcoord m (p k)) (fun k => get (dat data) (upd i ax k)) n (nth j x' 0) (g (nth j x' 0))).
    { eapply column_value_ext; [| |exact V].
      - intros k Hk. cbv beta. rewrite nth_levels; auto.
      - intros k Hk. apply nth_col. auto. }
    destruct m; cbn [vcoord] in *.
    + rewrite map_id in S'. rewrite (served_order_unique _ _ _ Hs S'). exact V2.
    + destruct (Hm eq_refl) as [H1 H2]. destruct (Hm' eq_refl) as [_ H3].
      rewrite (served_order_unique _ _ _ Hs (served_order_ln _ _ H3 S')).
      assert (Hpos : forall y, 0 < exp y) by (intros; apply exp_pos).
      apply column_value_ln; auto.
      * rewrite nth_map_R by lia. apply exp_pos.
      * rewrite nth_map_R by lia. rewrite ln_exp. exact V2.
Qed.

(** ** C18 *)
Lemma c18_lemma data ps hyam hybm l lb ax n kb A B levels p0 a m :
  hyb_call data ps hyam hybm l lb ax n A B levels a m -> a_extrapolate a = true ->
  bottom_level hyam hybm l lb n kb ->
  NoDup (map fst (coords data)) -> slookup l (coords data) <> None ->
  ~ In "plev"%string (map fst (coords data)) \/ l = "plev"%string -> labels_agree ps data = true ->
  (forall F, a_t_bot a = Some F \/ a_phi_sfc a = Some F -> surface_field F data l) ->
  exists out0 out,
    interp_hybrid_to_pressure (VDa data) (VDa ps) (VDa hyam) (VDa hybm) (map Fin levels) (Fin p0)
      (mkIhp (a_method a) (a_lev_dim a) false (a_variable a) (a_t_bot a) (a_phi_sfc a) (cf_name a) (chunks a) (other_dask a) (mb_ok a)) = Ok out0 /\
    interp_hybrid_to_pressure (VDa data) (VDa ps) (VDa hyam) (VDa hybm) (map Fin levels) (Fin p0) a = Ok out /\
    dims out = dims out0 /\ shp (dat out) = shp (dat out0) /\ coords out = coords out0 /\
    shp (dat out) = upd (shp (dat data)) ax (List.length levels) /\
    forall i s, inb (shp (dat out)) i -> getn ps (env_of (dims data) i) = Fin s ->
      let psfc := hyb_pressure A B p0 s kb in
      let x := nth (nth ax i 0%nat) levels 0 in
      let here (F : da fl) := getn F (env_of (dims data) i) in
      (x <= psfc -> get (dat out) i = get (dat out0) i) /\
      (psfc < x ->
         (a_variable a = Some "other"%string -> get (dat out) i = get (dat data) (upd i ax kb)) /\
         (forall t phi tb ph, a_t_bot a = Some t -> a_phi_sfc a = Some phi -> here t = Fin tb -> here phi = Fin ph ->
            0 < s -> 0 < psfc ->
            (a_variable a = Some "temperature"%string -> get (dat out) i = Fin (ec_temperature tb x psfc s ph)) /\
            (a_variable a = Some "geopotential"%string -> get (dat out) i = Fin (ec_height tb x psfc s ph)))).
Proof.
  intros H Hex Hkb Hcn Hcl Hcp Hps HF.
  destruct (c18_core _ _ _ _ _ _ _ _ _ _ _ _ p0 _ _ H Hex Hkb Hcn Hcl Hcp Hps HF)
    as (out0 & out & E0 & E & Dd & Ds & Dc & Do & So & G).
  exists out0, out. split; [exact E0|]. split; [exact E|]. split; auto. split; auto. split; auto. split; [congruence|].
  intros i s Hi Hs psfc x here. destruct (G i s Hi Hs) as [G1 G2]. split; [exact G1|]. intros Hx.
  destruct (G2 Hx) as (F1 & F2 & F3). split; [exact F1|].
  intros t phi tb ph Et Ephi Ht Hph Hs0 Hp0. split; intros Ev.
  - rewrite (F2 Ev t phi Et Ephi). unfold here in *. rewrite Ht, Hph. apply temp_extrapolate_spec; fold psfc x; lra.
  - rewrite (F3 Ev t phi Et Ephi). unfold here in *. rewrite Ht, Hph. apply geo_height_extrapolate_spec; fold psfc x; lra.
Qed.

(** ** C21 *)
Lemma c21_accept data ps hyam hybm lb ax n A B levels p0 a :
  ~ bad_args a -> a_extrapolate a = false ->
  (forall l, a_lev_dim a = Some l \/ (a_lev_dim a = None /\ cf_name a = Some l) ->
     ihp_wf data ps hyam hybm l lb ax n) ->
  (2 <= n)%nat -> levels <> [] -> chunks_ok a (shp (dat data)) ->
  (forall k, (k < n)%nat -> get (dat hyam) [k] = Fin (A k)) ->
  (forall k, (k < n)%nat -> get (dat hybm) [k] = Fin (B k)) ->
  exists out, interp_hybrid_to_pressure (VDa data) (VDa ps) (VDa hyam) (VDa hybm) (map Fin levels) (Fin p0) a = Ok out.
Proof.
  intros Hb Hex W Hn Hl Hc HA HB. destruct (good_args a Hb) as (l & m & Ha).
  assert (H : hyb_call data ps hyam hybm l lb ax n A B levels a m).
  { constructor; auto. apply W. apply (ok_lev _ _ _ Ha). }
  destruct (call_values _ _ _ _ _ _ _ _ _ _ _ p0 _ _ H Hex) as (out & E & _). exists out. exact E.
Qed.

(** ** an unsorted request *)
Definition ex_line : da fl :=
  mkDa ["lev"%string] (mkArr [2]%nat (fun i => Fin (INR (10 * hd 0%nat i)))) [("lev"%string, mkCoord ["lev"%string] (mkArr [2]%nat (fun i => Fin (INR (hd 0%nat i)))))] [] None.
Definition ex_zero : da fl := mkDa ["lev"%string] (mkArr [2]%nat (fun i => Fin 0)) [] [] None.
Definition ex_hya : da fl := mkDa ["lev"%string] (mkArr [2]%nat (fun i => Fin (INR (10 * hd 0%nat i)))) [] [] None.

Definition ex_plain : ihp_args fl := mkIhp "linear" (Some "lev"%string) false None None None None None false false.
Definition ex_scalar : da fl := mkDa [] (mkArr [] (fun _ => Fin 1)) [] [] None.
Lemma ex_line_call levels : levels <> [] ->
  hyb_call ex_line ex_scalar ex_hya ex_zero "lev" "lev" 0%nat 2%nat (fun k => INR (10 * k)) (fun _ => 0) levels ex_plain MLinear.
Proof.
  intros Hl. constructor; try (intros; reflexivity); try lia; auto.
  - constructor; try (intros; reflexivity); cbn.
    + split; [reflexivity|]. repeat constructor; cbn; intuition discriminate.
    + repeat constructor; lia.
    + split; [reflexivity|constructor].
    + intros d [].
    + intros c [].
    + left. intuition discriminate.
    + intros c [<-|[]]; cbn. congruence.
  - constructor; cbn; auto. discriminate.
Qed.
Lemma ex_line_value (out : da fl) served j : shp (dat out) = [List.length served] ->
  in_every_column ex_line ex_scalar (fun k => INR (10 * k)) (fun _ => 0) 1 0 2 MLinear served out
    (fun p v x y => column_value (vcoord MLinear) p v 2 x y) ->
  (j < List.length served)%nat -> 0 <= nth j served 0 <= 10 -> get (dat out) [j] = Fin (nth j served 0).
Proof.
  intros So G Hj Hx. specialize (G [j] 1). rewrite So in G. specialize (G ltac:(unfold inb; repeat constructor; auto) eq_refl). cbv zeta in G. cbn [nth] in G.
  set (p := hyb_pressure (fun k => INR (10 * k)) (fun _ => 0) 1 1) in *.
  assert (P0 : p 0%nat = 0) by (unfold p, hyb_pressure; cbn; lra).
  assert (P1 : p 1%nat = 10) by (unfold p, hyb_pressure; cbn; lra).
  assert (Hd : distinct_levels p 2).
  { intros a b Ha Hb. destruct a as [|[|a]], b as [|[|b]]; try lia; rewrite ?P0, ?P1; lra. }
  specialize (G Hd ltac:(discriminate)).
  rewrite (value_exact MLinear p 2 (nth j served 0) ltac:(discriminate) (fun k => INR (10 * k)) _ G 0 1).
  - cbn [vcoord]. f_equal. lra.
  - intros k Hk. destruct k as [|[|k]]; [| |lia]; cbn [vcoord]; rewrite ?P0, ?P1; cbn; lra.
  - intros [H|H]; [specialize (H 1%nat ltac:(lia))|specialize (H 0%nat ltac:(lia))]; lra.
Qed.
Lemma c17_refuted :
  exists data ps hyam hybm a out c,
    interp_hybrid_to_pressure (VDa data) (VDa ps) (VDa hyam) (VDa hybm) [Fin 1; Fin 3; Fin 2] (Fin 1) a = Ok out /\
    slookup "plev" (coords out) = Some c /\ get (cdat c) [1%nat] = Fin 3 /\
    get (dat out) [1%nat] = Fin 2 /\
    exists out1, interp_hybrid_to_pressure (VDa data) (VDa ps) (VDa hyam) (VDa hybm) [Fin 3] (Fin 1) a = Ok out1 /\
      get (dat out1) [0%nat] = Fin 3.
Proof.
  pose proof (ex_line_call [1; 3; 2] ltac:(discriminate)) as H.
  pose proof (ex_line_call [3] ltac:(discriminate)) as H1.
  destruct (c17_any _ _ _ _ _ _ _ _ _ _ _ 1 _ _ H eq_refl) as (out & served & E & Hs & So & G).
  destruct (c17_any _ _ _ _ _ _ _ _ _ _ _ 1 _ _ H1 eq_refl) as (out1 & served1 & E1 & Hs1 & So1 & G1).
  destruct (call_values _ _ _ _ _ _ _ _ _ _ _ 1 _ _ H eq_refl) as (out' & E' & _ & _ & Co & _).
  assert (out' = out) by (unfold the_call in E'; congruence). subst out'.
  assert (S : served = [1; 2; 3]).
  { apply (served_order_unique [1; 3; 2]); auto. split; [apply perm_skip, perm_swap|]. left. split; [cbn; lra|].
    intros i j Hij. cbn in Hij. do 3 (destruct i; [do 3 (destruct j; [cbn; try lia; lra|]); lia|]). lia. }
  assert (S1 : served1 = [3]).
  { apply (served_order_unique [3]); auto. split; [apply Permutation_refl|]. left. split; [cbn; lra|].
    intros i j Hij. cbn in Hij. do 1 (destruct i; [do 1 (destruct j; [cbn; try lia; lra|]); lia|]). lia. }
  subst served served1.
  exists ex_line, ex_scalar, ex_hya, ex_zero, ex_plain, out. eexists. split; [exact E|].
  split; [rewrite Co; reflexivity|]. split; [reflexivity|]. split.
  - rewrite (ex_line_value out [1; 2; 3] 1); auto; cbn; lra || lia.
  - exists out1. split; [exact E1|]. rewrite (ex_line_value out1 [3] 0); auto; cbn; lra || lia.
Qed.
