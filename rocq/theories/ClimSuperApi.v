(** Superposition, order, distance and independence of the elements for climatologies (C137). *)
From Coq Require Import Reals List Bool Arith ZArith Lra Lia String FunctionalExtensionality.
From Verif Require Import PyBase PyFacts Num NumFacts SumFacts ArrFacts ChunkFacts Calendar CalendarFacts SpecClim Climat ClimFacts ClimApi ClimLong ClimKeys ClimKeysApi ClimSeason ClimAnom ClimMore ClimZero
  SpecUnits SpecSuper SpecAffine SpecClimUnits ClimAffine SpecClimSuper ClimSuper.
Import ListNotations.
Local Open Scope R_scope.

Definition amount (x : fl) : R := match x with Fin r => r | _ => 0 end.

(** ** families of numbers closed under averaging *)
Section Avg.
  Variables (I : Type) (i0 : I) (R0 : nat -> (I -> R) -> Prop).
  Hypothesis R_avg : forall k A (r : A -> I -> R) (q : A -> R) (l : list A), (forall x, In x l -> R0 k (r x) /\ 0 < q x) -> rsum (map q l) = 1 -> R0 k (fun i => rsum (map (fun x => q x * r x i) l)).
  Hypothesis R_zero : forall k, R0 k (fun _ => 0).
  Definition PR (k : nat) (v : I -> fl) : Prop := (forall i, v i = NaN) \/ (forall i, exists r, v i = Fin r) /\ R0 k (fun i => amount (v i)).
  Lemma PR_nan k v i j : PR k v -> isnan (v i) = isnan (v j).
  Proof. intros [H|[H _]]; [rewrite !H; reflexivity|]. destruct (H i) as (r & ->), (H j) as (s & ->). reflexivity. Qed.
  Lemma PR_missing k : PR k (fun _ => NaN).
  Proof. left. reflexivity. Qed.
  Lemma PR_fin k (u : I -> R) : R0 k u -> PR k (fun i => Fin (u i)).
  Proof. intros H. right. split; [intros i; eexists; reflexivity|exact H]. Qed.
  Lemma PR_eq k v u : (forall i, v i = Fin (u i)) -> R0 k u -> PR k v.
  Proof. intros E H. replace v with (fun i => Fin (u i)) by (apply functional_extensionality; intros i; symmetry; apply E). apply PR_fin, H. Qed.
  Lemma filter_present k (l : list (I -> fl)) : Forall (PR k) l -> exists rs : list (I -> R), Forall (R0 k) rs /\ forall i, filter (fun x => negb (isnan x)) (map (fun v => v i) l) = map (fun r => Fin (r i)) rs.
  Proof.
    intros H. induction H as [|v t Hv _ (rs & Hr & E)]; [exists []; split; [constructor|reflexivity]|]. destruct Hv as [N|[F Rv]].
    - exists rs. split; [exact Hr|]. intros i. cbn [map filter]. rewrite N. cbn [isnan negb]. apply E.
    - exists ((fun i => amount (v i)) :: rs). split; [constructor; auto|]. intros i. cbn [map filter]. destruct (F i) as (r & Er). rewrite Er. cbn. f_equal. apply E.
  Qed.
  Lemma rsum_const_map {A} (q : R) (l : list A) : rsum (map (fun _ => q) l) = INR (List.length l) * q.
  Proof. induction l as [|x t IH]; [cbn; ring|]. cbn [map rsum List.length]. rewrite S_INR, IH. ring. Qed.
  Lemma rsum_scale_map {A} (q : R) (g : A -> R) (l : list A) : rsum (map (fun x => q * g x) l) = q * rsum (map g l).
  Proof. induction l as [|x t IH]; [cbn; ring|]. cbn [map rsum]. rewrite IH. ring. Qed.
  Lemma PR_mean k (l : list (I -> fl)) : Forall (PR k) l -> PR k (fun i => nanmean (map (fun v => v i) l)).
  Proof.
    intros H. destruct (filter_present k l H) as (rs & Hr & E). destruct rs as [|r0 rs].
    - left. intros i. unfold nanmean. rewrite E. reflexivity.
    - set (L := r0 :: rs) in *. set (q := / INR (List.length L)). assert (PL : 0 < INR (List.length L)) by (apply lt_0_INR; cbn; lia).
      apply (PR_eq k _ (fun i => rsum (map (fun r => q * r i) L))).
      + intros i. unfold nanmean. rewrite E. cbn [map L]. change (Fin (r0 i) :: map (fun r => Fin (r i)) rs) with (map (fun r => Fin (r i)) L).
        replace (map (fun r => Fin (r i)) L) with (map Fin (map (fun r => r i) L)) by apply map_map. rewrite nsum_fin, !map_length.
        change (ofZ (Z.of_nat (List.length L))) with (Fin (IZR (Z.of_nat (List.length L)))). rewrite <- INR_IZR_INZ. cbn [ndiv NumFl fl_div].
        destruct (Req_EM_T _ _) as [Q|Q]; [lra|]. f_equal. change (q * r0 i :: map (fun r : I -> R => q * r i) rs) with (map (fun r : I -> R => q * r i) L). rewrite (rsum_scale_map q (fun r : I -> R => r i) L). unfold q. unfold Rdiv. apply Rmult_comm.
      + apply (R_avg k _ (fun r => r) (fun _ => q)).
        * intros x Hx. split; [rewrite Forall_forall in Hr; apply Hr, Hx|]. apply Rinv_0_lt_compat, PL.
        * rewrite rsum_const_map. unfold q. field. lra.
  Qed.
  Lemma PR_days k A (v : A -> I -> fl) (n : A -> Z) l : (forall x, In x l -> PR k (v x) /\ (forall i, isnan (v x i) = false) /\ (0 < n x)%Z) ->
    PR k (fun i => nansum (map (fun x => nmul (v x i) (ndiv (ofZ (n x)) (ofZ (zsum (map n l))))) l)).
  Proof.
    intros H. destruct l as [|x0 l0]; [apply PR_fin, R_zero|]. set (l := x0 :: l0) in *.
    assert (Pt : 0 < IZR (zsum (map n l))).
    { rewrite zsum_rsum, map_map. apply rsum_pos; [discriminate|]. apply Forall_forall. intros y Hy. apply in_map_iff in Hy. destruct Hy as (x & <- & Hx). apply IZR_lt, (H x Hx). }
    set (t := IZR (zsum (map n l))) in *. apply (PR_eq k _ (fun i => rsum (map (fun x => IZR (n x) / t * amount (v x i)) l))).
    - intros i. transitivity (nansum (map Fin (map (fun x => IZR (n x) / t * amount (v x i)) l))).
      + f_equal. rewrite map_map. apply map_ext_in. intros x Hx. destruct (H x Hx) as (Px & Nx & _).
        assert (E : ndiv (ofZ (n x)) (ofZ (zsum (map n l))) = Fin (IZR (n x) / t)). { change (fl_div (Fin (IZR (n x))) (Fin t) = Fin (IZR (n x) / t)). unfold fl_div. destruct (Req_EM_T t 0) as [Q|Q]; [lra|reflexivity]. }
        rewrite E. destruct Px as [N|[F _]]; [specialize (Nx i); rewrite N in Nx; discriminate|]. destruct (F i) as (r & ->). cbn. f_equal. ring.
      + rewrite nansum_plain by (apply Forall_forall; intros y Hy; apply in_map_iff in Hy; destruct Hy as (? & <- & _); reflexivity). apply nsum_fin.
    - apply (R_avg k _ (fun x i => amount (v x i)) (fun x => IZR (n x) / t)).
      + intros x Hx. destruct (H x Hx) as (Px & Nx & Zx). split; [|apply Rdiv_lt_0_compat; [apply IZR_lt, Zx|exact Pt]]. destruct Px as [N|[_ Q]]; [specialize (Nx i0); rewrite N in Nx; discriminate|exact Q].
      + replace (rsum (map (fun x => IZR (n x) / t) l)) with (rsum (map IZR (map n l)) / t).
        * rewrite <- zsum_rsum. fold t. field. lra.
        * rewrite map_map. clear -Pt. clearbody t l. induction l as [|x r IH]; [cbn; field; lra|]. cbn [map rsum]. rewrite <- IH. field. lra.
  Qed.
  Hypothesis R_add : forall k u v, R0 k u -> R0 k v -> R0 k (fun i => u i + v i).
  Hypothesis R_opp : forall k u, R0 k u -> R0 k (fun i => - u i).
  Lemma PR_sub k u v : PR k u -> PR k v -> PR k (fun i => nsub (u i) (v i)).
  Proof.
    intros [Nu|[Fu Ru]] Hv; [left; intros i; rewrite Nu; reflexivity|]. destruct Hv as [Nv|[Fv Rv]]; [left; intros i; rewrite Nv; destruct (u i); reflexivity|].
    apply (PR_eq k _ (fun i => amount (u i) + - amount (v i))).
    - intros i. destruct (Fu i) as (a & ->), (Fv i) as (b & ->). reflexivity.
    - apply R_add; auto.
  Qed.
  Lemma PR_sum k (l : list (I -> fl)) : Forall (PR k) l -> PR k (fun i => nansum (map (fun v => v i) l)).
  Proof.
    intros H. assert (X : exists rs : list (I -> R), Forall (R0 k) rs /\ forall i, map (fun x => if isnan x then ofZ 0 else x) (map (fun v => v i) l) = map Fin (map (fun r => r i) rs)).
    { induction H as [|v t Hv _ (rs & Hr & E)]; [exists []; split; [constructor|reflexivity]|]. destruct Hv as [N|[F Rv]].
      - exists ((fun _ => 0) :: rs). split; [constructor; auto|]. intros i. cbn [map]. rewrite N. cbn [isnan NumFl fl_isnan]. f_equal. apply E.
      - exists ((fun i => amount (v i)) :: rs). split; [constructor; auto|]. intros i. cbn [map]. destruct (F i) as (r & Er). rewrite Er. cbn [isnan NumFl fl_isnan amount]. f_equal. apply E. }
    destruct X as (rs & Hr & E). apply (PR_eq k _ (fun i => rsum (map (fun r => r i) rs))).
    - intros i. unfold nansum. rewrite E. apply nsum_fin.
    - clear E H. induction Hr as [|r t Rr _ IH]; [apply R_zero|]. cbn [map rsum]. apply (R_add k r); auto.
  Qed.
End Avg.

(** ** two records *)
Section Two.
  Variables (c : cal) (infer_freq : list time -> bool) (empty_exc : exc).
  Variables (Q : nat -> fl -> fl -> Prop) (R0 : nat -> (bool -> R) -> Prop).
  Hypothesis to_R : forall k a b, Q k a b -> (a = NaN /\ b = NaN) \/ exists r s, a = Fin r /\ b = Fin s /\ R0 k (fun i : bool => if i then s else r).
  Hypothesis of_nan : forall k, Q k NaN NaN.
  Hypothesis of_R : forall k r s, R0 k (fun i : bool => if i then s else r) -> Q k (Fin r) (Fin s).
  Hypothesis R_avg : forall k A (r : A -> bool -> R) (q : A -> R) (l : list A), (forall x, In x l -> R0 k (r x) /\ 0 < q x) -> rsum (map q l) = 1 -> R0 k (fun i => rsum (map (fun x => q x * r x i) l)).
  Hypothesis R_zero : forall k, R0 k (fun _ => 0).
  Local Notation P := (PR bool R0).
  Lemma bool_fun {A} (f : bool -> A) : (fun i : bool => if i then f true else f false) = f.
  Proof. apply functional_extensionality. intros []; reflexivity. Qed.
  Lemma Q_P k a b : Q k a b -> P k (fun i : bool => if i then b else a).
  Proof.
    intros H. destruct (to_R k a b H) as [[-> ->]|(r & s & -> & -> & S)]; [left; intros []; reflexivity|]. right. split; [intros []; eexists; reflexivity|].
    rewrite <- bool_fun. exact S.
  Qed.
  Lemma P_Q k v : P k v -> Q k (v false) (v true).
  Proof.
    intros [H|[F S]]; [rewrite !H; apply of_nan|]. rewrite <- bool_fun in S. destruct (F false) as (r & Er), (F true) as (s & Es). rewrite Er, Es in *. apply of_R, S.
  Qed.
  Lemma rep2 {L} w (l l' : list (L * (nat -> fl))) : each2 w Q l l' -> exists z, l = pr bool false z /\ l' = pr bool true z /\ good bool P w z.
  Proof.
    intros H. induction H as [|[t x] [t' y] l l' [E V] _ (z & -> & -> & G)]; [exists []; repeat split; constructor|]. cbn [fst snd] in *. subst t'.
    exists ((t, fun k (i : bool) => if i then y k else x k) :: z). split; [reflexivity|]. split; [reflexivity|]. constructor; [|exact G]. intros k Hk. apply Q_P, V, Hk.
  Qed.
  Lemma pr_each2 {L} w (z : fam bool L) : good bool P w z -> each2 w Q (pr bool false z) (pr bool true z).
  Proof. intros G. unfold each2, pr. induction G as [|s t Hs _ IH]; constructor; auto. split; [reflexivity|]. intros k Hk. cbn [snd]. apply (P_Q k (snd s k)), Hs, Hk. Qed.
  Lemma outs2 {L} w (r : bool -> res (list (L * (nat -> fl)))) : outs bool P w r -> outcomes (each2 w Q) (r false) (r true).
  Proof. intros [(e & H)|(z & H & G)]; rewrite !H; cbn [outcomes]; [reflexivity|apply pr_each2, G]. Qed.
  Lemma clim_outs2 w (r : bool -> res (cout fl)) : clim_outs bool P w r -> outcomes (clim2 w Q) (r false) (r true).
  Proof. intros [(e & H)|[(z & H & G)|(z & H & G)]]; rewrite !H; cbn [outcomes clim2]; [reflexivity|apply pr_each2, G|apply pr_each2, G]. Qed.
  Lemma in2 x y : inputs2 Q x y -> exists z, x = input_of bool (width (inp x)) z (lookup x) (cf_time x) false /\ y = input_of bool (width (inp x)) z (lookup x) (cf_time x) true /\ good bool P (width (inp x)) z.
  Proof.
    destruct x as [[w xs] lx cx], y as [[w' ys] ly cy]. unfold inputs2. cbn [inp width samples lookup cf_time]. intros (-> & -> & -> & H). destruct (rep2 w xs ys H) as (z & -> & -> & G).
    exists z. split; [reflexivity|]. split; [reflexivity|exact G].
  Qed.
  Local Notation nan_ok := (PR_nan bool R0). Local Notation mis_ok := (PR_missing bool R0). Local Notation mean_ok := (PR_mean bool false R0 R_avg R_zero).
  Local Notation days_ok := (PR_days bool false R0 R_avg R_zero).
  Lemma cal2 x y freq td : inputs2 Q x y -> outcomes (each2 (width (inp x)) Q) (calendar_average c infer_freq x freq td) (calendar_average c infer_freq y freq td).
  Proof.
    intros H. destruct (in2 x y H) as (z & Ex & Ey & G). pose proof (cal_outs c infer_freq bool false P nan_ok mis_ok mean_ok days_ok _ z (lookup x) (cf_time x) G freq td) as O.
    apply outs2 in O. rewrite <- Ex, <- Ey in O. exact O.
  Qed.
  Lemma clim2_ok x y freq custom td : inputs2 Q x y -> outcomes (clim2 (width (inp x)) Q) (climatology_average c infer_freq empty_exc x freq custom td) (climatology_average c infer_freq empty_exc y freq custom td).
  Proof.
    intros H. destruct (in2 x y H) as (z & Ex & Ey & G). pose proof (clim_outs_ok c infer_freq empty_exc bool false P nan_ok mis_ok mean_ok days_ok _ z (lookup x) (cf_time x) G freq custom td) as O.
    apply clim_outs2 in O. rewrite <- Ex, <- Ey in O. exact O.
  Qed.
  Lemma m2s2 x y season td : inputs2 Q x y -> outcomes (each2 (width (inp x)) Q) (month_to_season c empty_exc x season td) (month_to_season c empty_exc y season td).
  Proof.
    intros H. destruct (in2 x y H) as (z & Ex & Ey & G). pose proof (m2s_outs c empty_exc bool false P mean_ok _ z (lookup x) (cf_time x) G season td) as O.
    apply outs2 in O. rewrite <- Ex, <- Ey in O. exact O.
  Qed.
  Hypothesis R_add : forall k u v, R0 k u -> R0 k v -> R0 k (fun i => u i + v i).
  Hypothesis R_opp : forall k u, R0 k u -> R0 k (fun i => - u i).
  Lemma anom2 x y freq td : inputs2 Q x y -> outcomes (each2 (width (inp x)) Q) (climate_anomaly c infer_freq empty_exc x freq td) (climate_anomaly c infer_freq empty_exc y freq td).
  Proof.
    intros H. destruct (in2 x y H) as (z & Ex & Ey & G).
    pose proof (anom_outs c infer_freq empty_exc bool false P nan_ok mis_ok mean_ok days_ok _ z (lookup x) (cf_time x) G (PR_sub bool R0 R_add R_opp) (PR_sum bool R0 R_zero R_add) freq td) as O.
    apply outs2 in O. rewrite <- Ex, <- Ey in O. exact O.
  Qed.
End Two.

(** ** three records *)
Inductive trio := X1 | X2 | X3.
Definition tri {A} (a b d : A) (i : trio) : A := match i with X1 => a | X2 => b | X3 => d end.
Section Three.
  Variables (c : cal) (infer_freq : list time -> bool) (empty_exc : exc) (c1 c2 : R).
  Definition R3 (_ : nat) (v : trio -> R) : Prop := v X3 = c1 * v X1 + c2 * v X2.
  Local Notation P := (PR trio R3).
  Lemma R3_avg : forall k A (r : A -> trio -> R) (q : A -> R) (l : list A), (forall x, In x l -> R3 k (r x) /\ 0 < q x) -> rsum (map q l) = 1 -> R3 k (fun i => rsum (map (fun x => q x * r x i) l)).
  Proof.
    intros k A r q l H _. unfold R3 in *. induction l as [|x t IH]; [cbn; ring|]. cbn [map rsum]. rewrite IH by (intros; apply H; right; auto). destruct (H x (or_introl eq_refl)) as [-> _]. ring.
  Qed.
  Lemma R3_zero k : R3 k (fun _ => 0).
  Proof. unfold R3. ring. Qed.
  Lemma R3_add k u v : R3 k u -> R3 k v -> R3 k (fun i => u i + v i).
  Proof. unfold R3. intros -> ->. ring. Qed.
  Lemma R3_opp k u : R3 k u -> R3 k (fun i => - u i).
  Proof. unfold R3. intros ->. ring. Qed.
  Lemma C_P k a b d : combine3 c1 c2 a b d -> P k (tri a b d).
  Proof.
    intros [(-> & -> & ->)|(r & s & -> & -> & ->)]; [left; intros []; reflexivity|]. right. split; [intros []; eexists; reflexivity|]. reflexivity.
  Qed.
  Lemma P_C k v : P k v -> combine3 c1 c2 (v X1) (v X2) (v X3).
  Proof.
    intros [H|[F S]]; [left; rewrite !H; auto|]. unfold R3 in S. destruct (F X1) as (r & E1), (F X2) as (s & E2), (F X3) as (t & E3). rewrite E1, E2, E3 in *. cbn [amount] in S. subst t. right. exists r, s. auto.
  Qed.
  Lemma rep3 {L} w (l l' l'' : list (L * (nat -> fl))) : each3 w (combine3 c1 c2) l l' l'' -> exists z, l = pr trio X1 z /\ l' = pr trio X2 z /\ l'' = pr trio X3 z /\ good trio P w z.
  Proof.
    intros H. induction H as [|t a b d l l' l'' V _ (z & -> & -> & -> & G)]; [exists []; repeat split; constructor|].
    exists ((t, fun k => tri (a k) (b k) (d k)) :: z). split; [reflexivity|]. split; [reflexivity|]. split; [reflexivity|]. constructor; [|exact G]. intros k Hk. apply C_P, V, Hk.
  Qed.
  Lemma pr_each3 {L} w (z : fam trio L) : good trio P w z -> each3 w (combine3 c1 c2) (pr trio X1 z) (pr trio X2 z) (pr trio X3 z).
  Proof. intros G. unfold pr. induction G as [|s t Hs _ IH]; constructor; auto. intros k Hk. apply (P_C k (snd s k)), Hs, Hk. Qed.
  Lemma outs3 {L} w (r : trio -> res (list (L * (nat -> fl)))) : outs trio P w r -> outcomes3 (each3 w (combine3 c1 c2)) (r X1) (r X2) (r X3).
  Proof. intros [(e & H)|(z & H & G)]; rewrite !H; cbn [outcomes3]; [auto|apply pr_each3, G]. Qed.
  Lemma clim_outs3 w (r : trio -> res (cout fl)) : clim_outs trio P w r -> outcomes3 (clim3 w (combine3 c1 c2)) (r X1) (r X2) (r X3).
  Proof. intros [(e & H)|[(z & H & G)|(z & H & G)]]; rewrite !H; cbn [outcomes3 clim3]; [auto|apply pr_each3, G|apply pr_each3, G]. Qed.
  Lemma in3 x y u : inputs3 (combine3 c1 c2) x y u -> exists z, x = input_of trio (width (inp x)) z (lookup x) (cf_time x) X1 /\ y = input_of trio (width (inp x)) z (lookup x) (cf_time x) X2 /\
    u = input_of trio (width (inp x)) z (lookup x) (cf_time x) X3 /\ good trio P (width (inp x)) z.
  Proof.
    destruct x as [[w xs] lx cx], y as [[w' ys] ly cy], u as [[w'' us] lu cu]. unfold inputs3. cbn [inp width samples lookup cf_time]. intros (-> & -> & -> & -> & -> & -> & H). destruct (rep3 w xs ys us H) as (z & -> & -> & -> & G).
    exists z. repeat split; auto.
  Qed.
  Local Notation nan_ok := (PR_nan trio R3). Local Notation mis_ok := (PR_missing trio R3). Local Notation mean_ok := (PR_mean trio X1 R3 R3_avg R3_zero).
  Local Notation days_ok := (PR_days trio X1 R3 R3_avg R3_zero).
  Lemma cal3 x y u freq td : inputs3 (combine3 c1 c2) x y u ->
    outcomes3 (each3 (width (inp x)) (combine3 c1 c2)) (calendar_average c infer_freq x freq td) (calendar_average c infer_freq y freq td) (calendar_average c infer_freq u freq td).
  Proof.
    intros H. destruct (in3 x y u H) as (z & Ex & Ey & Eu & G). pose proof (cal_outs c infer_freq trio X1 P nan_ok mis_ok mean_ok days_ok _ z (lookup x) (cf_time x) G freq td) as O.
    apply outs3 in O. rewrite <- Ex, <- Ey, <- Eu in O. exact O.
  Qed.
  Lemma clim3_ok x y u freq custom td : inputs3 (combine3 c1 c2) x y u ->
    outcomes3 (clim3 (width (inp x)) (combine3 c1 c2)) (climatology_average c infer_freq empty_exc x freq custom td) (climatology_average c infer_freq empty_exc y freq custom td) (climatology_average c infer_freq empty_exc u freq custom td).
  Proof.
    intros H. destruct (in3 x y u H) as (z & Ex & Ey & Eu & G). pose proof (clim_outs_ok c infer_freq empty_exc trio X1 P nan_ok mis_ok mean_ok days_ok _ z (lookup x) (cf_time x) G freq custom td) as O.
    apply clim_outs3 in O. rewrite <- Ex, <- Ey, <- Eu in O. exact O.
  Qed.
  Lemma m2s3 x y u season td : inputs3 (combine3 c1 c2) x y u ->
    outcomes3 (each3 (width (inp x)) (combine3 c1 c2)) (month_to_season c empty_exc x season td) (month_to_season c empty_exc y season td) (month_to_season c empty_exc u season td).
  Proof.
    intros H. destruct (in3 x y u H) as (z & Ex & Ey & Eu & G). pose proof (m2s_outs c empty_exc trio X1 P mean_ok _ z (lookup x) (cf_time x) G season td) as O.
    apply outs3 in O. rewrite <- Ex, <- Ey, <- Eu in O. exact O.
  Qed.
  Lemma anom3 x y u freq td : inputs3 (combine3 c1 c2) x y u ->
    outcomes3 (each3 (width (inp x)) (combine3 c1 c2)) (climate_anomaly c infer_freq empty_exc x freq td) (climate_anomaly c infer_freq empty_exc y freq td) (climate_anomaly c infer_freq empty_exc u freq td).
  Proof.
    intros H. destruct (in3 x y u H) as (z & Ex & Ey & Eu & G).
    pose proof (anom_outs c infer_freq empty_exc trio X1 P nan_ok mis_ok mean_ok days_ok _ z (lookup x) (cf_time x) G (PR_sub trio R3 R3_add R3_opp) (PR_sum trio R3 R3_zero R3_add) freq td) as O.
    apply outs3 in O. rewrite <- Ex, <- Ey, <- Eu in O. exact O.
  Qed.
End Three.

(** ** order, distance, independence of the elements *)
Definition Rle2 (_ : nat) (v : bool -> R) : Prop := v false <= v true.
Lemma Rle2_avg : forall k A (r : A -> bool -> R) (q : A -> R) (l : list A), (forall x, In x l -> Rle2 k (r x) /\ 0 < q x) -> rsum (map q l) = 1 -> Rle2 k (fun i => rsum (map (fun x => q x * r x i) l)).
Proof.
  intros k A r q l H _. unfold Rle2 in *. induction l as [|x t IH]; [cbn; lra|]. cbn [map rsum]. apply Rplus_le_compat; [|apply IH; intros; apply H; right; auto].
  destruct (H x (or_introl eq_refl)) as [L Pq]. apply Rmult_le_compat_l; lra.
Qed.
Lemma Rle2_zero k : Rle2 k (fun _ => 0). Proof. unfold Rle2. lra. Qed.
Lemma below_to k a b : below a b -> (a = NaN /\ b = NaN) \/ exists r s, a = Fin r /\ b = Fin s /\ Rle2 k (fun i : bool => if i then s else r).
Proof. intros [H|(r & s & A & B & C)]; [left; exact H|right; exists r, s; auto]. Qed.
Lemma below_nan : below NaN NaN. Proof. left. auto. Qed.
Lemma below_of (k : nat) r s : Rle2 k (fun i : bool => if i then s else r) -> below (Fin r) (Fin s).
Proof. intros H. right. exists r, s. auto. Qed.

Definition Rnear (e : R) (_ : nat) (v : bool -> R) : Prop := Rabs (v false - v true) <= e.
Lemma Rnear_avg e : forall k A (r : A -> bool -> R) (q : A -> R) (l : list A), (forall x, In x l -> Rnear e k (r x) /\ 0 < q x) -> rsum (map q l) = 1 -> Rnear e k (fun i => rsum (map (fun x => q x * r x i) l)).
Proof.
  intros k A r q l H E. unfold Rnear in *. assert (G : Rabs (rsum (map (fun x => q x * r x false) l) - rsum (map (fun x => q x * r x true) l)) <= rsum (map q l) * e).
  { clear E. induction l as [|x t IH]; [cbn; rewrite Rminus_0_r, Rabs_R0; lra|]. cbn [map rsum].
    specialize (IH ltac:(intros; apply H; right; auto)). destruct (H x (or_introl eq_refl)) as [L Pq].
    match goal with |- Rabs (?a + ?b - (?a' + ?b')) <= _ => replace (a + b - (a' + b')) with (q x * (r x false - r x true) + (b - b')) by ring end.
    eapply Rle_trans; [apply Rabs_triang|]. rewrite Rabs_mult, (Rabs_pos_eq (q x)) by lra. rewrite Rmult_plus_distr_r. apply Rplus_le_compat; [apply Rmult_le_compat_l; lra|exact IH]. }
  rewrite E in G. lra.
Qed.
Lemma Rnear_zero e k : 0 <= e -> Rnear e k (fun _ => 0). Proof. intros H. unfold Rnear. rewrite Rminus_0_r, Rabs_R0. exact H. Qed.
Lemma near_to e k a b : within e a b -> (a = NaN /\ b = NaN) \/ exists r s, a = Fin r /\ b = Fin s /\ Rnear e k (fun i : bool => if i then s else r).
Proof. intros [H|(r & s & A & B & C)]; [left; exact H|right; exists r, s; auto]. Qed.
Lemma near_nan e : within e NaN NaN. Proof. left. auto. Qed.
Lemma near_of e (k : nat) r s : Rnear e k (fun i : bool => if i then s else r) -> within e (Fin r) (Fin s).
Proof. intros H. right. exists r, s. auto. Qed.

Definition Rsame (k0 k : nat) (v : bool -> R) : Prop := k = k0 -> v false = v true.
Lemma Rsame_avg k0 : forall k A (r : A -> bool -> R) (q : A -> R) (l : list A), (forall x, In x l -> Rsame k0 k (r x) /\ 0 < q x) -> rsum (map q l) = 1 -> Rsame k0 k (fun i => rsum (map (fun x => q x * r x i) l)).
Proof. intros k A r q l H _ E. f_equal. apply map_ext_in. intros x Hx. rewrite (proj1 (H x Hx) E). reflexivity. Qed.
Lemma Rsame_zero k0 k : Rsame k0 k (fun _ => 0). Proof. intros _. reflexivity. Qed.
Lemma same_to k0 k a b : agree_at k0 k a b -> (a = NaN /\ b = NaN) \/ exists r s, a = Fin r /\ b = Fin s /\ Rsame k0 k (fun i : bool => if i then s else r).
Proof. intros [H|(r & s & A & B & C)]; [left; exact H|right; exists r, s; auto]. Qed.
Lemma same_nan k0 k : agree_at k0 k NaN NaN. Proof. left. auto. Qed.
Lemma same_of k0 (k : nat) r s : Rsame k0 k (fun i : bool => if i then s else r) -> agree_at k0 k (Fin r) (Fin s).
Proof. intros H. right. exists r, s. auto. Qed.
Lemma Rsame_add k0 k u v : Rsame k0 k u -> Rsame k0 k v -> Rsame k0 k (fun i => u i + v i).
Proof. intros A B E. rewrite (A E), (B E). reflexivity. Qed.
Lemma Rsame_opp k0 k u : Rsame k0 k u -> Rsame k0 k (fun i => - u i).
Proof. intros A E. rewrite (A E). reflexivity. Qed.
