(** Facts about the attributes of climatologies. *)
From Coq Require Import List Bool String.
From Verif Require Import PyBase Arr ClimAttrs.
Import ListNotations.

Lemma slookup_sset_same {A} k (v : A) l : slookup k (sset k v l) = Some v.
Proof. induction l as [|[k' w] l IH]; cbn; [rewrite String.eqb_refl; auto|]. destruct (String.eqb k k') eqn:E; cbn; rewrite E; auto. Qed.
Lemma slookup_sset_other {A} k k' (v : A) l : k <> k' -> slookup k (sset k' v l) = slookup k l.
Proof.
  intros H. induction l as [|[k1 w] l IH]; cbn.
  - destruct (String.eqb_spec k k'); congruence.
  - destruct (String.eqb_spec k' k1) as [->|]; cbn; [|rewrite IH; auto].
    destruct (String.eqb_spec k k1); [congruence|auto].
Qed.
Lemma slookup_notin {A} k (l : list (string * A)) : ~ In k (map fst l) -> slookup k l = None.
Proof.
  induction l as [|[k' v] l IH]; cbn; auto. intros H. destruct (String.eqb_spec k k') as [->|]; [tauto|]. apply IH. tauto.
Qed.
Lemma slookup_dupdate k (d e : adict) : NoDup (map fst e) ->
  slookup k (dupdate d e) = match slookup k e with Some v => Some v | None => slookup k d end.
Proof.
  unfold dupdate. revert d. induction e as [|[k' v] e IH]; intros d Hn; cbn; auto. inversion Hn; subst.
  rewrite IH by auto. destruct (String.eqb_spec k k') as [->|].
  - rewrite slookup_notin by auto. apply slookup_sset_same.
  - destruct (slookup k e); auto. apply slookup_sset_other. auto.
Qed.
Lemma sset_new {A} k (v : A) l : ~ In k (map fst l) -> sset k v l = l ++ [(k, v)].
Proof.
  induction l as [|[k' w] l IH]; cbn; auto. intros H. destruct (String.eqb_spec k k') as [->|]; [tauto|]. rewrite IH; tauto.
Qed.
Lemma dupdate_app (d e : adict) : NoDup (map fst (d ++ e)) -> dupdate d e = d ++ e.
Proof.
  unfold dupdate. revert d. induction e as [|[k v] e IH]; intros d Hn; cbn; [rewrite app_nil_r; auto|].
  assert (Hk : ~ In k (map fst d)).
  { rewrite map_app in Hn. cbn in Hn. apply NoDup_remove_2 in Hn. intros H. apply Hn. apply in_or_app. auto. }
  rewrite sset_new, IH; auto; rewrite <- app_assoc; auto.
Qed.
Lemma dupdate_nil (e : adict) : NoDup (map fst e) -> dupdate [] e = e.
Proof. intros H. apply (dupdate_app [] e). auto. Qed.

(** nothing is left *)
Definition bare (o : obj) : Prop := top o = [] /\ forall v, In v (vars o) -> snd v = [].
(** arithmetic drops attributes, as xarray does by default before 2025.11 *)
Definition products_drop (mul : adict -> adict -> adict) : Prop := forall a b, mul a b = [].

Lemma strip_bare o : bare (strip o).
Proof. split; auto. intros v H. apply in_map_iff in H. destruct H as (w & <- & _). auto. Qed.

Section Facts.
  Variables (global : option bool) (mul_top mul_var : adict -> adict -> adict) (sum_default : bool) (warr : adict).

  Lemma keep_plain freq k o : freq <> "season"%string -> freq <> "year"%string ->
    (k = KBool true \/ k = KDefault \/ (k = KNone /\ global <> Some false) ->
       calendar_average_attrs global mul_top mul_var warr freq k o = o /\
       climatology_average_attrs global mul_top mul_var sum_default warr freq k o = o /\
       month_to_season_attrs global k o = o) /\
    (k = KBool false ->
       bare (calendar_average_attrs global mul_top mul_var warr freq k o) /\
       bare (climatology_average_attrs global mul_top mul_var sum_default warr freq k o) /\
       bare (month_to_season_attrs global k o)).
  Proof.
    intros H1 H2. unfold calendar_average_attrs, climatology_average_attrs, month_to_season_attrs, reduced.
    rewrite (proj2 (String.eqb_neq _ _) H1), (proj2 (String.eqb_neq _ _) H2). cbn [orb]. split.
    - intros H. replace (keeps global k true) with true; auto.
      destruct H as [->|[->|[-> Hg]]]; cbn; auto. destruct global as [[]|]; congruence.
    - intros ->. cbn. auto using strip_bare.
  Qed.

  Lemma keep_season_calendar freq k o : freq = "season"%string \/ freq = "year"%string -> NoDup (map fst (top o)) ->
    let r := calendar_average_attrs global mul_top mul_var warr freq k o in
    (k = KBool true \/ k = KDefault \/ (k = KNone /\ global <> Some false) ->
       (forall key v, slookup key (top o) = Some v -> slookup key (top r) = Some v) /\
       (products_drop mul_top -> top r = top o)) /\
    (k = KBool false -> products_drop mul_top -> top r = []).
  Proof.
    intros Hf Hn. cbv zeta. unfold calendar_average_attrs.
    replace (String.eqb freq "season" || String.eqb freq "year") with true by (destruct Hf as [->| ->]; reflexivity).
    split.
    - intros H. assert (E : keeps global k true = true /\ wants k = true).
      { destruct H as [->|[->|[-> Hg]]]; cbn; auto. destruct global as [[]|]; cbn; try congruence; auto. }
      destruct E as [E1 E2]. rewrite E2.
      assert (R : reduced global k true o = o) by (unfold reduced; rewrite E1; auto). rewrite R. cbn [top assign_attrs]. split.
      + intros key v Hv. rewrite slookup_dupdate, Hv; auto.
      + intros Hp. unfold reduced. destruct (keeps global KNone true); cbn [top times strip]; rewrite ?Hp; apply dupdate_nil; auto.
    - intros -> Hp. cbn [wants assign_attrs top]. unfold reduced at 1. destruct (keeps global KNone true); cbn [top times strip reduced keeps];
      rewrite ?Hp; reflexivity.
  Qed.

  Lemma keep_season_climatology k o : NoDup (map fst (top o)) ->
    let r := climatology_average_attrs global mul_top mul_var sum_default warr "season" k o in
    (k = KBool true \/ k = KNone ->
       (forall key v, slookup key (top o) = Some v -> slookup key (top r) = Some v) /\
       (products_drop mul_top -> top r = top o)) /\
    (k = KBool false \/ k = KDefault -> products_drop mul_top -> top r = []).
  Proof.
    intros Hn. cbv zeta. unfold climatology_average_attrs. cbn [String.eqb Ascii.eqb Bool.eqb]. split.
    - intros H. replace (wants_strictly k) with true by (destruct H as [->| ->]; reflexivity). cbn [top assign_attrs]. split.
      + intros key v Hv. rewrite slookup_dupdate, Hv; auto.
      + intros Hp. unfold reduced at 1. destruct (keeps global KNone sum_default); cbn [top times strip]; rewrite ?Hp; apply dupdate_nil; auto.
    - intros H Hp. replace (wants_strictly k) with false by (destruct H as [->| ->]; reflexivity). cbn [assign_attrs top]. unfold reduced at 1.
      destruct (keeps global KNone sum_default); cbn [top times strip]; rewrite ?Hp; reflexivity.
  Qed.

  Lemma keep_anomaly k o d : NoDup (map fst (top o)) ->
    (k <> KBool false -> top (climate_anomaly_attrs k o d) = top o) /\
    (k = KBool false -> top (climate_anomaly_attrs k o d) = []).
  Proof.
    intros Hn. unfold climate_anomaly_attrs. split.
    - intros H. replace (wants k) with true by (destruct k as [|[]|]; cbn; congruence). apply dupdate_nil. auto.
    - intros ->. reflexivity.
  Qed.

  Lemma anomaly_vars k o d v : In v (vars (climate_anomaly_attrs k o d)) -> snd v = [].
  Proof. intros H. apply (strip_bare d). exact H. Qed.
  Lemma season_vars freq k o v : freq = "season"%string \/ freq = "year"%string -> products_drop mul_var ->
    In v (vars (calendar_average_attrs global mul_top mul_var warr freq k o)) \/
    In v (vars (climatology_average_attrs global mul_top mul_var sum_default warr "season" k o)) -> snd v = [].
  Proof.
    intros Hf Hp. unfold calendar_average_attrs, climatology_average_attrs.
    replace (String.eqb freq "season" || String.eqb freq "year") with true by (destruct Hf as [->| ->]; reflexivity).
    cbn [String.eqb Ascii.eqb Bool.eqb]. cbn [vars assign_attrs].
    unfold reduced at 1 3. intros H.
    destruct (keeps global KNone true), (keeps global KNone sum_default); cbn [vars times strip] in H;
      destruct H as [H|H]; repeat (apply in_map_iff in H; let w := fresh in destruct H as (w & <- & H)); cbn; auto.
  Qed.
End Facts.

(** arithmetic keeps the attributes of its left operand *)
Definition products_keep (mul : adict -> adict -> adict) : Prop := forall a b, mul a b = a.
Lemma times_keep mul_top mul_var warr o : products_keep mul_var -> vars (times mul_top mul_var warr o) = vars o.
Proof.
  intros K. unfold times. cbn [vars]. induction (vars o) as [|[n a] l IH]; [reflexivity|]. cbn [map fst snd]. rewrite K, IH. reflexivity.
Qed.
Lemma season_vars_kept global mul_top mul_var sum_default warr freq k o :
  products_keep mul_var -> k = KBool true \/ k = KDefault \/ k = KNone -> global <> Some false ->
    vars (calendar_average_attrs global mul_top mul_var warr freq k o) = vars o /\
    (sum_default = true \/ global = Some true -> vars (climatology_average_attrs global mul_top mul_var sum_default warr "season" k o) = vars o).
Proof.
  intros K Hk G. assert (D : keeps global k true = true) by (destruct Hk as [->|[->| ->]]; destruct global as [[|]|]; cbn; congruence).
  split.
  - unfold calendar_average_attrs, reduced. rewrite D. destruct (_ || _)%bool; [|reflexivity].
    assert (E : keeps global KNone true = true) by (destruct global as [[|]|]; cbn; congruence). rewrite E. cbn [assign_attrs vars]. apply times_keep, K.
  - intros S. unfold climatology_average_attrs, reduced. cbn [String.eqb Ascii.eqb Bool.eqb]. rewrite D.
    assert (E : keeps global KNone sum_default = true) by (destruct S as [S|S]; destruct global as [[|]|]; cbn; congruence). rewrite E. cbn [assign_attrs vars]. apply times_keep, K.
Qed.
