From Coq Require Import List Bool Arith Lia Ascii String.
From Verif Require Import PyBase Arr XrFacts StrFn GcUtil SpecVar.
Import ListNotations.
Local Open Scope string_scope.

Lemma len_str_map f s : String.length (str_map f s) = String.length s.
Proof. induction s; simpl; auto. Qed.
Lemma len_capitalize s : String.length (capitalize s) = String.length s.
Proof. destruct s; simpl; auto. unfold lower. rewrite len_str_map. auto. Qed.
Lemma len_app a b : String.length (a ++ b) = String.length a + String.length b.
Proof. induction a; simpl; auto. Qed.
Lemma split_nonempty c s : split c s <> [].
Proof. destruct s; simpl; [discriminate|]. destruct (Ascii.eqb a c); [discriminate|]. destruct (split c s); discriminate. Qed.
Lemma join_cons sep w ws : ws <> [] -> join sep (w :: ws) = w ++ sep ++ join sep ws.
Proof. destruct ws; [congruence|reflexivity]. Qed.
Lemma len_join_cap c ws : String.length (join (String c "") (map capitalize ws)) = String.length (join (String c "") ws).
Proof.
  induction ws as [|w ws IH]; auto. destruct ws as [|w' ws].
  - apply len_capitalize.
  - change (map capitalize (w :: w' :: ws)) with (capitalize w :: map capitalize (w' :: ws)).
    rewrite (join_cons _ w), (join_cons _ (capitalize w)) by discriminate.
    rewrite !len_app, len_capitalize, IH. auto.
Qed.
Lemma join_split c s : join (String c "") (split c s) = s.
Proof.
  induction s as [|a s IH]; auto. simpl split. destruct (Ascii.eqb_spec a c) as [->|Hn].
  - rewrite join_cons by apply split_nonempty. rewrite IH. reflexivity.
  - destruct (split c s) as [|w ws] eqn:E; [destruct (split_nonempty _ _ E)|].
    destruct ws as [|w' ws]; [simpl in *; congruence|].
    rewrite join_cons by discriminate. rewrite join_cons in IH by discriminate. simpl. rewrite <- IH. reflexivity.
Qed.
Lemma len_cap_words c s : String.length (cap_words c s) = String.length s.
Proof. unfold cap_words. rewrite len_join_cap, join_split. auto. Qed.

Lemma spelling_len s x : spelling s x -> String.length x = String.length s.
Proof.
  intros [->|[->|[->|[->| ->]]]]; auto; try apply len_str_map; [apply len_capitalize|apply len_cap_words].
Qed.
Lemma long_spelling_len s x : long_spelling s x -> String.length x = String.length s.
Proof. intros [H|[->|[->| ->]]]; [apply spelling_len; auto|apply len_cap_words|apply len_str_map|apply len_str_map]. Qed.
Lemma nonempty_len s : s <> "" -> String.length s <> 0.
Proof. destruct s; simpl; congruence. Qed.

Lemma std_variations_spec s x : In x (std_variations s) <-> spelling s x.
Proof. unfold std_variations, spelling. simpl. intuition congruence. Qed.
Lemma long_variations_spec s x : In x (long_variations s) <-> long_spelling s x.
Proof. unfold long_variations, long_spelling, spelling. simpl. intuition congruence. Qed.

(** the variable is a data variable whose name or attribute [key] satisfies P *)
Definition carries (key : string) (P : string -> Prop) (v : dvar) : Prop :=
  is_data v = true /\ (P (vname v) \/ exists a, slookup key (vattrs v) = Some a /\ P a).

Lemma find_first {A} (p q : A -> bool) l v : find p (filter q l) = Some v ->
  exists pre post, l = (pre ++ v :: post)%list /\ q v = true /\ p v = true /\ forall x, In x pre -> q x = true -> p x = false.
Proof.
  induction l as [|a l IH]; simpl; [discriminate|]. intros H.
  assert (Hskip : (q a = true -> p a = false) -> find p (filter q l) = Some v ->
    exists pre post, (a :: l)%list = (pre ++ v :: post)%list /\ q v = true /\ p v = true /\ forall x, In x pre -> q x = true -> p x = false).
  { intros Ha Hf. destruct (IH Hf) as (pre & post & -> & Hq & Hp & Hx).
    exists (a :: pre), post. repeat split; auto. intros x [<-|Hi]; auto. }
  destruct (q a) eqn:Eq.
  - simpl in H. destruct (p a) eqn:Ep.
    + injection H as ->. exists [], l. repeat split; auto. intros x [].
    + apply Hskip; auto.
  - apply Hskip; auto. congruence.
Qed.
Lemma find_filter_none {A} (p q : A -> bool) l : find p (filter q l) = None <-> forall x, In x l -> q x = true -> p x = false.
Proof.
  split.
  - intros H x Hi Hq. apply (find_none _ _ H). apply filter_In. auto.
  - intros H. destruct (find p (filter q l)) eqn:E; auto. apply find_some in E. destruct E as [Hi Hp].
    apply filter_In in Hi. destruct Hi as [Hi Hq]. rewrite (H _ Hi Hq) in Hp. discriminate.
Qed.

Definition match_attr key vars v := smem (vname v) vars
                    || smem (match slookup key (vattrs v) with Some a => a | None => "" end) vars.
Lemma match_attr_spec key vars (P : string -> Prop) v : (forall x, In x vars <-> P x) -> ~ P "" ->
  (match_attr key vars v = true <-> P (vname v) \/ exists a, slookup key (vattrs v) = Some a /\ P a).
Proof.
  intros Hv He. unfold match_attr. rewrite orb_true_iff, !smem_In, !Hv. apply or_iff_compat_l.
  destruct (slookup key (vattrs v)) as [a|].
  - split; [eauto|]. intros (b & Hb & Hp). congruence.
  - split; [tauto|]. intros (b & Hb & _). discriminate.
Qed.

Lemma find_attr_some key vars P ds n : (forall x, In x vars <-> P x) -> ~ P "" ->
  find_attr key vars ds = Some n -> first_with (carries key P) vname ds n.
Proof.
  intros Hv He. unfold find_attr.
  destruct (find _ (filter is_data ds)) as [v|] eqn:E; [|discriminate].
  intros Hn. injection Hn as <-. apply find_first in E. destruct E as (pre & post & -> & Hq & Hp & Hx).
  exists pre, v, post. split; [reflexivity|]. split; [|split; [reflexivity|]].
  - split; auto. apply (match_attr_spec key vars P v Hv He). exact Hp.
  - intros x Hi [Hd Hm]. apply (match_attr_spec key vars P x Hv He) in Hm. specialize (Hx x Hi Hd). unfold match_attr in Hm. congruence.
Qed.
Lemma find_attr_none key vars P ds : (forall x, In x vars <-> P x) -> ~ P "" ->
  (find_attr key vars ds = None <-> forall v, In v ds -> ~ carries key P v).
Proof.
  intros Hv He. unfold find_attr.
  assert (Hn : find (fun v => match_attr key vars v) (filter is_data ds) = None <-> forall v, In v ds -> ~ carries key P v).
  { rewrite find_filter_none. split.
    - intros H v Hi [Hd Hm]. apply (match_attr_spec key vars P v Hv He) in Hm. rewrite (H v Hi Hd) in Hm. discriminate.
    - intros H v Hi Hd. destruct (match_attr key vars v) eqn:E; auto. destruct (H v Hi). split; auto.
      apply (match_attr_spec key vars P v Hv He). auto. }
  rewrite <- Hn. unfold match_attr. destruct (find _ (filter is_data ds)); simpl; split; congruence.
Qed.

(** n is a variable of the dataset and a spelling of one of the possible names *)
Definition candidate (ds : dset) (possible : list string) (n : string) : Prop :=
  (exists p, In p possible /\ spelling p n) /\ exists v, In v ds /\ vname v = n.
(** a set iteration order *)
Definition enumerates (order : list string -> list string) : Prop := forall l x, In x (order l) <-> In x l.

Lemma in_ds_spec ds n : in_ds ds n = true <-> exists v, In v ds /\ vname v = n.
Proof.
  unfold in_ds. rewrite existsb_exists. split; intros (v & Hi & H); exists v; split; auto.
  - apply String.eqb_eq in H. auto.
  - apply String.eqb_eq. auto.
Qed.
Lemma expanded_spec order possible n : enumerates order ->
  (In n (order (flat_map std_variations possible)) <-> exists p, In p possible /\ spelling p n).
Proof.
  intros Ho. pose proof (Ho (flat_map std_variations possible) n) as E. rewrite E, in_flat_map. clear E. split; intros (p & Hp & H); exists p; split; auto; apply std_variations_spec; auto.
Qed.
Lemma candidate_spec order ds possible n : enumerates order ->
  (candidate ds possible n <-> In n (order (flat_map std_variations possible)) /\ in_ds ds n = true).
Proof. intros Ho. unfold candidate. rewrite (expanded_spec order possible n Ho), in_ds_spec. tauto. Qed.

Section C41.
  Variables (order : list string -> list string) (ds : dset) (std long : string) (possible : list string).
  Hypothesis Ho : enumerates order.
  Definition by_standard v := std <> "" /\ carries "standard_name" (spelling std) v.
  Definition by_long v := long <> "" /\ carries "long_name" (long_spelling long) v.

  Lemma first_with_impl {A} (P Q : A -> Prop) name l n : (forall x, P x <-> Q x) -> first_with P name l n -> first_with Q name l n.
  Proof.
    intros H (pre & v & post & -> & Hp & Hn & Hx). exists pre, v, post. split; [reflexivity|].
    split; [apply H; auto|]. split; auto. intros x Hi Hq. apply (Hx x Hi), H. auto.
  Qed.

  Lemma by_std_cases :
    (exists n, (if String.eqb std "" then None else find_attr "standard_name" (std_variations std) ds) = Some n /\
               first_with by_standard vname ds n) \/
    ((if String.eqb std "" then None else find_attr "standard_name" (std_variations std) ds) = None /\
     forall v, In v ds -> ~ by_standard v).
  Proof.
    destruct (String.eqb_spec std "") as [He|He].
    - right. split; auto. intros v _ [H _]. auto.
    - assert (Hne : ~ spelling std "") by (intros H; apply spelling_len in H; apply nonempty_len in He; simpl in H; congruence).
      destruct (find_attr _ _ ds) as [n|] eqn:E.
      + left. exists n. split; auto. eapply first_with_impl; [|eapply find_attr_some; eauto; apply std_variations_spec].
        intros x. unfold by_standard. tauto.
      + right. split; auto. intros v Hi [_ Hc]. revert v Hi Hc.
        apply (proj1 (find_attr_none _ _ _ ds (std_variations_spec std) Hne)); auto.
  Qed.
  Lemma by_long_cases :
    (exists n, (if String.eqb long "" then None else find_attr "long_name" (long_variations long) ds) = Some n /\
               first_with by_long vname ds n) \/
    ((if String.eqb long "" then None else find_attr "long_name" (long_variations long) ds) = None /\
     forall v, In v ds -> ~ by_long v).
  Proof.
    destruct (String.eqb_spec long "") as [He|He].
    - right. split; auto. intros v _ [H _]. auto.
    - assert (Hne : ~ long_spelling long "") by (intros H; apply long_spelling_len in H; apply nonempty_len in He; simpl in H; congruence).
      destruct (find_attr _ _ ds) as [n|] eqn:E.
      + left. exists n. split; auto. eapply first_with_impl; [|eapply find_attr_some; eauto; apply long_variations_spec].
        intros x. unfold by_long. tauto.
      + right. split; auto. intros v Hi [_ Hc]. revert v Hi Hc.
        apply (proj1 (find_attr_none _ _ _ ds (long_variations_spec long) Hne)); auto.
  Qed.

  Lemma find_var_cases :
    (exists n, find_var order ds std long possible = Ok n /\ first_with by_standard vname ds n) \/
    ((forall v, In v ds -> ~ by_standard v) /\
     ((exists n, find_var order ds std long possible = Ok n /\ first_with by_long vname ds n) \/
      ((forall v, In v ds -> ~ by_long v) /\
       ((exists n, find_var order ds std long possible = Ok n /\ candidate ds possible n) \/
        ((forall n, ~ candidate ds possible n) /\ find_var order ds std long possible = Err KeyError))))).
  Proof.
    unfold find_var. destruct by_std_cases as [(n & -> & H)|(-> & H)]; [left; eauto|right; split; auto].
    destruct by_long_cases as [(n & -> & H')|(-> & H')]; [left; eauto|right; split; auto].
    destruct (find (in_ds ds) _) as [n|] eqn:E.
    - left. exists n. split; auto. apply find_some in E. apply (candidate_spec order); auto.
    - right. split; auto. intros n Hc. apply (candidate_spec order) in Hc; auto. destruct Hc as [Hi Hd].
      rewrite (find_none _ _ E n Hi) in Hd. discriminate.
  Qed.

  Lemma find_var_err e : find_var order ds std long possible = Err e -> e = KeyError.
  Proof.
    destruct find_var_cases as [(n & -> & _)|(_ & [(n & -> & _)|(_ & [(n & -> & _)|(_ & ->)])])]; congruence.
  Qed.
End C41.

Lemma first_with_in {A} (P : A -> Prop) name l n : first_with P name l n -> exists v, In v l /\ P v /\ name v = n.
Proof. intros (pre & v & post & -> & Hp & Hn & _). exists v. split; auto. apply in_or_app. right. left. auto. Qed.

(** statement of C41 *)
Lemma c41_lemma order ds std long possible n : enumerates order ->
  (find_var order ds std long possible = Ok n ->
     first_with (by_standard std) vname ds n \/
     ((forall v, In v ds -> ~ by_standard std v) /\
      (first_with (by_long long) vname ds n \/
       ((forall v, In v ds -> ~ by_long long v) /\ candidate ds possible n)))) /\
  (first_with (by_standard std) vname ds n -> find_var order ds std long possible = Ok n) /\
  ((forall v, In v ds -> ~ by_standard std v) -> first_with (by_long long) vname ds n ->
     find_var order ds std long possible = Ok n) /\
  (find_var order ds std long possible = Err KeyError <->
     (forall v, In v ds -> ~ by_standard std v) /\ (forall v, In v ds -> ~ by_long long v) /\
     forall n, ~ candidate ds possible n) /\
  (forall e, find_var order ds std long possible = Err e -> e = KeyError).
Proof.
  intros Ho. pose proof (find_var_cases order ds std long possible Ho) as HC.
  assert (Huniq : forall (P : dvar -> Prop) a b, first_with P vname ds a -> first_with P vname ds b -> a = b).
  { intros P a b (p1 & v1 & q1 & E1 & H1 & <- & N1) (p2 & v2 & q2 & E2 & H2 & <- & N2). subst ds. clear HC.
    revert p2 N2 E2. induction p1 as [|x p1 IH]; intros [|y p2] N2 E2; simpl in E2.
    - congruence.
    - injection E2; intros; subst. destruct (N2 y (or_introl eq_refl)); auto.
    - injection E2; intros; subst. destruct (N1 v2 (or_introl eq_refl)); auto.
    - injection E2; intros E3 Exy. exact (IH (fun z Hz => N1 z (or_intror Hz)) p2 (fun z Hz => N2 z (or_intror Hz)) E3). }
  assert (Hno : forall (P : dvar -> Prop) a, (forall v, In v ds -> ~ P v) -> ~ first_with P vname ds a).
  { intros P a Hn Hf. destruct (first_with_in _ _ _ _ Hf) as (v & Hi & Hp & _). exact (Hn v Hi Hp). }
  destruct HC as [(m & E & Hf)|(Hs & [(m & E & Hf)|(Hl & [(m & E & Hf)|(Hc & E)])])]; rewrite E.
  - split; [intros H; injection H as <-; auto|]. split; [intros H; f_equal; eapply Huniq; eauto|].
    split; [intros H; destruct (Hno _ _ H Hf)|]. split; [|discriminate].
    split; [discriminate|]. intros (H & _). destruct (Hno _ _ H Hf).
  - split; [intros H; injection H as <-; auto|]. split; [intros H; destruct (Hno _ _ Hs H)|].
    split; [intros _ H; f_equal; eapply Huniq; eauto|]. split; [|discriminate].
    split; [discriminate|]. intros (_ & H & _). destruct (Hno _ _ H Hf).
  - split; [intros H; injection H as <-; auto|]. split; [intros H; destruct (Hno _ _ Hs H)|].
    split; [intros _ H; destruct (Hno _ _ Hl H)|]. split; [|discriminate].
    split; [discriminate|]. intros (_ & _ & H). destruct (H m Hf).
  - split; [discriminate|]. split; [intros H; destruct (Hno _ _ Hs H)|].
    split; [intros _ H; destruct (Hno _ _ Hl H)|]. split; [tauto|]. congruence.
Qed.

Lemma c41_optional_lemma order ds std long possible : enumerates order ->
  (find_optional_var order ds std long possible = Ok None <->
     (forall v, In v ds -> ~ by_standard std v) /\ (forall v, In v ds -> ~ by_long long v) /\
     forall n, ~ candidate ds possible n) /\
  (forall n, find_optional_var order ds std long possible = Ok (Some n) <->
             find_var order ds std long possible = Ok n) /\
  (forall e, find_optional_var order ds std long possible <> Err e).
Proof.
  intros Ho. destruct (c41_lemma order ds std long possible "" Ho) as (_ & _ & _ & H & He). rewrite <- H.
  unfold find_optional_var. destruct (find_var order ds std long possible) as [m|e].
  - repeat split; try discriminate; congruence.
  - rewrite (He e eq_refl). repeat split; discriminate.
Qed.

(** C42 *)
Lemma c42_any_candidate ds std long possible n :
  (forall v, In v ds -> ~ by_standard std v) -> (forall v, In v ds -> ~ by_long long v) ->
  candidate ds possible n ->
  exists order, enumerates order /\ find_var order ds std long possible = Ok n.
Proof.
  intros Hs Hl Hc.
  set (order := fun l : list string => if in_dec string_dec n l then n :: l else l).
  assert (Ho : enumerates order).
  { intros l x. unfold order. destruct (in_dec string_dec n l) as [i|i]; [|tauto]. simpl. split; [intros [<-|]|]; auto. }
  exists order. split; auto. unfold find_var.
  destruct (by_std_cases ds std) as [(m & _ & Hf)|(-> & _)].
  { destruct (first_with_in _ _ _ _ Hf) as (v & Hi & Hp & _). destruct (Hs v Hi Hp). }
  destruct (by_long_cases ds long) as [(m & _ & Hf)|(-> & _)].
  { destruct (first_with_in _ _ _ _ Hf) as (v & Hi & Hp & _). destruct (Hl v Hi Hp). }
  apply (candidate_spec order) in Hc; auto. destruct Hc as [Hi Hd]. unfold order in *.
  destruct (in_dec string_dec n _) as [i|i].
  - simpl. rewrite Hd. reflexivity.
  - destruct (i Hi).
Qed.
Lemma c42_unique order ds std long possible n : enumerates order ->
  (forall v, In v ds -> ~ by_standard std v) -> (forall v, In v ds -> ~ by_long long v) ->
  candidate ds possible n -> (forall m, candidate ds possible m -> m = n) ->
  find_var order ds std long possible = Ok n.
Proof.
  intros Ho Hs Hl Hc Hu. destruct (find_var_cases order ds std long possible Ho)
    as [(m & E & Hf)|(_ & [(m & E & Hf)|(_ & [(m & E & Hf)|(Hx & _)])])].
  - destruct (first_with_in _ _ _ _ Hf) as (v & Hi & Hp & _). destruct (Hs v Hi Hp).
  - destruct (first_with_in _ _ _ _ Hf) as (v & Hi & Hp & _). destruct (Hl v Hi Hp).
  - rewrite E, (Hu m Hf). reflexivity.
  - destruct (Hx n Hc).
Qed.
Lemma c42_refuted : exists order1 order2 ds,
  enumerates order1 /\ enumerates order2 /\
  find_var order1 ds "northward_wind" "Meridional wind" ["V"; "vs"; "meridional_wind"] = Ok "V" /\
  find_var order2 ds "northward_wind" "Meridional wind" ["V"; "vs"; "meridional_wind"] = Ok "vs".
Proof.
  exists (fun l => l), (@rev string), [mkVar "V" true []; mkVar "vs" true []].
  split; [intros l x; tauto|]. split; [intros l x; symmetry; apply in_rev|]. split; vm_compute; reflexivity.
Qed.
