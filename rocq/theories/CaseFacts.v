From Coq Require Import List Bool Arith Lia Ascii String.
From Verif Require Import PyBase Arr XrFacts StrFn GcUtil SpecVar GcUtilFacts SpecCase.
Import ListNotations.
Local Open Scope string_scope.

(** the single characters *)
Lemma ascii_eta c : ascii_of_nat (nat_of_ascii c) = c. Proof. apply ascii_nat_embedding. Qed.
Lemma big_nat k : k < 26 -> nat_of_ascii (big_letter k) = 65 + k.
Proof. intros H. unfold big_letter. apply nat_ascii_embedding. lia. Qed.
Lemma small_nat k : k < 26 -> nat_of_ascii (small_letter k) = 97 + k.
Proof. intros H. unfold small_letter. apply nat_ascii_embedding. lia. Qed.
Lemma big_cases c : (exists k, k < 26 /\ c = big_letter k /\ nat_of_ascii c = 65 + k) \/ ((forall k, k < 26 -> c <> big_letter k) /\ ~ (65 <= nat_of_ascii c <= 90)).
Proof.
  destruct (le_lt_dec 65 (nat_of_ascii c)) as [A|A]; [destruct (le_lt_dec (nat_of_ascii c) 90) as [B|B]|].
  - left. exists (nat_of_ascii c - 65). split; [lia|]. split; [|lia]. unfold big_letter. replace (65 + _) with (nat_of_ascii c) by lia. symmetry. apply ascii_eta.
  - right. split; [|lia]. intros k Hk ->. rewrite big_nat in B by auto. lia.
  - right. split; [|lia]. intros k Hk ->. rewrite big_nat in A by auto. lia.
Qed.
Lemma small_cases c : (exists k, k < 26 /\ c = small_letter k /\ nat_of_ascii c = 97 + k) \/ ((forall k, k < 26 -> c <> small_letter k) /\ ~ (97 <= nat_of_ascii c <= 122)).
Proof.
  destruct (le_lt_dec 97 (nat_of_ascii c)) as [A|A]; [destruct (le_lt_dec (nat_of_ascii c) 122) as [B|B]|].
  - left. exists (nat_of_ascii c - 97). split; [lia|]. split; [|lia]. unfold small_letter. replace (97 + _) with (nat_of_ascii c) by lia. symmetry. apply ascii_eta.
  - right. split; [|lia]. intros k Hk ->. rewrite small_nat in B by auto. lia.
  - right. split; [|lia]. intros k Hk ->. rewrite small_nat in A by auto. lia.
Qed.
Lemma lowered_iff c d : lowered c d <-> d = lower_c c.
Proof.
  unfold lowered, lower_c. destruct (big_cases c) as [(k & Hk & E & En)|[Hn Hr]].
  - rewrite En. rewrite (proj2 (Nat.leb_le 65 (65 + k))), (proj2 (Nat.leb_le (65 + k) 90)) by lia. cbn [andb].
    replace (65 + k + 32) with (97 + k) by lia. fold (small_letter k). split.
    + intros [(j & Hj & Ej & ->)|[Hf _]]; [|destruct (Hf k Hk E)]. assert (65 + j = 65 + k) by (rewrite <- (big_nat j), <- (big_nat k) by auto; congruence). f_equal. lia.
    + intros ->. left. exists k. auto.
  - assert (F : (Nat.leb 65 (nat_of_ascii c) && Nat.leb (nat_of_ascii c) 90)%bool = false).
    { apply andb_false_iff. destruct (le_lt_dec 65 (nat_of_ascii c)); [right|left]; apply Nat.leb_gt; lia. }
    rewrite F. split.
    + intros [(j & Hj & Ej & _)|[_ ->]]; auto. destruct (Hn j Hj Ej).
    + intros ->. right. auto.
Qed.
Lemma raised_iff c d : raised c d <-> d = upper_c c.
Proof.
  unfold raised, upper_c. destruct (small_cases c) as [(k & Hk & E & En)|[Hn Hr]].
  - rewrite En. rewrite (proj2 (Nat.leb_le 97 (97 + k))), (proj2 (Nat.leb_le (97 + k) 122)) by lia. cbn [andb].
    replace (97 + k - 32) with (65 + k) by lia. fold (big_letter k). split.
    + intros [(j & Hj & Ej & ->)|[Hf _]]; [|destruct (Hf k Hk E)]. assert (97 + j = 97 + k) by (rewrite <- (small_nat j), <- (small_nat k) by auto; congruence). f_equal. lia.
    + intros ->. left. exists k. auto.
  - assert (F : (Nat.leb 97 (nat_of_ascii c) && Nat.leb (nat_of_ascii c) 122)%bool = false).
    { apply andb_false_iff. destruct (le_lt_dec 97 (nat_of_ascii c)); [right|left]; apply Nat.leb_gt; lia. }
    rewrite F. split.
    + intros [(j & Hj & Ej & _)|[_ ->]]; auto. destruct (Hn j Hj Ej).
    + intros ->. right. auto.
Qed.
Lemma exchanged_iff a b c d : exchanged a b c d <-> d = (if Ascii.eqb c a then b else c).
Proof. unfold exchanged. destruct (Ascii.eqb_spec c a); intuition congruence. Qed.

(** strings *)
Notation chars := list_ascii_of_string.
Lemma chars_inj s x : chars s = chars x -> s = x.
Proof. intros H. rewrite <- (string_of_list_ascii_of_string s), H. apply string_of_list_ascii_of_string. Qed.
Lemma str_map_iff f (R : ascii -> ascii -> Prop) s x : (forall c d, R c d <-> d = f c) -> (Forall2 R (chars s) (chars x) <-> x = str_map f s).
Proof.
  intros HR. revert x. induction s as [|c s IH]; intros [|d x]; cbn.
  - split; [reflexivity|constructor].
  - split; [intros H; inversion H|discriminate].
  - split; [intros H; inversion H|discriminate].
  - split.
    + intros H. inversion H as [|? ? ? ? H1 H2]; subst. apply HR in H1. apply IH in H2. congruence.
    + intros H. injection H as -> ->. constructor; [apply HR; auto|apply IH; auto].
Qed.
(** capitals within one word *)
Lemma capped_low s x : capped None false (chars s) (chars x) <-> x = lower s.
Proof.
  revert x. induction s as [|c s IH]; intros [|d x]; cbn; try (split; [tauto|discriminate]); [tauto|]. unfold lower. cbn [str_map]. fold (lower s). split.
  - intros [H1 [[F _]|[_ H2]]]; [discriminate|]. apply lowered_iff in H1. apply IH in H2. congruence.
  - intros H. injection H as -> ->. split; [apply lowered_iff; auto|]. right. split; [discriminate|]. apply IH. auto.
Qed.
Lemma capped_word s x : capped None true (chars s) (chars x) <-> x = capitalize s.
Proof.
  destruct s as [|c s]; destruct x as [|d x]; cbn; try (split; [tauto|discriminate]); [tauto|]. split.
  - intros [H1 [[F _]|[_ H2]]]; [discriminate|]. apply raised_iff in H1. apply capped_low in H2. congruence.
  - intros H. injection H as -> ->. split; [apply raised_iff; auto|]. right. split; [discriminate|]. apply capped_low. auto.
Qed.
(** word by word: the first word may already be under way *)
Definition cap_rest (sep : ascii) (up : bool) (s : string) : string :=
  match split sep s with
  | [] => ""
  | w :: ws => join (String sep "") ((if up then capitalize w else lower w) :: map capitalize ws)
  end.
Lemma cap_rest_true sep s : cap_rest sep true s = cap_words sep s.
Proof. unfold cap_rest, cap_words. destruct (split sep s); reflexivity. Qed.
Lemma sep_not_letter_join sep w v ws : join sep (w :: v :: ws) = w ++ sep ++ join sep (v :: ws).
Proof. reflexivity. Qed.
Lemma cap_rest_cons sep up c s : cap_rest sep up (String c s) =
  if Ascii.eqb c sep then String sep (cap_rest sep true s) else String (if up then upper_c c else lower_c c) (cap_rest sep false s).
Proof.
  unfold cap_rest. cbn [split]. pose proof (split_nonempty sep s) as Hn. destruct (Ascii.eqb c sep).
  - destruct (split sep s) as [|w ws]; [congruence|]. cbn [map]. destruct up; rewrite sep_not_letter_join; reflexivity.
  - destruct (split sep s) as [|w ws]; [congruence|].
    destruct ws as [|v ws]; cbn [map]; [destruct up; reflexivity|]. rewrite !sep_not_letter_join. destruct up; reflexivity.
Qed.
Lemma capped_words sep s : raised sep sep -> lowered sep sep -> forall up x, capped (Some sep) up (chars s) (chars x) <-> x = cap_rest sep up s.
Proof.
  intros R0 L0. induction s as [|c s IH]; intros up [|d x].
  - cbn. split; auto. intros _. destruct up; reflexivity.
  - cbn. split; [tauto|]. destruct up; discriminate.
  - rewrite cap_rest_cons. cbn. split; [tauto|]. destruct (Ascii.eqb c sep); discriminate.
  - rewrite cap_rest_cons. cbn [list_ascii_of_string capped]. destruct (Ascii.eqb_spec c sep) as [->|Hc].
    + assert (Es : forall d, (if up then raised sep d else lowered sep d) <-> d = sep).
      { intros e. apply raised_iff in R0. apply lowered_iff in L0. destruct up; [rewrite raised_iff, <- R0|rewrite lowered_iff, <- L0]; tauto. }
      rewrite Es. split.
      * intros [-> [[_ H]|[F _]]]; [|congruence]. apply IH in H. congruence.
      * intros H. injection H as -> ->. split; auto. left. split; auto. apply IH. auto.
    + assert (Es : forall d, (if up then raised c d else lowered c d) <-> d = (if up then upper_c c else lower_c c)).
      { intros e. destruct up; [apply raised_iff|apply lowered_iff]. }
      rewrite Es. split.
      * intros [-> [[F _]|[_ H]]]; [congruence|]. apply IH in H. congruence.
      * intros H. injection H as -> ->. split; auto. right. split; [congruence|]. apply IH. auto.
Qed.

Lemma spelling_iff s x : spelling s x <-> respelled s x.
Proof.
  unfold spelling, respelled. rewrite (str_map_iff lower_c lowered) by apply lowered_iff. rewrite (str_map_iff upper_c raised) by apply raised_iff.
  rewrite capped_word, capped_words by (apply raised_iff || apply lowered_iff; reflexivity). rewrite cap_rest_true.
  assert (E : x = s <-> chars x = chars s) by (split; [congruence|apply chars_inj]). unfold lower, upper. tauto.
Qed.
Lemma long_spelling_iff s x : long_spelling s x <-> long_respelled s x.
Proof.
  unfold long_spelling, long_respelled. rewrite spelling_iff.
  rewrite capped_words by (apply raised_iff || apply lowered_iff; reflexivity). rewrite cap_rest_true.
  rewrite (str_map_iff _ (exchanged " " "_")) by (intros; apply exchanged_iff). rewrite (str_map_iff _ (exchanged "_" " ")) by (intros; apply exchanged_iff).
  unfold replace_c. tauto.
Qed.

(** equality up to case *)
Lemma lowered_same c d : lowered c d -> same_letter c d.
Proof. intros [(k & Hk & -> & ->)|[_ ->]]; [right; exists k; auto|left; auto]. Qed.
Lemma raised_same c d : raised c d -> same_letter c d.
Proof. intros [(k & Hk & -> & ->)|[_ ->]]; [right; exists k; auto|left; auto]. Qed.
Lemma capped_same sep up s x : capped sep up s x -> Forall2 same_letter s x.
Proof.
  revert up x. induction s as [|c s IH]; intros up [|d x]; cbn; try tauto; [constructor|]. intros [H1 H2]. constructor.
  - destruct up; [apply raised_same|apply lowered_same]; auto.
  - destruct H2 as [[_ H]|[_ H]]; apply (IH _ _ H).
Qed.
Lemma Forall2_mono {A B} (P Q : A -> B -> Prop) l r : (forall a b, P a b -> Q a b) -> Forall2 P l r -> Forall2 Q l r.
Proof. intros H F. induction F; constructor; auto. Qed.
Lemma respelled_same s x : respelled s x -> equal_up_to_case s x.
Proof.
  intros [E|[H|[H|[H|H]]]]; unfold equal_up_to_case.
  - rewrite E. clear. induction (chars s) as [|c l IH]; constructor; auto. left. auto.
  - apply (Forall2_mono lowered); auto. apply lowered_same.
  - apply (Forall2_mono raised); auto. apply raised_same.
  - apply (capped_same _ _ _ _ H).
  - apply (capped_same _ _ _ _ H).
Qed.
Lemma long_respelled_same s x : long_respelled s x -> equal_loosely s x.
Proof.
  unfold equal_loosely. intros [H|[H|[H|H]]].
  - apply (Forall2_mono same_letter); [auto|]. apply respelled_same. auto.
  - apply (Forall2_mono same_letter); [auto|]. apply (capped_same _ _ _ _ H).
  - apply (Forall2_mono (exchanged " " "_")); auto. unfold gap. intros c d [[-> ->]|[_ ->]]; [right; auto|left; left; auto].
  - apply (Forall2_mono (exchanged "_" " ")); auto. unfold gap. intros c d [[-> ->]|[_ ->]]; [right; auto|left; left; auto].
Qed.

(** lookup *)
Lemma by_standard_iff std v : by_standard std v <-> std <> "" /\ is_data v = true /\
  exists a, (a = vname v \/ slookup "standard_name" (vattrs v) = Some a) /\ respelled std a.
Proof.
  unfold by_standard, carries. split.
  - intros (H0 & H1 & [H|(a & Ha & H)]); (split; [auto|split; [auto|]]); [exists (vname v)|exists a]; rewrite <- spelling_iff; auto.
  - intros (H0 & H1 & a & [->|Ha] & H); apply spelling_iff in H; split; auto; split; auto. right. eauto.
Qed.
Lemma by_long_iff long v : by_long long v <-> long <> "" /\ is_data v = true /\
  exists a, (a = vname v \/ slookup "long_name" (vattrs v) = Some a) /\ long_respelled long a.
Proof.
  unfold by_long, carries. split.
  - intros (H0 & H1 & [H|(a & Ha & H)]); (split; [auto|split; [auto|]]); [exists (vname v)|exists a]; rewrite <- long_spelling_iff; auto.
  - intros (H0 & H1 & a & [->|Ha] & H); apply long_spelling_iff in H; split; auto; split; auto. right. eauto.
Qed.
Lemma c135_found order ds std long possible : enumerates order ->
  (forall n, find_var order ds std long possible = Ok n -> exists v, wanted ds std long possible v /\ vname v = n) /\
  ((exists v, wanted ds std long possible v) -> exists n, find_var order ds std long possible = Ok n).
Proof.
  intros Ho. split.
  - intros n E. destruct (proj1 (c41_lemma order ds std long possible n Ho) E) as [H|[_ [H|[_ [(p & Hp & Hs) (v & Hv & Hn)]]]]].
    + destruct (first_with_in _ _ _ _ H) as (v & Hi & Hp & Hn). exists v. split; auto. split; auto. left. apply by_standard_iff. auto.
    + destruct (first_with_in _ _ _ _ H) as (v & Hi & Hp & Hn). exists v. split; auto. split; auto. right. left. apply by_long_iff. auto.
    + exists v. split; auto. split; auto. right. right. exists p. split; auto. apply spelling_iff. congruence.
  - intros (v & Hi & Hw). destruct (find_var order ds std long possible) as [n|e] eqn:E; [eauto|]. exfalso.
    pose proof (c41_lemma order ds std long possible "" Ho) as (_ & _ & _ & Hk & He). pose proof (He e E) as ->.
    destruct (proj1 Hk E) as (N1 & N2 & N3). destruct Hw as [H|[H|(p & Hp & H)]].
    + apply (N1 v Hi), by_standard_iff. auto.
    + apply (N2 v Hi), by_long_iff. auto.
    + apply (N3 (vname v)). split; [exists p; split; auto; apply spelling_iff; auto|eauto].
Qed.
Lemma c135_sound order ds std long possible n : enumerates order -> find_var order ds std long possible = Ok n ->
  exists v, In v ds /\ vname v = n /\
    ((exists a, (a = n \/ slookup "standard_name" (vattrs v) = Some a) /\ equal_up_to_case std a) \/
     (exists a, (a = n \/ slookup "long_name" (vattrs v) = Some a) /\ equal_loosely long a) \/
     exists p, In p possible /\ equal_up_to_case p n).
Proof.
  intros Ho E. destruct (proj1 (c135_found order ds std long possible Ho) n E) as (v & (Hi & Hw) & <-). exists v. split; auto. split; auto.
  destruct Hw as [(_ & _ & a & Ha & H)|[(_ & _ & a & Ha & H)|(p & Hp & H)]].
  - left. exists a. split; auto. apply respelled_same. auto.
  - right. left. exists a. split; auto. apply long_respelled_same. auto.
  - right. right. exists p. split; auto. apply respelled_same. auto.
Qed.
