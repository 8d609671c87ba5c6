(** C135: which spellings of a name the lookup of dataset variables accepts, character by character. *)
From Coq Require Import List Bool Arith Lia Ascii String.
From Verif Require Import PyBase Arr StrFn GcUtil SpecVar GcUtilFacts SpecCase CaseFacts.
Import ListNotations.
Local Open Scope string_scope.

(** C135.  The lookup finds a variable exactly when some variable is wanted: its name or attribute is the key as
    given, all lower case, all upper case, with a capital at the start or at the start of each underscored word, and
    for long names also with capitals after blanks or with blanks and underscores exchanged.  What it returns is the
    name of such a variable. *)
Theorem C135_lookup_spellings :
  forall order ds std long possible, enumerates order ->
  (forall n, find_var order ds std long possible = Ok n -> exists v, wanted ds std long possible v /\ vname v = n) /\
  ((exists v, wanted ds std long possible v) -> exists n, find_var order ds std long possible = Ok n).
Proof. exact c135_found. Qed.
Print Assumptions C135_lookup_spellings.

(** C135.  Whatever is found equals a key up to letter case (long names: also up to blank or underscore). *)
Theorem C135_found_up_to_case :
  forall order ds std long possible n, enumerates order -> find_var order ds std long possible = Ok n ->
  exists v, In v ds /\ vname v = n /\
    ((exists a, (a = n \/ slookup "standard_name" (vattrs v) = Some a) /\ equal_up_to_case std a) \/
     (exists a, (a = n \/ slookup "long_name" (vattrs v) = Some a) /\ equal_loosely long a) \/
     exists p, In p possible /\ equal_up_to_case p n).
Proof. exact c135_sound. Qed.
Print Assumptions C135_found_up_to_case.

(** C135 is false the other way round: equality up to letter case is not enough to be found. *)
Theorem C135_any_case_refuted :
  exists ds v a, In v ds /\ is_data v = true /\ slookup "standard_name" (vattrs v) = Some a /\ equal_up_to_case "northward_wind" a /\
    forall order, enumerates order -> find_var order ds "northward_wind" "" [] = Err KeyError.
Proof.
  set (v := mkVar "x" true [("standard_name", "northward_WIND")]).
  exists [v], v, "northward_WIND". split; [left; reflexivity|]. split; [reflexivity|]. split; [reflexivity|]. split.
  - unfold equal_up_to_case. cbn [list_ascii_of_string].
    do 10 (apply Forall2_cons; [left; reflexivity|]).
    apply Forall2_cons; [right; exists 22; split; [lia|right; split; reflexivity]|].
    apply Forall2_cons; [right; exists 8; split; [lia|right; split; reflexivity]|].
    apply Forall2_cons; [right; exists 13; split; [lia|right; split; reflexivity]|].
    apply Forall2_cons; [right; exists 3; split; [lia|right; split; reflexivity]|]. apply Forall2_nil.
  - intros order Ho. unfold find_var. cbn. destruct (order []) as [|y l] eqn:E; [reflexivity|].
    exfalso. apply (Ho [] y). rewrite E. left. reflexivity.
Qed.
Print Assumptions C135_any_case_refuted.

(** a long name with underscores is found under the key with blanks, and its capitals are found too *)
Example C135_example :
  let v := mkVar "x" true [("long_name", "Meridional_wind")] in
  let u := mkVar "y" true [("standard_name", "NORTHWARD_WIND")] in
  wanted [v] "" "Meridional wind" [] v /\ wanted [u] "northward_wind" "" [] u /\
  wanted [mkVar "Vs" false []] "" "" ["V"; "vs"] (mkVar "Vs" false []) /\ enumerates (fun l => l) /\
  find_var (fun l => l) [v] "" "Meridional wind" [] = Ok "x" /\ find_var (fun l => l) [u] "northward_wind" "" [] = Ok "y".
Proof.
  cbv zeta. split; [|split; [|split; [|split; [|split; reflexivity]]]].
  - split; [left; reflexivity|]. right. left. split; [discriminate|]. split; [reflexivity|]. exists "Meridional_wind". split; [right; reflexivity|].
    apply long_spelling_iff. right. right. left. reflexivity.
  - split; [left; reflexivity|]. left. split; [discriminate|]. split; [reflexivity|]. exists "NORTHWARD_WIND". split; [right; reflexivity|].
    apply spelling_iff. right. right. left. reflexivity.
  - split; [left; reflexivity|]. right. right. exists "vs". split; [right; left; reflexivity|]. apply spelling_iff. right. right. right. left. reflexivity.
  - intros l x. tauto.
Qed.
