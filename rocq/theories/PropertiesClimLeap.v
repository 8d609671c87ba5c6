(** C118: 29 February in hourly and daily climatologies labelled with a year that lacks it. *)
From Coq Require Import Reals List Bool Arith ZArith Lra Lia String Permutation Sorted.
From Verif Require Import PyBase Num NumFacts Calendar CalendarFacts SpecClim Climat ClimFacts ClimApi ClimLong ClimKeys ClimKeysApi ClimDemo ClimLeap.
Import ListNotations.
Local Open Scope Z_scope.

(** C118.  If the first or the last of the dates present (in calendar order) does not exist in the label year, the call fails with
    ValueError.  [no_later]: ClimLeap.v; [label_year], [accepted], [in_year]: as in C60. *)
Theorem C118_edge_date :
  forall (c : cal) (infer_freq : list time -> bool) (empty_exc : exc) x freq f custom td y s,
  (freq = "hour"%string /\ f = Hour \/ freq = "day"%string /\ f = Day) ->
  all_valid c (samples (inp x)) -> accepted c infer_freq x td -> label_year (map fst (samples (inp x))) y ->
  let xs := samples (inp x) in
  In s xs -> ~ valid c (in_year f y (fst s)) ->
  ((forall u, In u xs -> no_later (fst s) (fst u)) \/ (forall u, In u xs -> no_later (fst u) (fst s))) ->
  climatology_average c infer_freq empty_exc x freq custom td = Err ValueError.
Proof. exact c118_edge. Qed.
Print Assumptions C118_edge_date.

(** Otherwise the call need not fail, and its labels need not be right: daily data from 2 March 2019 to 29 February 2020, any values.
    The result has 365 entries labelled with the days of 2019, and the one labelled 1 March 2019 is the value of 29 February 2020; the
    data contain no 1 March. *)
Theorem C118_labels_refuted :
  forall (infer_freq : list time -> bool) (empty_exc : exc) x (v : Z -> nat -> fl) custom td,
  samples (inp x) = daily Greg mar2 feb29 v -> accepted Greg infer_freq x td ->
  exists out, climatology_average Greg infer_freq empty_exc x "day" custom td = Ok (Times out) /\ List.length out = 365%nat /\
    fst (nth 59 out (mkTime 0 0 0 0, fun _ => NaN)) = mkTime 2019 3 1 43200 /\
    forall k r, v feb29 k = Fin r -> snd (nth 59 out (mkTime 0 0 0 0, fun _ => NaN)) k = Fin r.
Proof. exact c118_mislabelled. Qed.
Print Assumptions C118_labels_refuted.

(** C118's hypotheses are met: the record above; and four leap days, 2000 to 2012, labelled with 2006 *)
Definition leap_days : list (time * (nat -> fl)) := map (fun y => (mkTime y 2 29 0, fun _ => Fin 1)) [2000; 2004; 2008; 2012].
Example C118_example : climatology_average Greg regular KeyError (as_input 1 leap_days) "day" [] None = Err ValueError.
Proof.
  apply (C118_edge_date Greg regular KeyError (as_input 1 leap_days) "day" Day [] None 2006 (mkTime 2000 2 29 0, fun _ => Fin 1)).
  - right. split; reflexivity.
  - unfold all_valid. cbn [samples inp as_input]. unfold leap_days. rewrite Forall_map. repeat (apply Forall_cons; [unfold valid; cbn; lia|]). constructor.
  - apply as_input_accepted; [cbn; lia|left; reflexivity].
  - exists 4012. split; [|left; reflexivity].
    exists [2000; 2004; 2008; 2012]. split; [apply Permutation_refl|]. split; [repeat constructor; lia|reflexivity].
  - left. reflexivity.
  - unfold valid, in_year. cbn. lia.
  - left. intros u [<-|[<-|[<-|[<-|[]]]]]; right; cbn; lia.
Qed.
Example C118_record : accepted Greg regular (as_input 1 (daily Greg mar2 feb29 (fun d _ => Fin (IZR d)))) None.
Proof. apply as_input_accepted; [|left; reflexivity]. unfold daily. rewrite map_length, between_length. apply Nat.leb_le. vm_compute. reflexivity. Qed.
