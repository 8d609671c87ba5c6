(** C127: nmse and pearson_r of the same two fields. *)
From Coq Require Import Reals List Bool Arith ZArith Lra Lia String.
From Verif Require Import PyBase Num Arr ArrFacts ChunkFacts Hybrid SpecSum SpecStats Pearson PearsonMore Nmse NmseApi NmseMore NmseCorr PropertiesNmse.
Import ListNotations.
Local Open Scope R_scope.

(** C127.  nmse of two DataArrays and pearson_r of the same values, flattened, with the cosine of latitude as weight and
    incomplete pairs skipped: the error is the sum of three non-negative parts, 1 - r^2 (phase), (sigma_m/sigma_o - r)^2 (amplitude)
    and the squared mean bias over the variance.  So it is never below 1 - r^2. *)
Theorem C127_error_and_correlation :
  forall (X D : Type) (xs : pin (T := fl) -> pin (T := fl) -> option D -> option (pin (T := fl)) -> bool -> bool -> res X),
  forall (cf_lat cf_lon : nin fl -> list string),
  forall o m lat lon la lo t ts na no lv ov dim keep i w x y,
  ready cf_lat cf_lon (NDa o) (NDa m) lat lon -> regular o m lat lon la lo t ts na no lv ov -> evenly_spaced na lv -> evenly_spaced no ov -> inb ts i ->
  let n := (na * no)%nat in
  let flat (a : da fl) := PNd (vec NaN (map (fun k => get (dat a) (i ++ [(k / no)%nat; (k mod no)%nat])) (seq 0 n))) in
  let area := PNd (vec NaN (map (fun k => Fin (cos (lv (k / no)%nat * (PI / 180)))) (seq 0 n))) in
  latitude_sample n (fun k => Fin (lv (k / no)%nat)) (fun k => get (dat o) (i ++ [(k / no)%nat; (k mod no)%nat])) (fun k => get (dat m) (i ++ [(k / no)%nat; (k mod no)%nat])) w x y ->
  good_weights n w -> 0 < variance n w x -> 0 < variance n w y ->
  exists r out v rho, nmse cf_lat cf_lon (NDa o) (NDa m) = Ok (ODa r) /\ get (dat r) i = Fin v /\
    snd (pearson_r X D xs (flat o) (flat m) dim (Some area) true keep None) = Ok (RNp X out) /\ get out [] = Fin rho /\
    v = (1 - rho * rho) + (sqrt (variance n w y / variance n w x) - rho) * (sqrt (variance n w y / variance n w x) - rho)
        + (wmean n w y - wmean n w x) * (wmean n w y - wmean n w x) / variance n w x /\
    1 - rho * rho <= v.
Proof. exact c127_api. Qed.
Print Assumptions C127_error_and_correlation.

(** the fields of C53's example: one point missing, weights 1, 1, 1/2, 0 *)
Example C127_example : exists r out v rho, nmse ex_cf_lat ex_cf_lon (NDa ex_o) (NDa ex_m) = Ok (ODa r) /\ get (dat r) [0%nat] = Fin v /\
  snd (pearson_r unit unit (fun _ _ _ _ _ _ => Err ValueError)
    (PNd (vec NaN (map (fun k => get (dat ex_o) ([0%nat] ++ [(k / 2)%nat; (k mod 2)%nat])) (seq 0 4))))
    (PNd (vec NaN (map (fun k => get (dat ex_m) ([0%nat] ++ [(k / 2)%nat; (k mod 2)%nat])) (seq 0 4)))) None
    (Some (PNd (vec NaN (map (fun k => Fin (cos (nth (k / 2)%nat [0; 60] 0 * (PI / 180)))) (seq 0 4))))) true false None) = Ok (RNp unit out) /\
  get out [] = Fin rho /\ 1 - rho * rho <= v.
Proof.
  destruct (C127_error_and_correlation unit unit (fun _ _ _ _ _ _ => Err ValueError) _ _ _ _ _ _ _ _ _ _ _ _ _ _ None false [0%nat] ex_w ex_x ex_y
    ex_ready ex_regular (ex_even 0 60 ltac:(lra)) (ex_even 0 90 ltac:(lra)) ltac:(apply inb_cons; split; [lia|apply inb_nil]) ex_sample ex_good) as (r & out & v & rho & A & B & C & D & _ & F).
  - assert (M : wmean (2 * 2) ex_w ex_x = 9 / 5) by (unfold wmean; cbn; lra). unfold variance. rewrite M. unfold wmean. cbn. lra.
  - assert (M : wmean (2 * 2) ex_w ex_y = 11 / 5) by (unfold wmean; cbn; lra). unfold variance. rewrite M. unfold wmean. cbn. lra.
  - exists r, out, v, rho. auto.
Qed.
