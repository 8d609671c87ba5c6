(** The order of the dates.  Resampling wants a time index in increasing order (repeated dates allowed) and raises ValueError otherwise (xarray,
    Dataset.resample); Climat.v leaves this check out.  The functions below are those of Climat.v with the check added in front of every resampling
    of the argument.  Resampled data are in order, so that the second resampling of calendar_average needs none. *)
From Coq Require Import List Bool Arith ZArith String.
From Verif Require Import PyBase Num Calendar Climat.
Import ListNotations.
Local Open Scope Z_scope.

Section Order.
  Context {T : Type} {NT : Num T}.
  Variables (c : cal) (infer_freq : list time -> bool) (empty_exc : exc).

  (** Not in /repo: is_monotonic_increasing of a time index *)
  Fixpoint in_order (ts : list time) : bool :=
    match ts with
    | t :: ((u :: _) as r) => (instant c t <=? instant c u) && in_order r
    | _ => true
    end.
  (** climatologies.py:422-427 and 594-600: the count by months resamples *)
  Definition check_uniform_ord (ts : list time) : res unit :=
    guard Nat.ltb (List.length ts) 3 raise ValueError ;;
    if infer_freq ts then Ok tt
    else guard negb (in_order ts) raise ValueError ;; check_uniform c infer_freq ts.
  (** calendar_average, climatologies.py:344-468 *)
  Definition calendar_average_ord (x : input T) (freq : string) (time_dim : option string) : res (list (time * frame T)) :=
    do _ <- oget ValueError (cal_freq freq) ;;                                               (* 408-411 *)
    do _ <- time_info x time_dim ;;                                                          (* 420 *)
    do _ <- check_uniform_ord (map fst (samples (inp x))) ;;                                 (* 423-427 *)
    guard negb (in_order (map fst (samples (inp x)))) raise ValueError ;;                    (* 433-434 *)
    calendar_average c infer_freq x freq time_dim.
  (** 624-641 for one season *)
  Definition season_mean_ord (f : per) (w : nat) (ms : Z * Z * Z) (xs : list (time * frame T)) : res (frame T) :=
    let sel := filter (fun s => in_months ms (fst s)) xs in                                  (* 628 *)
    guard Nat.eqb (List.length sel) 0 raise empty_exc ;;
    guard negb (in_order (map fst sel)) raise ValueError ;;                                  (* 631-632 *)
    season_mean c empty_exc f w ms xs.
  (** climatology_average, climatologies.py:471-672; only the seasons are resampled *)
  Definition climatology_average_ord (x : input T) (freq : string) (custom : list string) (time_dim : option string) : res (cout T) :=
    do f <- oget ValueError (clim_freq freq) ;;                                              (* 575-578 *)
    do _ <- time_info x time_dim ;;                                                          (* 592 *)
    do _ <- check_uniform_ord (map fst (samples (inp x))) ;;                                 (* 595-600 *)
    if String.eqb freq "season" then
      let ss := match custom with [] => ["DJF"; "JJA"; "MAM"; "SON"]%string | _ => custom end in   (* 610-614 *)
      guard negb (forallb (fun s => match find_season s with Some _ => true | None => false end) ss) raise ValueError ;;   (* 616-620 *)
      do l <- mapM (fun s => do ms <- oget KeyError (find_season s) ;; do fr <- season_mean_ord f (width (inp x)) ms (samples (inp x)) ;; Ok (s, fr)) ss ;;
      Ok (Seasons l)                                                                         (* 622-646 *)
    else climatology_average c infer_freq empty_exc x freq custom time_dim.
  (** climate_anomaly, climatologies.py:125-218 *)
  Definition climate_anomaly_ord (x : input T) (freq : string) (time_dim : option string) : res (list (time * frame T)) :=
    do n <- time_info x time_dim ;;                                                          (* 186 *)
    guard negb (String.eqb freq "day" || String.eqb freq "month" || String.eqb freq "season" || String.eqb freq "year") raise ValueError ;;   (* 198-201 *)
    do _ <- (if String.eqb freq "year" then rmap Times (calendar_average_ord x freq (Some n))
             else climatology_average_ord x freq [] (Some n)) ;;                             (* 204-209 *)
    climate_anomaly c infer_freq empty_exc x freq time_dim.
  (** month_to_season, climatologies.py:221-341 *)
  Definition month_to_season_ord (x : input T) (season : string) (time_coord_name : option string) : res (list (time * frame T)) :=
    do _ <- time_info x time_coord_name ;;                                                   (* 281 *)
    guard negb (Nat.eqb (List.length (samples (inp x)) mod 12) 0) raise ValueError ;;        (* 283-286 *)
    do ms <- oget KeyError (find_season season) ;;                                           (* 302-307 *)
    let sel := filter (fun s => in_months ms (fst s)) (samples (inp x)) in                   (* 310-312 *)
    let sel := if String.eqb season "DJF" then removelast sel                                (* 314-317 *)
               else if String.eqb season "NDJ" then tl sel else sel in                       (* 318-321 *)
    guard Nat.eqb (List.length sel) 0 raise empty_exc ;;
    guard negb (in_order (map fst sel)) raise ValueError ;;                                  (* 324 *)
    month_to_season c empty_exc x season time_coord_name.
End Order.
