(** Model of geocat/comp/climatologies.py: calendar_average, climatology_average, climate_anomaly, month_to_season and helpers.

    A DataArray or Dataset is a list of samples along the time dimension; a frame holds all values (of all variables that have
    the time dimension) at one time.  xarray's resample groups samples by consecutive calendar periods from the first to the
    last occupied one, empty periods giving NaN; mean and sum skip NaN; groupby sorts its keys.  xr.infer_freq is an oracle.
    Simplifications: attributes are in ClimAttrs.v, other coordinates are not modelled; fixed-width strftime keys are numbers; string seasons
    are singleton lists, and no custom seasons is the empty list; resampling does not check that the dates are in order, ClimOrder.v adds that. *)
From Coq Require Import List Bool Arith ZArith String.
From Verif Require Import PyBase Num Calendar.
Import ListNotations.
Local Open Scope Z_scope.

Section Climat.
  Context {T : Type} {N : Num T}.
  (** Not in /repo: the values at one time. *)
  Definition frame := nat -> T.
  (** samples along time; [width] values in each frame *)
  Record series := mkSer { width : nat; samples : list (time * frame) }.

  Variables (c : cal)                          (* calendar of the time coordinate, climatologies.py:110-122 *)
            (infer_freq : list time -> bool)   (* xr.infer_freq finds a frequency *)
            (empty_exc : exc).                 (* raised by resampling along an empty time axis *)

  (** the arguments: data, what dset[name] holds (None: KeyError; Some b: datetimes or not), the time axis found by cf_xarray *)
  Record input := mkIn { inp : series; lookup : string -> option bool; cf_time : option string }.
  (** climatologies.py:27-39; the empty name counts as no name *)
  Definition time_info (x : input) (name : option string) : res string :=
    do n <- match name with
            | Some n => if String.eqb n "" then oget KeyError (cf_time x) else Ok n
            | None => oget KeyError (cf_time x)
            end ;;
    do b <- oget KeyError (lookup x n) ;;
    guard negb b raise ValueError ;;
    Ok n.

  (** Not in /repo: n consecutive integers from lo. *)
  Definition zrange (lo : Z) (n : nat) : list Z := map (fun i => lo + Z.of_nat i) (seq 0 n).
  (** Not in /repo: the integers from lo to hi. *)
  Definition between (lo hi : Z) : list Z := zrange lo (Z.to_nat (hi - lo + 1)).
  (** ** .resample *)
  (** samples in [start of p, start of p + 1) *)
  Definition members (f : per) (p : Z) (xs : list (time * frame)) : list (time * frame) :=
    filter (fun s => (pstart c f p <=? instant c (fst s)) && (instant c (fst s) <? pstart c f (p + 1))) xs.
  (** Not in /repo: the periods a resampling produces, first to last occupied. *)
  Definition bins (f : per) (ts : list time) : list Z :=
    match map (pnum c f) ts with
    | [] => []
    | p :: ps => between (fold_left Z.min ps p) (fold_left Z.max ps p)
    end.
  (** Not in /repo: .mean() of a group, NaN skipped, NaN if empty. *)
  Definition mean_of (l : list (time * frame)) : frame := fun k => nanmean (map (fun s => snd s k) l).
  (** sum of a resampled bin; empty bins are NaN *)
  Definition sum_of (l : list (time * frame)) : frame := fun k => match l with [] => nnan | _ => nansum (map (fun s => snd s k) l) end.
  (** .resample(f).mean() with period starts as labels *)
  Definition resampled (red : list (time * frame) -> frame) (f : per) (xs : list (time * frame)) : list (time * frame) :=
    map (fun p => (date_of c (pstart c f p), red (members f p xs))) (bins f (map fst xs)).
  (** .dropna(time_dim), how='any' *)
  Definition dropna (w : nat) (xs : list (time * frame)) : list (time * frame) :=
    filter (fun s => forallb (fun k => negb (isnan (snd s k))) (seq 0 w)) xs.

  (** climatologies.py:422-427 and 594-600; infer_freq needs three dates *)
  Definition check_uniform (ts : list time) : res unit :=
    guard Nat.ltb (List.length ts) 3 raise ValueError ;;
    if infer_freq ts then Ok tt
    else guard negb (forallb (fun q => Nat.eqb (List.length (filter (fun t => (pstart c Month q <=? instant c t) && (instant c t <? pstart c Month (q + 1))) ts)) 1) (bins Month ts)) raise ValueError ;;
         Ok tt.

  (** climatologies.py:42-107: periods from the first to the last, each labelled with its midpoint; assign_coords wants as many
      labels as samples *)
  Definition midpoint (f : per) (p : Z) : time := date_of c ((pstart c f p + pstart c f (p + 1)) / 2).
  (** _calculate_center_of_time_bounds, climatologies.py:42-107 *)
  Definition center (f : per) (first last : Z) (frames : list frame) : res (list (time * frame)) :=
    let ps := between first last in
    guard negb (Nat.eqb (List.length ps) (List.length frames)) raise ValueError ;;
    Ok (combine (map (midpoint f) ps) frames).

  (** ** calendar_average, climatologies.py:344-468 *)
  Definition cal_freq (s : string) : option per :=
    if String.eqb s "hour" then Some Hour else if String.eqb s "day" then Some Day else if String.eqb s "month" then Some Month
    else if String.eqb s "season" then Some (Quarter 12) else if String.eqb s "year" then Some Year else None.
  (** .dt.days_in_month, climatologies.py:449, 639 *)
  Definition month_length (t : time) : Z := mlen c (yr t) (mo t).
  (** Not in /repo: sum of integers. *)
  Definition zsum (l : list Z) : Z := fold_left Z.add l 0.
  (** 449-452: months weighted by their share of the days of their season or year *)
  Definition weighted (f : per) (ms : list (time * frame)) : list (time * frame) :=
    map (fun s => let tot := zsum (map (fun s' => month_length (fst s')) (members f (pnum c f (fst s)) ms)) in
                  (fst s, fun k => (snd s k * (ofZ (month_length (fst s)) / ofZ tot))%num)) ms.
  (** calendar_average, climatologies.py:344-468 *)
  Definition calendar_average (x : input) (freq : string) (time_dim : option string) : res (list (time * frame)) :=
    do f <- oget ValueError (cal_freq freq) ;;                                               (* 408-411 *)
    let long := String.eqb freq "season" || String.eqb freq "year" in
    do _ <- time_info x time_dim ;;                                                          (* 420 *)
    do _ <- check_uniform (map fst (samples (inp x))) ;;                                     (* 423-427 *)
    let d := dropna (width (inp x)) (resampled mean_of (if long then Month else f) (samples (inp x))) in   (* 433-437 *)
    let d := if long then resampled sum_of f (weighted f d) else d in                        (* 440-453 *)
    match d with
    | [] => Err IndexError                                                                   (* 461 *)
    | s :: _ => center f (pnum c f (fst s)) (pnum c f (fst (last d s))) (map snd d)         (* 456-464 *)
    end.

  (** ** climatology_average, climatologies.py:471-672 *)
  Definition seasons_dict : list (string * (Z * Z * Z)) :=
    [("DJF", (12, 1, 2)); ("JFM", (1, 2, 3)); ("FMA", (2, 3, 4)); ("MAM", (3, 4, 5)); ("AMJ", (4, 5, 6)); ("MJJ", (5, 6, 7));
     ("JJA", (6, 7, 8)); ("JAS", (7, 8, 9)); ("ASO", (8, 9, 10)); ("SON", (9, 10, 11)); ("OND", (10, 11, 12)); ("NDJ", (11, 12, 1))]%string.
  (** seasons_dict[name], climatologies.py:303, 616 *)
  Definition find_season (s : string) : option (Z * Z * Z) :=
    option_map snd (find (fun p => String.eqb (fst p) s) seasons_dict).
  (** month in the season, climatologies.py:310-312, 628 *)
  Definition in_months (ms : Z * Z * Z) (t : time) : bool := let '(a, b, d) := ms in (mo t =? a) || (mo t =? b) || (mo t =? d).
  (** the accepted values of freq and the period averaged over; seasons are made of monthly averages, climatologies.py:575-591 *)
  Definition clim_freq (s : string) : option per :=
    if String.eqb s "hour" then Some Hour else if String.eqb s "day" then Some Day else if String.eqb s "month" then Some Month
    else if String.eqb s "season" then Some Month else None.
  (** strftime('%m-%d %H'), ('%m-%d'), ('%m') *)
  Definition key (f : per) (t : time) : Z :=
    match f with
    | Hour => 100 * (100 * mo t + dy t) + sec t / 3600
    | Day => 100 * mo t + dy t
    | _ => mo t
    end.
  (** Not in /repo: insertion into a sorted list. *)
  Fixpoint zinsert (z : Z) (l : list Z) : list Z :=
    match l with [] => [z] | x :: r => if z <=? x then z :: l else x :: zinsert z r end.
  (** Not in /repo: sorting. *)
  Definition zsort (l : list Z) : list Z := fold_right zinsert [] l.
  (** Not in /repo: distinct elements. *)
  Definition zuniq (l : list Z) : list Z := nodup Z.eq_dec l.
  (** sorted distinct keys, as groupby makes them *)
  Definition keys (k : time -> Z) (ts : list time) : list Z := zsort (zuniq (map k ts)).
  (** Not in /repo: the group of a groupby with key z. *)
  Definition having (k : time -> Z) (z : Z) (xs : list (time * frame)) : list (time * frame) := filter (fun s => k (fst s) =? z) xs.
  (** np.median of the years, doubled *)
  Definition median2 (l : list Z) : Z :=
    let s := zsort l in let n := List.length s in
    if Nat.even n then nth (n / 2 - 1) s 0 + nth (n / 2) s 0 else 2 * nth (n / 2) s 0.
  (** '{:.0f}'.format(m2 / 2): halves go to the even neighbour *)
  Definition round_half (m2 : Z) : Z := if Z.even m2 then m2 / 2 else if Z.even (m2 / 2) then m2 / 2 else m2 / 2 + 1.
  (** parsing f'{year}-{key}' as a cftime string: four digits for the year and an existing date; the period it starts *)
  Definition parse (f : per) (y k : Z) : res Z :=
    guard (y <? 1000) raise ValueError ;;
    match f with
    | Hour => let d := k / 100 mod 100 in let m := k / 10000 in
        guard (mlen c y m <? d) raise ValueError ;; Ok (24 * (mstart c (mnum y m) + (d - 1)) + k mod 100)
    | Day => let d := k mod 100 in let m := k / 100 in
        guard (mlen c y m <? d) raise ValueError ;; Ok (mstart c (mnum y m) + (d - 1))
    | _ => Ok (mnum y k)
    end.
  (** 624-641 for one season *)
  Definition season_mean (f : per) (w : nat) (ms : Z * Z * Z) (xs : list (time * frame)) : res frame :=
    let sel := filter (fun s => in_months ms (fst s)) xs in
    guard Nat.eqb (List.length sel) 0 raise empty_exc ;;
    let d := dropna w (resampled mean_of f sel) in
    let tot := zsum (map (fun s => month_length (fst s)) d) in
    Ok (fun k => nansum (map (fun s => (snd s k * (ofZ (month_length (fst s)) / ofZ tot))%num) d)).
  (** what climatology_average returns: labelled by time or by season name, climatologies.py:640-672 *)
  Inductive cout := Times (l : list (time * frame)) | Seasons (l : list (string * frame)).
  (** climatology_average, climatologies.py:471-672 *)
  Definition climatology_average (x : input) (freq : string) (custom : list string) (time_dim : option string) : res cout :=
    do f <- oget ValueError (clim_freq freq) ;;                                              (* 575-578 *)
    do _ <- time_info x time_dim ;;                                                          (* 592 *)
    let xs := samples (inp x) in
    do _ <- check_uniform (map fst xs) ;;                                                    (* 595-600 *)
    if String.eqb freq "season" then
      let ss := match custom with [] => ["DJF"; "JJA"; "MAM"; "SON"]%string | _ => custom end in   (* 610-614 *)
      guard negb (forallb (fun s => match find_season s with Some _ => true | None => false end) ss) raise ValueError ;;   (* 616-620 *)
      do l <- mapM (fun s => do ms <- oget KeyError (find_season s) ;; do fr <- season_mean f (width (inp x)) ms xs ;; Ok (s, fr)) ss ;;
      Ok (Seasons l)                                                                         (* 622-646 *)
    else
      let y := round_half (median2 (map (fun s => yr (fst s)) xs)) in                        (* 650, 667 *)
      let ks := keys (key f) (map fst xs) in
      let frames := map (fun k => mean_of (having (key f) k xs)) ks in                       (* 653-657 *)
      match ks with
      | [] => Err IndexError                                                                 (* 660 *)
      | k :: _ =>
          do a <- parse f y k ;;
          do b <- parse f y (last ks k) ;;
          do l <- center f a b frames ;;                                                     (* 660-670 *)
          Ok (Times l)
      end.

  (** ** climate_anomaly, climatologies.py:125-218 *)
  (** .dt.season *)
  Definition season_name (t : time) : string :=
    if (mo t =? 12) || (mo t <=? 2) then "DJF" else if mo t <=? 5 then "MAM" else if mo t <=? 8 then "JJA" else "SON".
  (** strftime('%m-%d'), ('%m'), ('%y') *)
  Definition anom_key (freq : string) (t : time) : Z :=
    if String.eqb freq "day" then key Day t else if String.eqb freq "month" then key Month t else yr t mod 100.
  (** Not in /repo: difference of two frames. *)
  Definition subtract (a b : frame) : frame := fun k => (a k - b k)%num.
  (** climate_anomaly, climatologies.py:125-218 *)
  Definition climate_anomaly (x : input) (freq : string) (time_dim : option string) : res (list (time * frame)) :=
    do n <- time_info x time_dim ;;                                                          (* 186 *)
    guard negb (String.eqb freq "day" || String.eqb freq "month" || String.eqb freq "season" || String.eqb freq "year") raise ValueError ;;   (* 198-201 *)
    let xs := samples (inp x) in
    do clim <- (if String.eqb freq "year" then rmap Times (calendar_average x freq (Some n))
                else climatology_average x freq [] (Some n)) ;;                              (* 204-209 *)
    match clim with
    | Seasons l =>                                                                           (* 210-212 *)
        mapM (fun s => do fr <- oget KeyError (option_map snd (find (fun p => String.eqb (fst p) (season_name (fst s))) l)) ;;
                       Ok (fst s, subtract (snd s) fr)) xs
    | Times l =>                                                                             (* 214-218 *)
        mapM (fun s => match having (anom_key freq) (anom_key freq (fst s)) l with
                       | [] => Err KeyError
                       | g => Ok (fst s, subtract (snd s) (fun k => nansum (map (fun r => snd r k) g)))
                       end) xs
    end.

  (** ** month_to_season, climatologies.py:221-341 *)
  (** 'QS-' + name of the first month *)
  Definition quarter (ms : Z * Z * Z) : per := let '(a, _, _) := ms in Quarter a.
  (** the middle month of a season, climatologies.py:335-341 *)
  Definition middle (ms : Z * Z * Z) : Z := let '(_, b, _) := ms in b.
  (** month_to_season, climatologies.py:221-341 *)
  Definition month_to_season (x : input) (season : string) (time_coord_name : option string) : res (list (time * frame)) :=
    do _ <- time_info x time_coord_name ;;                                                   (* 281 *)
    let xs := samples (inp x) in
    guard negb (Nat.eqb (List.length xs mod 12) 0) raise ValueError ;;                       (* 283-286 *)
    do ms <- oget KeyError (find_season season) ;;                                           (* 302-307 *)
    let sel := filter (fun s => in_months ms (fst s)) xs in                                  (* 310-312 *)
    let sel := if String.eqb season "DJF" then removelast sel                                (* 314-317 *)
               else if String.eqb season "NDJ" then tl sel else sel in                       (* 318-321 *)
    guard Nat.eqb (List.length sel) 0 raise empty_exc ;;
    let f := quarter ms in
    let means := map (fun p => (date_of c (86400 * mstart c (pmonth f p + 1)), mean_of (members f p sel))) (bins f (map fst sel)) in   (* 324-333 *)
    Ok (filter (fun s => mo (fst s) =? middle ms) means).                                    (* 341 *)
End Climat.
Arguments input T : clear implicits.
Arguments frame T : clear implicits.
Arguments series T : clear implicits.
Arguments cout T : clear implicits.
