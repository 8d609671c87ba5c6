(** n-dimensional arrays (numpy) and labelled arrays (xarray) as index functions.

    Not in /repo: these are the parts of numpy/xarray the modelled code relies on.  An array is a
    shape together with a function from multi-indices to values; only in-bounds indices matter. *)
From Coq Require Import List Bool Arith ZArith Lia String.
From Verif Require Import PyBase Num.
Import ListNotations.

(** Not in /repo: ndarray. *)
Record arr (T : Type) := mkArr { shp : list nat; get : list nat -> T }.
Arguments mkArr {T} shp get.
Arguments shp {T} a.
Arguments get {T} a idx.

(** Not in /repo: ndarray.ndim. *)
Definition ndim {T} (a : arr T) : nat := List.length (shp a).

(** multi-index inside a shape *)
Definition inb (s idx : list nat) : Prop := Forall2 lt idx s.

(** Not in /repo: number of entries of a shape. *)
Definition size (s : list nat) : nat := fold_right Nat.mul 1%nat s.

(** all multi-indices of a shape in C (row-major) order *)
Fixpoint all_idx (s : list nat) : list (list nat) :=
  match s with
  | [] => [[]]
  | n :: s' => flat_map (fun i => map (cons i) (all_idx s')) (seq 0 n)
  end.

(** C-order offset of a multi-index *)
Fixpoint flat (s idx : list nat) : nat :=
  match s, idx with
  | _ :: s', i :: idx' => i * size s' + flat s' idx'
  | _, _ => 0
  end.

(** np.ravel *)
Definition ravel {T} (a : arr T) : list T := map (get a) (all_idx (shp a)).
(** np.array(list).reshape(shape); [d] is never read when the sizes agree *)
Definition of_flat {T} (d : T) (s : list nat) (l : list T) : arr T :=
  mkArr s (fun idx => nth (flat s idx) l d).

(** Not in /repo: an elementwise function. *)
Definition amap {A B} (f : A -> B) (a : arr A) : arr B := mkArr (shp a) (fun i => f (get a i)).
(** Not in /repo: a rank-0 array. *)
Definition scalar {T} (x : T) : arr T := mkArr [] (fun _ => x).
(** Not in /repo: np.array of a flat list; [d] is never read in bounds. *)
Definition vec {T} (d : T) (l : list T) : arr T := mkArr [List.length l] (fun i => nth (hd 0 i) l d).
(** Not in /repo: np.full. *)
Definition afull {T} (s : list nat) (x : T) : arr T := mkArr s (fun _ => x).

(** ** numpy broadcasting (trailing axes aligned, axes of length 1 stretched) *)
Definition bdim (a b : nat) : option nat :=
  if Nat.eqb a b then Some a else if Nat.eqb a 1 then Some b else if Nat.eqb b 1 then Some a else None.
(** Not in /repo: broadcast shape, last axis first; axes present in one operand only are kept. *)
Fixpoint bshape_rev (s1 s2 : list nat) : option (list nat) :=
  match s1, s2 with
  | [], s => Some s
  | s, [] => Some s
  | a :: s1', b :: s2' =>
      match bdim a b, bshape_rev s1' s2' with
      | Some d, Some r => Some (d :: r)
      | _, _ => None
      end
  end.
(** Not in /repo: np.broadcast_shapes of two shapes. *)
Definition bshape (s1 s2 : list nat) : option (list nat) :=
  option_map (@rev nat) (bshape_rev (rev s1) (rev s2)).
(** index into an operand of shape s from an index of the broadcast result *)
Definition bidx (s idx : list nat) : list nat :=
  map (fun p : nat * nat => if Nat.eqb (snd p) 1 then 0 else fst p)
      (combine (skipn (List.length idx - List.length s) idx) s).
(** Not in /repo: a binary ufunc; shapes that do not broadcast are a ValueError. *)
Definition np_map2 {A B C} (f : A -> B -> C) (a : arr A) (b : arr B) : res (arr C) :=
  match bshape (shp a) (shp b) with
  | Some s => Ok (mkArr s (fun i => f (get a (bidx (shp a) i)) (get b (bidx (shp b) i))))
  | None => Err ValueError
  end.


(** np.expand_dims(a, axis=(1, 2)) of a 1-D array: shape (n,) -> (n,1,1) *)
Definition expand12 {T} (a : arr T) : arr T :=
  match shp a with
  | n :: rest => mkArr (n :: 1 :: 1 :: rest)
                   (fun i => get a (match i with k :: _ :: _ :: r => k :: r | _ => i end))
  | [] => a
  end.

(** a[lo:hi] along axis 0 (already normalised bounds) *)
Definition slice0 {T} (lo hi : nat) (a : arr T) : arr T :=
  match shp a with
  | n :: rest => mkArr ((hi - lo) :: rest)
                   (fun i => get a (match i with k :: r => (lo + k) :: r | [] => [] end))
  | [] => a
  end.

(** np.transpose(a, axes): result axis j is input axis (nth j axes) *)
Fixpoint index_of (x : nat) (l : list nat) : option nat :=
  match l with
  | [] => None
  | y :: t => if Nat.eqb x y then Some 0 else option_map S (index_of x t)
  end.
(** Not in /repo: np.transpose(a, axes). *)
Definition transpose {T} (axes : list nat) (a : arr T) : arr T :=
  mkArr (map (fun ax => nth ax (shp a) 0) axes)
        (fun i => get a (map (fun ax => match index_of ax axes with
                                        | Some j => nth j i 0 | None => 0 end)
                             (seq 0 (ndim a)))).

(** np.swapaxes(a, p, q) *)
Definition swap_nth {A} (d : A) (p q : nat) (l : list A) : list A :=
  upd (upd l p (nth q l d)) q (nth p l d).
(** Not in /repo: np.swapaxes(a, p, q). *)
Definition swapaxes {T} (p q : nat) (a : arr T) : arr T :=
  mkArr (swap_nth 0 p q (shp a)) (fun i => get a (swap_nth 0 p q i)).

(** ** labelled arrays *)
Record coordv (T : Type) := mkCoord { cdims : list string; cdat : arr T }.
Arguments mkCoord {T} cdims cdat.
Arguments cdims {T} c.
Arguments cdat {T} c.

(** Not in /repo: xr.DataArray.  Simplification: attribute values are strings. *)
Record da (T : Type) := mkDa {
  dims : list string;
  dat : arr T;
  coords : list (string * coordv T);
  attrs : list (string * string);
  daname : option string }.
Arguments mkDa {T} dims dat coords attrs daname.
Arguments dims {T} d.
Arguments dat {T} d.
Arguments coords {T} d.
Arguments attrs {T} d.
Arguments daname {T} d.

(** Not in /repo: list.index on names. *)
Fixpoint sindex (x : string) (l : list string) : option nat :=
  match l with
  | [] => None
  | y :: t => if String.eqb x y then Some 0 else option_map S (sindex x t)
  end.
(** Not in /repo: [x in l] on names. *)
Definition smem (x : string) (l : list string) : bool := existsb (String.eqb x) l.
(** Not in /repo: dict.get on names. *)
Fixpoint slookup {A} (x : string) (l : list (string * A)) : option A :=
  match l with
  | [] => None
  | (k, v) :: t => if String.eqb x k then Some v else slookup x t
  end.
(** dict[k] = v : overwrite in place or append *)
Fixpoint sset {A} (x : string) (v : A) (l : list (string * A)) : list (string * A) :=
  match l with
  | [] => [(x, v)]
  | (k, w) :: t => if String.eqb x k then (k, v) :: t else (k, w) :: sset x v t
  end.
(** Not in /repo: dict without key x. *)
Definition sdel {A} (x : string) (l : list (string * A)) : list (string * A) :=
  filter (fun p => negb (String.eqb x (fst p))) l.

(** size of a named dimension *)
Definition dsize {T} (a : da T) (d : string) : option nat :=
  match sindex d (dims a) with Some j => nth_error (shp (dat a)) j | None => None end.

(** the value of a labelled array under an assignment of positions to dimension names *)
Definition env := string -> nat.
(** Not in /repo: the entry at an assignment of positions to names. *)
Definition getn {T} (a : da T) (e : env) : T := get (dat a) (map e (dims a)).
(** assignment described by an index [i] into dimensions [ds] *)
Definition env_of (ds : list string) (i : list nat) : env :=
  fun d => match sindex d ds with Some j => nth j i 0 | None => 0 end.

(** result dimensions of a binary operation: those of the left operand, then the new ones *)
Definition join_dims (d1 d2 : list string) : list string :=
  d1 ++ filter (fun d => negb (smem d d1)) d2.
(** Not in /repo: shared dimensions have equal lengths. *)
Definition sizes_agree {A B} (a : da A) (b : da B) : bool :=
  forallb (fun d => match dsize a d, dsize b d with
                    | Some n, Some m => Nat.eqb n m | _, _ => true end) (dims a).
(** Not in /repo: coordinates of both operands, the left one's first. *)
Definition join_coords {T} (a b : list (string * coordv T)) : list (string * coordv T) :=
  a ++ filter (fun p => negb (smem (fst p) (map fst a))) b.

(** ** alignment of index coordinates (xarray's default inner join) *)
(** a.isel({axis j: positions}) *)
Definition take_axis {T} (j : nat) (ps : list nat) (a : arr T) : arr T :=
  mkArr (upd (shp a) j (List.length ps)) (fun i => get a (upd i j (nth (nth j i 0) ps 0))).
(** Not in /repo: a coordinate under isel. *)
Definition xr_take_coord {T} (d : string) (ps : list nat) (c : coordv T) : coordv T :=
  match sindex d (cdims c) with
  | Some j => mkCoord (cdims c) (take_axis j ps (cdat c))
  | None => c
  end.
(** Not in /repo: DataArray.isel({d: ps}). *)
Definition xr_take {T} (d : string) (ps : list nat) (a : da T) : da T :=
  match sindex d (dims a) with
  | Some j => mkDa (dims a) (take_axis j ps (dat a))
                (map (fun p => (fst p, xr_take_coord d ps (snd p))) (coords a)) (attrs a) (daname a)
  | None => a
  end.
(** labels of dimension d: the 1-D coordinate carrying the dimension's own name *)
Definition index_labels {T} (a : da T) (d : string) : option (list T) :=
  match slookup d (coords a) with
  | Some c => match cdims c with [d'] => if String.eqb d d' then Some (ravel (cdat c)) else None
                                | _ => None end
  | None => None
  end.
Section Align.
  Context {T : Type} {N : Num T}.
  (** Not in /repo: Index.equals. *)
  Fixpoint labels_eqb (l1 l2 : list T) : bool :=
    match l1, l2 with
    | [], [] => true
    | x :: t1, y :: t2 => neqb x y && labels_eqb t1 t2
    | _, _ => false
    end.
  (** Not in /repo: position of a label. *)
  Fixpoint label_pos (x : T) (l : list T) : option nat :=
    match l with
    | [] => None
    | y :: t => if neqb x y then Some 0 else option_map S (label_pos x t)
    end.
  (** positions (left, right) of the common labels, in the order of the left operand *)
  Definition common_pos (la lb : list T) : list (nat * nat) :=
    flat_map (fun p => match label_pos (snd p) lb with Some j => [(fst p, j)] | None => [] end)
             (combine (seq 0 (List.length la)) la).
  (** Not in /repo: inner join along one dimension. *)
  Definition align1 (d : string) (ab : da T * da T) : da T * da T :=
    match index_labels (fst ab) d, index_labels (snd ab) d with
    | Some la, Some lb =>
        if labels_eqb la lb then ab
        else let c := common_pos la lb in
             (xr_take d (map fst c) (fst ab), xr_take d (map snd c) (snd ab))
    | _, _ => ab
    end.
  (** Not in /repo: xr.align(a, b, join='inner'). *)
  Definition xr_align (a b : da T) : da T * da T :=
    fold_left (fun ab d => align1 d ab) (filter (fun d => smem d (dims b)) (dims a)) (a, b).
  (** no label conflict on any shared dimension *)
  Definition labels_agree (a b : da T) : bool :=
    forallb (fun d => match index_labels a d, index_labels b d with
                      | Some la, Some lb => labels_eqb la lb | _, _ => true end)
            (filter (fun d => smem d (dims b)) (dims a)).

  (** xarray arithmetic between labelled arrays: inner join of index labels, then broadcasting by
      dimension name; ValueError when sizes of a shared dimension still differ.
      Simplification: conflicting non-index coordinates keep the left value (xarray drops them);
      attributes are dropped; index labels are assumed free of duplicates. *)
  Definition xr_map2 (f : T -> T -> T) (a0 b0 : da T) : res (da T) :=
    let '(a, b) := xr_align a0 b0 in
    if sizes_agree a b then
      let ds := join_dims (dims a) (dims b) in
      Ok (mkDa ds
           (mkArr (map (fun d => match dsize a d with
                                 | Some n => n
                                 | None => match dsize b d with Some n => n | None => 0 end end) ds)
                  (fun i => f (getn a (env_of ds i)) (getn b (env_of ds i))))
           (join_coords (coords a) (coords b)) [] None)
    else Err ValueError.
End Align.
(** Not in /repo: an elementwise function on a DataArray; attributes are dropped, the name is kept. *)
Definition xr_map {T} (f : T -> T) (a : da T) : da T :=
  mkDa (dims a) (amap f (dat a)) (coords a) [] (daname a).

(** DataArray.rename({old: new}) on dimensions (coordinates are renamed along) *)
Definition ren (m : list (string * string)) (d : string) : string :=
  match slookup d m with Some d' => d' | None => d end.
(** Not in /repo: DataArray.rename of dimensions. *)
Definition xr_rename {T} (m : list (string * string)) (a : da T) : da T :=
  mkDa (map (ren m) (dims a)) (dat a)
       (map (fun p => (ren m (fst p), mkCoord (map (ren m) (cdims (snd p))) (cdat (snd p)))) (coords a))
       (attrs a) (daname a).

(** DataArray.transpose(dims'): ValueError unless dims' is a permutation of dims *)
Definition same_names (d1 d2 : list string) : bool :=
  Nat.eqb (List.length d1) (List.length d2) && forallb (fun d => smem d d2) d1 && forallb (fun d => smem d d1) d2.
(** Not in /repo: DataArray.transpose(ds). *)
Definition xr_transpose {T} (ds : list string) (a : da T) : res (da T) :=
  if same_names ds (dims a) then
    Ok (mkDa ds
         (mkArr (map (fun d => match dsize a d with Some n => n | None => 0 end) ds)
                (fun i => getn a (env_of ds i)))
         (coords a) (attrs a) (daname a))
  else Err ValueError.
