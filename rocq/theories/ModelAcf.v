(** surfalize/autocorrelation.py: AutocorrelationFunction.  Numbers are ideal reals.  [fftconvolve(mode='full')] is the exact
    convolution; ndimage.map_coordinates and ndimage.label are parameters with the contracts stated in PropsAcf.v. *)
From Coq Require Import Reals List Bool Arith ZArith.
From Verif Require Import Base RList ModelMath ModelHeights ModelGeom.
Import ListNotations.
Local Open Scope res_scope.
Local Open Scope R_scope.

(** a two-dimensional numpy array of finite numbers (autocorrelation.py:35-53) *)
Definition matrix := list (list R).
(** array.shape[0], autocorrelation.py:35-53 *)
Definition mrows (a : matrix) : nat := length a.
(** array.shape[1], autocorrelation.py:35-53 *)
Definition mcols (a : matrix) : nat := length (hd [] a).
(** a[i][j], 0 outside *)
Definition at2 (a : matrix) (i j : nat) : R := nth j (nth i a []) 0.
(** an array given by its values (helper of the model for autocorrelation.py:35-53) *)
Definition tabulate (n m : nat) (f : nat -> nat -> R) : matrix := map (fun i => map (f i) (seq 0 m)) (seq 0 n).
(** the sum over an n by m array (helper of the model for autocorrelation.py:35-53) *)
Definition sum2 (n m : nat) (f : nat -> nat -> R) : R := sumR (map (fun i => sumR (map (f i) (seq 0 m))) (seq 0 n)).
(** scipy.signal.fftconvolve(a, b, mode='full') *)
Definition convolve_full (a b : matrix) : matrix :=
  tabulate (mrows a + mrows b - 1) (mcols a + mcols b - 1) (fun p q =>
    sum2 (mrows a) (mcols a) (fun i j => if Nat.leb i p && Nat.leb j q then at2 a i j * at2 b (p - i) (q - j) else 0)).
(** data[::-1, ::-1] *)
Definition reflect (a : matrix) : matrix := rev (map (@rev R) a).
(** np.abs(np.arange(-(n - 1), n)), n minus it: the number of overlapping points along one axis *)
Definition overlap (n p : nat) : R := INR n - Rabs (INR p - (INR n - 1)).
(** autocorrelation.py:35-52, applied to the centred data *)
Definition autocorrelation (a : matrix) : matrix :=
  let raw := convolve_full a (reflect a) in
  tabulate (mrows raw) (mcols raw) (fun p q => at2 raw p q / (overlap (mrows a) p * overlap (mcols a) q)).
(** the array of a grid without missing points *)
Definition matrix_of (g : grid) : matrix := map (map (fun h => match h with Some x => x | None => 0 end)) g.
(** autocorrelation.py:23-33 *)
Definition acf_new (g : grid) : res matrix :=
  if has_missing g then Err ValueError else Ok (autocorrelation (matrix_of (center g))).

Section Decay.
(** ndimage.map_coordinates(array, [y, x], order=3) *)
Variable spline : matrix -> R -> R -> R.
(** ndimage.label(mask)[0] *)
Variable label : (nat -> nat -> bool) -> nat -> nat -> nat.
(** a row and column index as np.argwhere gives it, autocorrelation.py:55-108 *)
Definition point := (nat * nat)%type.
(** data[point], autocorrelation.py:55-108 *)
Definition point_data (d : matrix) (e : point) : R := at2 d (fst e) (snd e).
(** np.linalg.norm((idx - center) * step_array) and np.hypot of the same *)
Definition distance (sx sy : R) (c e : point) : R :=
  sqrt (((INR (fst e) - INR (fst c)) * sy) * ((INR (fst e) - INR (fst c)) * sy) +
        ((INR (snd e) - INR (snd c)) * sx) * ((INR (snd e) - INR (snd c)) * sx)).
(** np.argwhere: row by row *)
Definition argwhere (n m : nat) (b : nat -> nat -> bool) : list point :=
  flat_map (fun i => map (fun j => (i, j)) (List.filter (b i) (seq 0 m))) (seq 0 n).
(** ndimage.binary_dilation(region, iterations=1): the cell or one of its four neighbours inside the array *)
Definition dilate (n m : nat) (r : nat -> nat -> bool) (i j : nat) : bool :=
  r i j || (Nat.ltb (S i) n && r (S i) j) || (Nat.ltb 0 i && r (i - 1)%nat j) ||
  (Nat.ltb (S j) m && r i (S j)) || (Nat.ltb 0 j && r i (j - 1)%nat).
(** mathutils.py:148-181 argmin_all, argmax_all followed by indexing: the points whose distance is extremal *)
Definition all_min (f : point -> R) (l : list point) : list point :=
  match lmin (map f l) with Some m => List.filter (fun e => if Req_EM_T (f e) m then true else false) l | None => [] end.
(** mathutils.py:148-164 argmax_all followed by indexing (autocorrelation.py:55-108): the points whose distance is largest *)
Definition all_max (f : point -> R) (l : list point) : list point :=
  match lmax (map f l) with Some m => List.filter (fun e => if Req_EM_T (f e) m then true else false) l | None => [] end.
(** the first point with the smallest autocorrelation; np.min/np.argmin raise ValueError on empty arrays *)
Definition best (d : matrix) (l : list point) : res point :=
  do i <- argmin (map (point_data d) l); Ok (nth i l (0, 0)%nat).
(** autocorrelation.py:95 n_points *)
Definition SAMPLES : nat := 1000.
(** autocorrelation.py:95-104: position along the line from the centre to [e] where the spline is closest to the threshold;
    mathutils.py:13-37 samples the line at 1000 points *)
Definition decay_along (d : matrix) (thr : R) (c e : point) (len : R) : res R :=
  let ys := linspace (INR (fst c)) (INR (fst e)) SAMPLES in
  let xs := linspace (INR (snd c)) (INR (snd e)) SAMPLES in
  do i <- argclosest thr (map (fun p => spline d (fst p) (snd p)) (combine ys xs));
  Ok (nth i (linspace 0 len SAMPLES) 0).
(** autocorrelation.py:54-106 *)
Definition decay_lengths (d : matrix) (sx sy s : R) : res (R * R) :=
  let n := mrows d in let m := mcols d in
  let c := (Nat.div n 2, Nat.div m 2) in
  let thr := s * point_data d c in
  let mask := fun i j => Rltb thr (at2 d i j) in
  let lab := label mask in
  let region := fun i j => Nat.eqb (lab i j) (lab (fst c) (snd c)) in
  let edge := fun i j => xorb (region i j) (dilate n m region i j) in
  let idx := argwhere n m edge in
  let dist := distance sx sy c in
  do e_min <- best d (all_min dist idx);
  do e_max <- best d (all_max dist idx);
  do shortest <- decay_along d thr c e_min (dist e_min);
  do longest <- decay_along d thr c e_max (dist e_max);
  Ok (shortest, longest).
(** autocorrelation.py:109-130 *)
Definition Sal (d : matrix) (sx sy s : R) : res R := rmap fst (decay_lengths d sx sy s).
(** autocorrelation.py:132-155; numpy division by zero yields inf or nan, here None *)
Definition Str (d : matrix) (sx sy s : R) : res (option R) :=
  rmap (fun p => if Req_EM_T (snd p) 0 then None else Some (fst p / snd p)) (decay_lengths d sx sy s).
End Decay.
