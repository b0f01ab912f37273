(** Height arrays, statistics and the operations of surfalize/base.py:136-404 and surface.py:202-258.
    A height is [option R]: [None] is NaN (non-measured); division by zero, which numpy turns into inf/nan,
    is also [None].  Real arithmetic is ideal.  A Profile is a grid with a single row. *)
From Coq Require Import String Reals List Bool Arith.
From Verif Require Import Base RList ModelMath.
Import ListNotations.
Local Open Scope res_scope.
Local Open Scope R_scope.

(** one height: a number, or None for NaN (a point not measured) *)
Definition height := option R.
(** the array of a Surface, rows of heights (surface.py:110-123) *)
Definition grid := list (list height).
(** data[i, j], None outside the array *)
Definition cell (g : grid) (i j : nat) : option height :=
  match nth_error g i with Some r => nth_error r j | None => None end.
(** data.ravel(), row by row *)
Definition flat (g : grid) : list height := concat g.
(** an elementwise numpy operation *)
Definition gmap (f : height -> height) (g : grid) : grid := map (map f) g.
(** data[~np.isnan(data)] *)
Definition measured (l : list height) : list R := flat_map (fun h => match h with Some x => [x] | None => [] end) l.
(** np.isnan(h) *)
Definition is_nan (h : height) : bool := match h with None => true | _ => false end.
(** base.py:136-145 *)
Definition has_missing (g : grid) : bool := existsb is_nan (flat g).
(** ndarray.shape of a rectangular grid *)
Definition nrows (g : grid) : nat := length g.
(** data.shape[1] (surface.py:148-160) *)
Definition ncols (g : grid) : nat := length (hd [] g).
(** the rows of a numpy array have equal length *)
Definition rect (g : grid) : Prop := forall r, In r g -> length r = ncols g.

(** Elementwise arithmetic with NaN propagation *)
Definition lift2 (f : R -> R -> R) (a b : height) : height :=
  match a, b with Some x, Some y => Some (f x y) | _, _ => None end.
(** numpy's + with NaN, surface.py:224-227 *)
Definition hadd := lift2 Rplus.
(** numpy's - with NaN, surface.py:229-230 *)
Definition hsub := lift2 Rminus.
(** numpy's * with NaN, surface.py:235-238 *)
Definition hmul := lift2 Rmult.
(** numpy's / with NaN, surface.py:240-241; a zero divisor gives NaN here and an infinity or NaN in numpy *)
Definition hdiv (a b : height) : height :=
  match a, b with Some x, Some y => if Req_EM_T y 0 then None else Some (x / y) | _, _ => None end.

(** base.py:147-195: min, max, mean, median, std ignore NaN; None when there is no measured point. *)
Definition nanmin (l : list height) : height := lmin (measured l).
(** np.nanmax, base.py:157-165 *)
Definition nanmax (l : list height) : height := lmax (measured l).
(** np.nanmean, base.py:167-175 *)
Definition nanmean (l : list height) : height :=
  match measured l with [] => None | m => Some (meanR m) end.
(** np.nanmedian, base.py:177-185 *)
Definition nanmedian (l : list height) : height :=
  match measured l with [] => None | m => Some (medianR m) end.
(** np.nanstd, base.py:187-195 *)
Definition nanstd (l : list height) : height :=
  match measured l with [] => None | m => Some (stdR m) end.
(** ndarray.min()/max(): NaN if any element is NaN. *)
Definition npmin (l : list height) : height := if existsb is_nan l then None else lmin (measured l).
(** ndarray.max(), NaN if any element is NaN *)
Definition npmax (l : list height) : height := if existsb is_nan l then None else lmax (measured l).

(** base.py:199-218 *)
Definition center (g : grid) : grid := gmap (fun h => hsub h (nanmean (flat g))) g.
(** base.py:220-239; np.nanmin raises on an empty array *)
Definition zero (g : grid) : res grid :=
  match flat g with [] => Err ValueError | l => Ok (gmap (fun h => hsub h (nanmin l)) g) end.
(** base.py:241-260; ndarray.min raises on an empty array *)
Definition invert (g : grid) : res grid :=
  match flat g with
  | [] => Err ValueError
  | l => Ok (gmap (fun h => hsub (hadd (npmin l) (npmax l)) h) g) end.

(** base.py:262-297.  Comparison with NaN is False, so NaN cells are untouched. *)
Definition drop_if (p : R -> bool) (h : height) : height :=
  match h with Some x => if p x then None else Some x | None => None end.
(** base.py:262-297 (remove_outliers) *)
Definition remove_outliers (n : R) (method : string) (g : grid) : res grid :=
  let m := measured (flat g) in
  if String.eqb method "mean" then
    Ok (gmap (drop_if (fun x => Rltb (n * stdR m) (Rabs (x - meanR m)))) g)
  else if String.eqb method "median" then
    Ok (gmap (drop_if (fun x =>
          Rltb (n * medianR (map (fun y => Rabs (y - medianR m)) m)) (Rabs (x - medianR m)))) g)
  else Err ValueError.

(** base.py:299-336.  threshold = (upper, lower) percentages; y sorted descending, x = (k+1)/n. *)
Definition ratios (n : nat) : list R := map (fun k => INR (k + 1) / INR n) (seq 0 n).
(** base.py:299-336 (threshold) *)
Definition threshold (upper lower : R) (g : grid) : res grid :=
  let y := rev (sortR (measured (flat g))) in
  let x := ratios (length y) in
  if Rle_dec 100 (lower + upper) then Err ValueError else
  do idx0 <- argclosest (upper / 100) x;
  do idx1 <- argclosest (1 - lower / 100) x;
  Ok (gmap (drop_if (fun v => orb (Rltb (nth idx0 y 0) v) (Rltb v (nth idx1 y 0)))) g).

(** *** Surfaces (heights and steps; extents follow, see C05) *)
Record surf := mkSurf { s_data : grid; s_sx : R; s_sy : R }.
(** surface.py:216-218: equal shape and steps *)
Definition same_frame (a b : surf) : bool :=
  (if Req_EM_T (s_sx a) (s_sx b) then true else false) &&
  (if Req_EM_T (s_sy a) (s_sy b) then true else false) &&
  Nat.eqb (nrows (s_data a)) (nrows (s_data b)) && Nat.eqb (ncols (s_data a)) (ncols (s_data b)).

(** elementwise combination of two lists of equal length *)
Fixpoint zipw {A B C} (f : A -> B -> C) (l : list A) (l' : list B) : list C :=
  match l, l' with x :: l, y :: l' => f x y :: zipw f l l' | _, _ => [] end.
(** func(self.data, other.data), surface.py:202-222 *)
Definition gzip (f : height -> height -> height) (g g' : grid) : grid := zipw (zipw f) g g'.

(** surface.py:202-222.  The other operand: a Surface, an int/float (possibly nan), or anything else. *)
Inductive operand := OSurface (s : surf) | ONumber (x : height) | OOther.
(** surface.py:202-222 (_arithmetic_operation) *)
Definition arith (f : height -> height -> height) (a : surf) (b : operand) : res surf :=
  match b with
  | OSurface b => if same_frame a b then Ok (mkSurf (gzip f (s_data a) (s_data b)) (s_sx a) (s_sy a))
                  else Err ValueError
  | ONumber x => Ok (mkSurf (gmap (fun h => f h x) (s_data a)) (s_sx a) (s_sy a))
  | OOther => Err ValueError
  end.
(** surface.py:224-241 *)
Definition s_add := arith hadd.                          (* __add__ and __radd__ *)
Definition s_sub := arith hsub.                          (* __sub__ *)
Definition s_rsub := arith (fun a b => hsub b a).        (* __rsub__ *)
Definition s_mul := arith hmul.                          (* __mul__ and __rmul__ *)
Definition s_div := arith hdiv.                          (* __truediv__ *)

(** surface.py:243-255 *)
Definition tol : R := / 10 ^ 10.
(** surface.py:253: not (|x - y| > 1e-10) for two measured heights; pairs with a NaN are not compared there *)
Definition close (a b : height) : bool :=
  match a, b with Some x, Some y => negb (Rltb tol (Rabs (x - y))) | None, None => true | _, _ => true end.
(** the NaNs are at the same places, surface.py:243-255 *)
Definition same_nan (a b : height) : bool := Bool.eqb (is_nan a) (is_nan b).
(** surface.py:243-255 (__eq__) *)
Definition s_eq (a b : surf) : bool :=
  if same_frame a b then
    if forallb (fun p => same_nan (fst p) (snd p)) (combine (flat (s_data a)) (flat (s_data b))) then
      forallb (fun p => close (fst p) (snd p)) (combine (flat (s_data a)) (flat (s_data b)))
    else false
  else false.
(** surface.py:257-258: the tuple that is hashed (mean and std are NaN if any height is) *)
Definition npmean (l : list height) : height := if existsb is_nan l then None else nanmean l.
(** ndarray.std(), NaN if any element is NaN (surface.py:257-258) *)
Definition npstd (l : list height) : height := if existsb is_nan l then None else nanstd l.
(** surface.py:257-258 (__hash__) *)
Definition hash_key (a : surf) : R * R * nat * nat * height * height :=
  (s_sx a, s_sy a, ncols (s_data a), nrows (s_data a), npmean (flat (s_data a)), npstd (flat (s_data a))).

(** *** Filtering, base.py:338-404 and filter.py:4-101.
    [G sigma_y sigma_x data] is scipy.ndimage.gaussian_filter for the chosen end effect mode. *)
Section Filter.
Variable G : R -> R -> grid -> grid.
(** filter.py:4-101: lowpass or highpass *)
Inductive gtype := Lowpass | Highpass.
(** filter.py:71-101 GaussianFilter.apply (the data part) *)
Definition gaussian (t : gtype) (cutoff : R) (s : surf) : surf :=
  let low := G (gauss_sigma_px cutoff (s_sy s)) (gauss_sigma_px cutoff (s_sx s)) (s_data s) in
  mkSurf (match t with Lowpass => low | Highpass => gzip hsub (s_data s) low end) (s_sx s) (s_sy s).
(** what Surface.filter returns, base.py:340-404: one surface, the pair of 'both', or self *)
Inductive fresult := FOne (s : surf) | FTwo (high low : surf) | FSelf.
(** base.py:338-404; returns the receiver after the call and the result. *)
Definition filter (ftype : string) (cutoff : R) (cutoff2 : option R) (inplace : bool) (s : surf)
  : surf * res fresult :=
  let ret (s' : surf) := if inplace then (s', Ok FSelf) else (s, Ok (FOne s')) in
  if has_missing (s_data s) then (s, Err ValueError)
  else if negb (existsb (String.eqb ftype) ["highpass"; "lowpass"; "both"; "bandpass"]%string) then (s, Err ValueError)
  else if String.eqb ftype "both" && inplace then (s, Err ValueError)
  else if String.eqb ftype "bandpass" then
    match cutoff2 with
    | None => (s, Err ValueError)
    | Some c2 => if Rle_dec c2 cutoff then (s, Err ValueError)
                 else ret (gaussian Highpass c2 (gaussian Lowpass cutoff s))
    end
  else if String.eqb ftype "lowpass" then ret (gaussian Lowpass cutoff s)
  else if String.eqb ftype "highpass" then ret (gaussian Highpass cutoff s)
  else (s, Ok (FTwo (gaussian Highpass cutoff s) (gaussian Lowpass cutoff s))).
End Filter.
