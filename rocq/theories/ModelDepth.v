(** Quantities found by fitting sinusoids to lines of the surface: Surface.depth, aspect_ratio, _orientation_refined and orientation
    (surface.py:1376-1455, 1531-1640).  Numbers are ideal reals; scipy.optimize.curve_fit is a parameter. *)
From Coq Require Import String.
From Coq Require Import Reals List Bool Arith ZArith.
From Verif Require Import Base RList ModelMath ModelHeights ModelGeom ModelAcf ModelFourier.
Import ListNotations.
Local Open Scope list_scope.
Local Open Scope res_scope.
Local Open Scope R_scope.

(** a loop whose body may raise, surface.py:1403-1409, 1583-1626 *)
Fixpoint loop {A B} (f : A -> res B) (l : list A) : res (list B) :=
  match l with [] => Ok [] | x :: l' => do y <- f x; do ys <- loop f l'; Ok (y :: ys) end.
(** data[i], surface.py:1394, 1585 *)
Definition row_of (m : matrix) (i : nat) : res (list R) :=
  match nth_error m i with Some r => Ok r | None => Err IndexError end.
(** data[:, i], surface.py:1399, 1587 *)
Definition column_of (m : matrix) (n i : nat) : res (list R) :=
  if Nat.ltb i n then Ok (map (fun r => nth i r 0) m) else Err IndexError.
(** ndarray.max() and .min() of a non-empty line, surface.py:1406, 1590 *)
Definition line_max (l : list R) : R := match lmax l with Some x => x | None => 0 end.
(** ndarray.min() of a non-empty line, surface.py:1406, 1590 *)
Definition line_min (l : list R) : R := match lmin l with Some x => x | None => 0 end.
(** the initial guess, surface.py:1406, 1590 *)
Definition guess (l : list R) (period_px : R) : R * R * R * R := ((line_max l - line_min l) / 2, period_px, 0, meanR l).

(** np.median of a slice: NaN (with a warning) if it is empty, surface.py:1613 *)
Definition slice_median (l : list R) : height := match l with [] => None | _ => Some (medianR l) end.
(** surface.py:1603-1614: the median of the line around the j-th extremum of the sinusoid, NaN if the window leaves the line *)
Definition extremum_value (sw : R) (s : sinus) (line : list R) (j : nat) : height :=
  let idx := 1 / 2 * INR j * s_p s + first_extremum s in
  let w := pytrunc (s_p s * sw / 2) in
  let lo := (pytrunc idx - w)%Z in
  let hi := (pytrunc idx + w)%Z in
  if (lo <? 0)%Z || (Z.of_nat (length line) - 1 <? hi)%Z then None
  else match pyslice (sl lo (hi + 1)) line with Ok l => slice_median l | Err _ => None end.
(** np.abs with NaN, surface.py:1626 *)
Definition habs (h : height) : height := option_map Rabs h.
(** surface.py:1594-1626: |even extrema - odd extrema|; a period of exactly 0 makes the positions NaN, and int(nan) raises *)
Definition line_depths (sw : R) (nintervals : nat) (s : sinus) (line : list R) : res (list height) :=
  if Nat.eqb nintervals 0 then Ok [] else
  if Req_EM_T (s_p s) 0 then Err ValueError else
  Ok (map (fun k => habs (hsub (extremum_value sw s line (2 * k)) (extremum_value sw s line (2 * k + 1)))) (seq 0 nintervals)).

Section Fitting.
(** scipy.optimize.curve_fit(_sinusoid, arange(n), line, p0): the parameters found; None: RuntimeError *)
Variable curve_fit : list R -> R * R * R * R -> option (R * R * R * R).
(** np.argsort *)
Variable argsort : list R -> list nat.
(** mathutils.py:254-300 Sinusoid.from_fit with a guess *)
Definition from_fit (line : list R) (p0 : R * R * R * R) : res sinus :=
  match curve_fit line p0 with
  | Some (a, p, x0, y0) => Ok (from_popt a p x0 y0)
  | None => Err (OtherError "FittingError")
  end.
(** the surface: heights and pixel sizes *)
Variables (g : grid) (sx sy : R).

(** surface.py:1555-1628 depth for nprofiles >= 0.  The guard is line 1533.  An infinite period cannot come here (C104_period_finite). *)
Definition depth (nprofiles : nat) (sw : R) : res (height * height) :=
  if has_missing g then Err ValueError else
  do o <- orientation g sx sy argsort;
  let vertical := Rltb (-45) o && Rltb o 45 in
  let n := if vertical then nrows g else ncols g in
  if Nat.ltb n nprofiles then Err ValueError else
  do pp <- period_x_y g sx sy argsort;
  match (if vertical then fst pp else snd pp) with
  | None => Err ValueError
  | Some per =>
    let nintervals := Z.to_nat (pytrunc ((if vertical then extent (ncols g) sx else extent (nrows g) sy) / per)) in
    let period_px := per / (if vertical then sx else sy) in
    if Nat.eqb nprofiles 1 then Err ZeroDivisionError else
    let dist := Nat.div n (nprofiles - 1) in
    do ds <- loop (fun i =>
      do line <- (if vertical then row_of (matrix_of g) (dist * i) else column_of (matrix_of g) (ncols g) (dist * i));
      do s <- from_fit line (guess line period_px);
      line_depths sw nintervals s line) (seq 0 nprofiles);
    Ok (nanmean (concat ds), nanstd (concat ds))
  end.
(** surface.py:1630-1640; an infinite period (not reachable) would give 0 *)
Definition aspect_ratio : res height :=
  do d <- depth 30 (2 / 10);
  do p <- period g sx sy argsort;
  Ok (match fst d, p with Some m, Some q => Some (m / q) | Some _, None => Some 0 | None, _ => None end).

(** a > b where None is infinity, surface.py:1389, 1425 *)
Definition inf_gt (a b : option R) : bool :=
  match a, b with _, None => false | None, Some _ => true | Some x, Some y => Rltb y x end.
(** np.diff, surface.py:1412 *)
Fixpoint npdiff (l : list R) : list R :=
  match l with x :: ((y :: _) as l') => (y - x) :: npdiff l' | _ => [] end.
(** all of them, or None if one is NaN (numpy then gives NaN everywhere), surface.py:1409-1420 *)
Fixpoint all_some (l : list height) : option (list R) :=
  match l with
  | [] => Some []
  | Some x :: l' => option_map (cons x) (all_some l')
  | None :: _ => None
  end.
(** np.sign, surface.py:1426 *)
Definition npsign (x : R) : R := if Rlt_dec 0 x then 1 else if Rlt_dec x 0 then -1 else 0.
(** surface.py:1412-1420: the mean of the differences that deviate from the median by less than 5% of the largest deviation.
    0 / 0 is NaN, which is not less than 0.05; the mean of nothing is NaN. *)
Definition drift (diff : list R) : height :=
  let dev := map (fun x => Rabs (x - medianR diff)) diff in
  let top := line_max dev in
  if Req_EM_T top 0 then None else
  match List.filter (fun x => Rltb (Rabs (x - medianR diff) / top) (5 / 100)) diff with [] => None | l => Some (meanR l) end.
(** surface.py:1376-1427 *)
Definition orientation_refined : res height :=
  do pp <- period_x_y g sx sy argsort;
  let rows := inf_gt (snd pp) (fst pp) in
  match (if rows then fst pp else snd pp) with
  | None => Err OverflowError
  | Some per =>
    let period_px := pytrunc (per / (if rows then sx else sy)) in
    let dist_px := pytrunc (IZR period_px * (1 / 10)) in
    if (dist_px =? 0)%Z then Err ZeroDivisionError else
    let nprofiles := Z.to_nat (Z.of_nat (if rows then nrows g else ncols g) / dist_px) in
    do xfp <- loop (fun i =>
      do line <- (if rows then row_of (matrix_of g) (i * Z.to_nat dist_px) else column_of (matrix_of g) (ncols g) (i * Z.to_nat dist_px));
      do s <- from_fit line (guess line (IZR period_px));
      Ok (if Req_EM_T (s_p s) 0 then None else Some (first_extremum s))) (seq 0 nprofiles);
    if Nat.leb nprofiles 1 then Err ValueError else
    Ok (match all_some xfp with
        | None => None
        | Some xs =>
          match drift (npdiff xs) with
          | None => None
          | Some d =>
            let angle := atan (d / IZR dist_px) * (180 / PI) in
            Some (if inf_gt (fst pp) (snd pp) then npsign angle * 90 - angle else angle)
          end
        end)
  end.
(** surface.py:1429-1455 orientation *)
Definition surface_orientation (method : string) : res height :=
  if has_missing g then Err ValueError else
  if String.eqb method "fft_refined" then orientation_refined
  else if String.eqb method "fft" then rmap Some (orientation g sx sy argsort)
  else Err ValueError.
End Fitting.
