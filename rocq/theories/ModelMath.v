(** surfalize/mathutils.py: argclosest, closest, interp1d, Sinusoid; surfalize/filter.py: sigma.
    Numbers are ideal reals; arrays are lists without NaN (the callers filter NaN first). *)
From Coq Require Import Reals List ZArith.
From Verif Require Import Base RList.
Import ListNotations.
Local Open Scope R_scope.

(** np.argmin of a 1-d array: scan keeping the first strictly smaller value; ValueError on empty input. *)
Fixpoint amin_go (l : list R) (i best : nat) (bv : R) : nat :=
  match l with
  | [] => best
  | y :: l' => if Rlt_dec y bv then amin_go l' (S i) i y else amin_go l' (S i) best bv
  end.
(** np.argmin, mathutils.py:76-92 *)
Definition argmin (l : list R) : res nat :=
  match l with [] => Err ValueError | x :: l' => Ok (amin_go l' 1 0 x) end.

(** mathutils.py:76-92  argclosest(x, xdata) = np.argmin(np.abs(xdata - x)) *)
Definition argclosest (x : R) (xs : list R) : res nat := argmin (map (fun y => Rabs (y - x)) xs).

(** mathutils.py:94-110  closest(x, data) *)
Definition closest (x : R) (xs : list R) : res R := rmap (fun i => nth i xs 0) (argclosest x xs).

(** np.interp on ascending nodes: clamped outside, linear in the last segment whose left node is <= x. *)
Fixpoint interp (pts : list (R * R)) (x : R) : R :=
  match pts with
  | [] => 0                                     (* np.interp raises on empty nodes; callers never pass them *)
  | (x0, y0) :: rest =>
      match rest with
      | [] => y0
      | (x1, y1) :: _ =>
          if Rlt_dec x x1 then
            (if Rle_dec x x0 then y0 else (y1 - y0) / (x1 - x0) * (x - x0) + y0)
          else interp rest x
      end
  end.

(** np.argsort(xdata) and reordering; for equal nodes numpy's order is unspecified, here it is stable. *)
Fixpoint insert_pt (p : R * R) (l : list (R * R)) : list (R * R) :=
  match l with [] => [p] | q :: l' => if Rle_dec (fst p) (fst q) then p :: l else q :: insert_pt p l' end.
(** np.argsort(xdata) and reordering, mathutils.py:64-68 *)
Fixpoint sort_pts (l : list (R * R)) : list (R * R) :=
  match l with [] => [] | p :: l' => insert_pt p (sort_pts l') end.

(** mathutils.py:40-73  interp1d(xdata, ydata, assume_sorted=False) *)
Definition interp1d (xs ys : list R) (x : R) : R := interp (sort_pts (combine xs ys)) x.
(** ... assume_sorted=True *)
Definition interp1d_sorted (xs ys : list R) (x : R) : R := interp (combine xs ys) x.

(** Python float floor division x // y for y <> 0 (ideal arithmetic). *)
Definition floordiv (x y : R) : R := IZR (Int_part (x / y)).

(** mathutils.py:210-231 _sinusoid *)
Definition sinusoid (a p x0 y0 x : R) : R := a * sin ((x - x0) / p * 2 * PI) + y0.
(** mathutils.py:233-253 (Sinusoid): amplitude, period, x0, y0 *)
Record sinus := mkSin { s_a : R; s_p : R; s_x0 : R; s_y0 : R }.
(** mathutils.py:302-315 __call__ *)
Definition sin_at (s : sinus) (x : R) : R := sinusoid (s_a s) (s_p s) (s_x0 s) (s_y0 s) x.
(** mathutils.py:288-300: normalisation of the parameters [popt] returned by scipy's curve_fit (oracle). *)
Definition from_popt (a p x0 y0 : R) : sinus :=
  if Rlt_dec a 0 then mkSin (Rabs a) p (x0 - p / 2) y0 else mkSin a p x0 y0.
(** mathutils.py:317-329 *)
Definition first_extremum (s : sinus) : R :=
  let x0e := s_x0 s + s_p s / 4 in x0e - floordiv x0e (s_p s / 2) * s_p s / 2.
(** mathutils.py:331-342 *)
Definition first_peak (s : sinus) : R :=
  let x0e := s_x0 s + s_p s / 4 in x0e - floordiv x0e (s_p s) * s_p s.

(** filter.py:31-51  GaussianFilter.sigma *)
Definition gauss_sigma (cutoff : R) : R := cutoff / PI * sqrt (ln 2 / 2).
(** filter.py:86-93: standard deviation in pixels along an axis with this step. *)
Definition gauss_sigma_px (cutoff step : R) : R := gauss_sigma (cutoff / step).
