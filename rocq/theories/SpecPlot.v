(** Where matplotlib draws the cells of an image (C87, C88): Axes.imshow(array of n x m values, extent) divides the rectangle of the extent
    into n x m equal cells, row 0 at the top, column 0 at the left. *)
From Coq Require Import String Reals List Arith ZArith.
From Verif Require Import ModelHeights ModelGeom ModelAcf ModelPlot.
Import ListNotations.
Local Open Scope R_scope.

(** x lies between u and v *)
Definition between (u v x : R) : Prop := u <= x <= v \/ v <= x <= u.
(** the point (x, y) of the plot lies in the cell of row i and column j *)
Definition in_cell (e : extents) (n m i j : nat) (x y : R) : Prop :=
  between (e_left e + (e_right e - e_left e) * INR j / INR m) (e_left e + (e_right e - e_left e) * (INR j + 1) / INR m) x /\
  between (e_top e + (e_bottom e - e_top e) * INR i / INR n) (e_top e + (e_bottom e - e_top e) * (INR i + 1) / INR n) y.
(** position of a measured point: column j is at j step_x; rows are counted from the top, so the last row is at 0 *)
Definition x_of (s : surf) (j : nat) : R := INR j * s_sx s.
Definition y_of (s : surf) (i : nat) : R := (INR (nrows (s_data s)) - 1 - INR i) * s_sy s.
(** the value shown in row i and column j *)
Definition pixel (v : list (list R)) (i j : nat) : option R := match nth_error v i with Some r => nth_error r j | None => None end.

(** *** C88: the discrete Fourier transform of N x M values at p waves along the columns (top to bottom) and q waves along the rows *)
Definition dft (z : nat -> nat -> R) (N M : nat) (p q : Z) : R :=
  let angle i j := 2 * PI * (IZR p * INR i / INR N + IZR q * INR j / INR M) in
  sqrt (sum2 N M (fun i j => z i j * cos (angle i j)) ^ 2 + sum2 N M (fun i j => z i j * sin (angle i j)) ^ 2).
(** the heights of a grid without missing points, their mean, the Hann window of n points, the shade of an amplitude *)
Definition heights_of (g : grid) (i j : nat) : R := match nth j (nth i g []) None with Some x => x | None => 0 end.
Definition average (z : nat -> nat -> R) (N M : nat) : R := sum2 N M z / (INR N * INR M).
Definition hann (n i : nat) : R := match n with 1%nat => 1 | _ => (1 - cos (2 * PI * INR i / (INR n - 1))) / 2 end.
Definition shade (log : bool) (a : R) : R := if log then ln (a + 1 / 10000000000) / ln 10 else a.
Definition prepared (g : grid) (subtract_mean window : bool) (i j : nat) : R :=
  let N := nrows g in let M := ncols g in
  (heights_of g i j - (if subtract_mean then average (heights_of g) N M else 0)) * (if window then hann N i * hann M j else 1).
(** the wave number in the middle of the shifted spectrum of n values is 0 *)
Definition bin (n k : nat) : Z := Z.of_nat k - Z.of_nat (n / 2).
Definition width (g : grid) (sx : R) : R := (INR (ncols g) - 1) * sx.
Definition height_ (g : grid) (sy : R) : R := (INR (nrows g) - 1) * sy.
(** the frequencies shown along an axis of n frequencies k / W: all of them, or those up to the frequency closest to fmax, on both sides of zero *)
Definition shows (n : nat) (W : R) (fmax : option R) (lo hi : nat) : Prop :=
  match fmax with
  | None => lo = 0%nat /\ hi = (n - 1)%nat
  | Some f => bin n lo = (- bin n hi)%Z /\ (lo <= hi < n)%nat /\ forall k, (k < n)%nat -> Rabs (IZR (bin n hi) / W - f) <= Rabs (IZR (bin n k) / W - f)
  end.
