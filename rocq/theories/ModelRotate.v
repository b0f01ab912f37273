(** Surface.rotate over the sampling contract of scipy.ndimage.rotate. *)
From Coq Require Import String Reals List Bool Arith ZArith.
From Verif Require Import Base RList ModelMath ModelHeights ModelGeom.
Import ListNotations.
Local Open Scope res_scope.

(** surface.py:638-639: |sin| and |cos| of the angle in degrees (over the reals; the code has doubles) *)
Definition abs_sin (angle : R) : R := Rabs (sin (angle * PI / 180)).
(** surface.py:638-639 *)
Definition abs_cos (angle : R) : R := Rabs (cos (angle * PI / 180)).

(** surface.py:629, scipy.ndimage.rotate(reshape=True): the shape of the rotated array is the extent of the rotated
    frame [0, ny] x [0, nx], rounded: int(extent + 0.5).  scipy is not part of /repo; this is its documented code. *)
Definition rot_rows (ny nx : nat) (angle : R) : nat :=
  Z.to_nat (pytrunc (INR ny * abs_cos angle + INR nx * abs_sin angle + 1 / 2)).
(** surface.py:629, scipy.ndimage.rotate: the number of columns *)
Definition rot_cols (ny nx : nat) (angle : R) : nat :=
  Z.to_nat (pytrunc (INR ny * abs_sin angle + INR nx * abs_cos angle + 1 / 2)).

(** surface.py:629, scipy.ndimage.rotate: pixel (i, j) of the rotated array is read at the point
    R (o - out_center) + in_center of the data, R = [[cos, sin], [-sin, cos]], centers (shape - 1) / 2. *)
Definition rot_source (ny nx : nat) (angle : R) (i j : nat) : R * R :=
  let dy := (INR i - (INR (rot_rows ny nx angle) - 1) / 2)%R in
  let dx := (INR j - (INR (rot_cols ny nx angle) - 1) / 2)%R in
  let c := cos (angle * PI / 180) in let s := sin (angle * PI / 180) in
  (c * dy + s * dx + (INR ny - 1) / 2, - s * dy + c * dx + (INR nx - 1) / 2)%R.

(** surface.py:629, scipy.ndimage (mode='constant'): a point is read from the data if it lies between the first and the
    last row and column; otherwise the pixel is cval = 0. *)
Definition within_data (ny nx : nat) (p : R * R) : bool :=
  (if Rle_dec 0 (fst p) then true else false) && (if Rle_dec (fst p) (INR ny - 1) then true else false) &&
  (if Rle_dec 0 (snd p) then true else false) && (if Rle_dec (snd p) (INR nx - 1) then true else false).

(** surface.py:629: ndimage.rotate(self.data, angle, reshape=True).  [at_point] stands for scipy's spline through the
    data, an arbitrary function of the point here. *)
Definition rotated (at_point : R -> R -> R) (ny nx : nat) (angle : R) : grid :=
  map (fun i => map (fun j => let p := rot_source ny nx angle i j in
                              Some (if within_data ny nx p then at_point (fst p) (snd p) else 0%R))
                    (seq 0 (rot_cols ny nx angle)))
      (seq 0 (rot_rows ny nx angle)).

(** surface.py:630-642: the width and height, in pixels, of the rectangle that is kept *)
Definition kept_width (ny nx : nat) (angle : R) : R :=
  let aspect := (INR ny / INR nx)%R in
  let raspect := (INR (rot_rows ny nx angle) / INR (rot_cols ny nx angle))%R in
  let total := if Rlt_dec aspect 1 then (INR ny / raspect)%R else INR nx in
  (total / (aspect * abs_sin angle + abs_cos angle))%R.
(** surface.py:630-642 *)
Definition kept_height (ny nx : nat) (angle : R) : R := (kept_width ny nx angle * (INR ny / INR nx))%R.

(** surface.py:608-660 rotate, behind no_nonmeasured_points: the kept pixels and the steps of the result.  A result without
    rows or columns has a step of inf in numpy; 0 stands for it here, and no theorem speaks about that step. *)
Definition rotate (at_point : R -> R -> R) (angle : R) (s : surf) : res surf :=
  let ny := nrows (s_data s) in let nx := ncols (s_data s) in
  if has_missing (s_data s) then Err ValueError else
  let rot := rotated at_point ny nx angle in
  do g <- rotate_data rot angle s;
  let width := extent nx (s_sx s) in let height := extent ny (s_sy s) in
  let width' := ((width * abs_cos angle + height * abs_sin angle) * kept_width ny nx angle / INR (rot_cols ny nx angle))%R in
  let height' := ((width * abs_sin angle + height * abs_cos angle) * kept_height ny nx angle / INR (rot_rows ny nx angle))%R in
  Ok (mkSurf g (width' / INR (ncols g)) (height' / INR (nrows g))).
