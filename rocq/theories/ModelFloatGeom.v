(** From positions in micrometres to pixels in IEEE double arithmetic: crop, profile extraction, zoom (surface.py,
    profile.py).  The selection of the pixels is that of ModelGeom; only the indices are computed here in doubles. *)
From Coq Require Import String Reals List Bool Arith ZArith.
From Flocq Require Import Core.Core.
From Flocq Require Import IEEE754.BinarySingleNaN IEEE754.Binary IEEE754.Bits.
From Verif Require Import Base ModelBytes ProofFloat ModelSur ModelHeights ModelGeom.
Import ListNotations.
Local Open Scope res_scope.
Local Open Scope Z_scope.

(** x / y of Python floats *)
Definition pydiv (x y : f64) : res f64 :=
  match y with Binary.B754_zero _ _ _ => Err ZeroDivisionError | _ => Ok (fdiv x y) end.
(** int(x) of a float: exact truncation; int(nan) and int(inf) raise *)
Definition int_of (x : f64) : res Z :=
  if Binary.is_finite 53 1024 x then Ok (Binary.Btrunc 53 1024 x)
  else if nan64b x then Err ValueError else Err OverflowError.
(** round(x) of a float: the nearest integer, ties to even, exactly *)
Definition round_of (x : f64) : res Z :=
  if Binary.is_finite 53 1024 x then Ok (ZnearestE (R64 x))
  else if nan64b x then Err ValueError else Err OverflowError.
(** a Python int among floats *)
Definition fnat (n : nat) : f64 := f64_of_Z (Z.of_nat n).

(** surface.py:143-144, 195-196: width_um, height_um *)
Definition fextent (n : nat) (step : f64) : f64 := fmul (f64_of_Z (Z.of_nat n - 1)) step.

(** surface.py:705-709 and profile.py:232-234: round(position / step) *)
Definition float_pixel (pos step : f64) : res Z := do q <- pydiv pos step; round_of q.
(** surface.py:688-720 crop(in_units=True) of a surface with the steps sx, sy *)
Definition float_crop (sx sy b0 b1 b2 b3 : f64) (s : surf) : res surf :=
  do x0 <- float_pixel b0 sx;
  do x1 <- float_pixel b1 sx;
  do d <- float_pixel b2 sy;
  do u <- float_pixel b3 sy;
  let ny := Z.of_nat (nrows (s_data s)) in
  crop (BPixels x0 x1 (ny - u - 1) (ny - d - 1)) s.
(** profile.py:213-245 crop(in_units=True) *)
Definition float_prof_crop (step a b : f64) (p : prof) : res prof :=
  do x0 <- float_pixel a step;
  do x1 <- float_pixel b step;
  prof_crop false 0 0 x0 x1 p.

(** surface.py:391, 431, 466-469: int(pos / extent * n) *)
Definition float_index (n : nat) (ext pos : f64) : res Z := do q <- pydiv pos ext; int_of (fmul q (fnat n)).
(** surface.py:385-388, 425-428: int(average_step / step) *)
Definition step_pixels (a step : f64) : res Z := do q <- pydiv a step; int_of q.
(** surface.py:382-397 and 422-437; int(average / 2) is exact for the integers in question *)
Definition float_profile_slice (n : nat) (step pos : f64) (average : Z) (average_step : option f64) : res pslice :=
  let ext := fextent n step in
  if flt ext pos then Err ValueError else
  do avpx <- match average_step with None => Ok 1 | Some a => step_pixels a step end;
  do idx <- float_index n ext pos;
  let lo := idx - Z.quot average 2 * avpx in
  let lo := if lo <? 0 then 0 else lo in
  let hi := idx + Z.quot average 2 * avpx in
  let hi := if Z.of_nat n <? hi then Z.of_nat n else hi in
  Ok (mkSlice (Some lo) (Some (hi + 1)) (Some avpx)).
(** surface.py:361-399 and 401-440; the mean over the rows is the real one of ModelGeom *)
Definition float_get_horizontal_profile (sy y : f64) (average : Z) (average_step : option f64) (s : surf) : res prof :=
  do r <- float_profile_slice (nrows (s_data s)) sy y average average_step;
  do g <- gslice r full (s_data s);
  Ok (mkProf (mean_axis0 (ncols (s_data s)) g) (s_sx s)).
(** surface.py:401-440 (get_vertical_profile) with the index computed in doubles *)
Definition float_get_vertical_profile (sx x : f64) (average : Z) (average_step : option f64) (s : surf) : res prof :=
  do c <- float_profile_slice (ncols (s_data s)) sx x average average_step;
  do g <- gslice full c (s_data s);
  Ok (mkProf (mean_axis1 g) (s_sy s)).

(** surface.py:662-686 and profile.py:247-270: xn = int(x / factor); int((x - xn) / 2) halves an integer exactly *)
Definition float_zoom_slice (n : nat) (factor : f64) : res pslice :=
  do q <- pydiv (fnat n) factor;
  do xn <- int_of q;
  let h := Z.quot (Z.of_nat n - xn) 2 in
  Ok (sl h (xn + h + 1)).
(** surface.py:662-686 (zoom), the sizes computed in doubles *)
Definition float_zoom (factor : f64) (s : surf) : res surf :=
  do c <- float_zoom_slice (ncols (s_data s)) factor;
  do r <- float_zoom_slice (nrows (s_data s)) factor;
  do g <- gslice r c (s_data s);
  Ok (mkSurf g (s_sx s) (s_sy s)).
