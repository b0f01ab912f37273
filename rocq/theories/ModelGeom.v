(** Indexing, slicing and the geometric operations of surface.py and profile.py. *)
From Coq Require Import String Reals List Bool Arith ZArith.
From Verif Require Import Base RList ModelMath ModelHeights.
Import ListNotations.
Local Open Scope res_scope.
Local Open Scope Z_scope.

(** *** Python numbers *)
(** int(x): truncation towards zero *)
Definition pytrunc (x : R) : Z := if Rle_dec 0 x then Int_part x else - Int_part (- x).
(** round(x): nearest integer, ties to even *)
Definition pyround (x : R) : Z :=
  let k := Int_part x in
  let f := (x - IZR k)%R in
  if Rlt_dec f (1 / 2) then k
  else if Rlt_dec (1 / 2) f then k + 1
  else if Z.even k then k else k + 1.

(** *** Python slices over a sequence of length n (CPython PySlice_AdjustIndices) *)
Record pslice := mkSlice { sl_start : option Z; sl_stop : option Z; sl_step : option Z }.
(** a negative index counts from the end (CPython PySlice_AdjustIndices) *)
Definition wrap (n i : Z) : Z := if i <? 0 then i + n else i.
(** clipping into an interval (CPython PySlice_AdjustIndices) *)
Definition clampZ (lo hi i : Z) : Z := Z.max lo (Z.min hi i).
(** slice.indices(n) of Python: start, stop and step; a zero step raises ValueError *)
Definition slice_bounds (n : Z) (s : pslice) : res (Z * Z * Z) :=
  let step := match sl_step s with Some k => k | None => 1 end in
  if step =? 0 then Err ValueError else
  if 0 <? step then
    Ok (match sl_start s with None => 0 | Some i => clampZ 0 n (wrap n i) end,
        match sl_stop s with None => n | Some i => clampZ 0 n (wrap n i) end, step)
  else
    Ok (match sl_start s with None => n - 1 | Some i => clampZ (-1) (n - 1) (wrap n i) end,
        match sl_stop s with None => -1 | Some i => clampZ (-1) (n - 1) (wrap n i) end, step).
(** the number of indices of range(start, stop, step) *)
Definition slice_count (start stop step : Z) : nat :=
  Z.to_nat (if 0 <? step then (if start <? stop then (stop - start - 1) / step + 1 else 0)
            else (if stop <? start then (start - stop - 1) / (- step) + 1 else 0)).
(** range of slice.indices(n), as surface.py:260-271 uses it through numpy *)
Definition slice_indices (n : Z) (s : pslice) : res (list Z) :=
  do '(start, stop, step) <- slice_bounds n s;
  Ok (map (fun k => start + Z.of_nat k * step) (seq 0 (slice_count start stop step))).
(** the elements at given valid indices (numpy basic indexing) *)
Definition pick {A} (l : list A) (is : list Z) : list A :=
  flat_map (fun i => match nth_error l (Z.to_nat i) with Some x => [x] | None => [] end) is.
(** l[slice], surface.py:260-271, 688-720 *)
Definition pyslice {A} (s : pslice) (l : list A) : res (list A) :=
  do is <- slice_indices (Z.of_nat (length l)) s; Ok (pick l is).
(** l[a:b] *)
Definition sl (a b : Z) : pslice := mkSlice (Some a) (Some b) None.
(** mapping a function that may raise over a list (helper for surface.py:260-271) *)
Fixpoint rseq {A B} (f : A -> res B) (l : list A) : res (list B) :=
  match l with [] => Ok [] | x :: l => do y <- f x; do ys <- rseq f l; Ok (y :: ys) end.
(** data[rows, cols]; every row of a rectangular array has the same length [nc], so the column indices are the same *)
Definition gslice (rows cols : pslice) (g : grid) : res grid :=
  do ri <- slice_indices (Z.of_nat (nrows g)) rows;
  do ci <- slice_indices (Z.of_nat (ncols g)) cols;
  Ok (map (fun r => pick r ci) (pick g ri)).
(** the slice : of surface.py:260-271 *)
Definition full : pslice := mkSlice None None None.

(** *** surface.py:260-271 __getitem__.  Indexing with an int yields a 1d array, for which the constructor fails at
    shape[1] (surface.py:110-123); an index out of range is an IndexError as well. *)
Inductive item := IInt (i : Z) | ISlice (s : pslice).
(** the argument of surface[...], surface.py:260-271: one item or a pair *)
Inductive index := XOne (i : item) | XTwo (i j : item).
(** surface.py:260-271: the step of a slice multiplies the pixel size *)
Definition step_of (s : pslice) (x : R) : R :=
  match sl_step s with Some k => IZR k * x | None => x end.
(** surface.py:260-271 (__getitem__) *)
Definition getitem (x : index) (s : surf) : res surf :=
  match x with
  | XOne (ISlice r) =>
      do g <- gslice r full (s_data s); Ok (mkSurf g (s_sx s) (step_of r (s_sy s)))
  | XTwo (ISlice r) (ISlice c) =>
      do g <- gslice r c (s_data s); Ok (mkSurf g (step_of c (s_sx s)) (step_of r (s_sy s)))
  | _ => Err IndexError
  end.

(** *** surface.py:688-720 crop *)
Inductive box := BUnits (b0 b1 b2 b3 : R) | BPixels (x0 x1 y0 y1 : Z).
(** surface.py:705-709: the box in pixels, y measured from the lower edge *)
Definition box_px (b : box) (s : surf) : Z * Z * Z * Z :=
  match b with
  | BPixels x0 x1 y0 y1 => (x0, x1, y0, y1)
  | BUnits b0 b1 b2 b3 =>
      (pyround (b0 / s_sx s), pyround (b1 / s_sx s),
       Z.of_nat (nrows (s_data s)) - pyround (b3 / s_sy s) - 1,
       Z.of_nat (nrows (s_data s)) - pyround (b2 / s_sy s) - 1)
  end.
(** surface.py:688-720 (crop, in_units=True) *)
Definition crop (b : box) (s : surf) : res surf :=
  let '(x0, x1, y0, y1) := box_px b s in
  if (x0 <? 0) || (y0 <? 0) || (Z.of_nat (ncols (s_data s)) - 1 <? x1) || (Z.of_nat (nrows (s_data s)) - 1 <? y1)
  then Err ValueError
  else do g <- gslice (sl y0 (y1 + 1)) (sl x0 (x1 + 1)) (s_data s); Ok (mkSurf g (s_sx s) (s_sy s)).

(** *** surface.py:662-686 zoom; the window along one axis, and profile.py:247-270 *)
Definition zoom_slice (n : nat) (factor : R) : pslice :=
  let xn := pytrunc (INR n / factor) in
  let h := Z.quot (Z.of_nat n - xn) 2 in
  sl h (xn + h + 1).
(** surface.py:662-686 (zoom) *)
Definition zoom (factor : R) (s : surf) : res surf :=
  if Req_EM_T factor 0 then Err ZeroDivisionError else
  do g <- gslice (zoom_slice (nrows (s_data s)) factor) (zoom_slice (ncols (s_data s)) factor) (s_data s);
  Ok (mkSurf g (s_sx s) (s_sy s)).

(** *** profile.py: a profile with its step *)
Record prof := mkProf { p_data : list height; p_step : R }.
(** profile.py:213-245 *)
Definition prof_crop (units : bool) (a b : R) (x0 x1 : Z) (p : prof) : res prof :=
  let '(x0, x1) := if units then (pyround (a / p_step p), pyround (b / p_step p)) else (x0, x1) in
  if (x0 <? 0) || (Z.of_nat (length (p_data p)) - 1 <? x1) || (x1 <=? x0) then Err ValueError
  else do d <- pyslice (sl x0 (x1 + 1)) (p_data p); Ok (mkProf d (p_step p)).
(** profile.py:247-270 *)
Definition prof_zoom (factor : R) (p : prof) : res prof :=
  if Req_EM_T factor 0 then Err ZeroDivisionError else
  do d <- pyslice (zoom_slice (length (p_data p)) factor) (p_data p); Ok (mkProf d (p_step p)).

(** *** surface.py:361-440 profile extraction.  height_um = (ny - 1) * step_y. *)
Definition extent (n : nat) (step : R) : R := (INR n - 1) * step.
(** ndarray.mean of a list: NaN if empty or any NaN (npmean) *)
Definition column (g : grid) (j : nat) : list height :=
  flat_map (fun r => match nth_error r j with Some h => [h] | None => [] end) g.
(** ndarray.mean(axis=0), surface.py:389-399 *)
Definition mean_axis0 (nc : nat) (g : grid) : list height := map (fun j => npmean (column g j)) (seq 0 nc).
(** ndarray.mean(axis=1), surface.py:429-439 *)
Definition mean_axis1 (g : grid) : list height := map npmean g.
(** index computation shared by both directions: lines 381-397 / 421-437 *)
Definition profile_slice (n : nat) (step pos : R) (average : Z) (average_step : option R) : res pslice :=
  let ext := extent n step in
  if Rlt_dec ext pos then Err ValueError else
  let avpx := match average_step with None => 1 | Some a => pytrunc (a / step) end in
  if Req_EM_T ext 0 then Err ZeroDivisionError else
  let idx := pytrunc (pos / ext * INR n) in
  let lo := idx - Z.quot average 2 * avpx in
  let lo := if lo <? 0 then 0 else lo in
  let hi := idx + Z.quot average 2 * avpx in
  let hi := if Z.of_nat n <? hi then Z.of_nat n else hi in
  Ok (mkSlice (Some lo) (Some (hi + 1)) (Some avpx)).
(** surface.py:361-399 *)
Definition get_horizontal_profile (y : R) (average : Z) (average_step : option R) (s : surf) : res prof :=
  do r <- profile_slice (nrows (s_data s)) (s_sy s) y average average_step;
  do g <- gslice r full (s_data s);
  Ok (mkProf (mean_axis0 (ncols (s_data s)) g) (s_sx s)).
(** surface.py:401-440 *)
Definition get_vertical_profile (x : R) (average : Z) (average_step : option R) (s : surf) : res prof :=
  do c <- profile_slice (ncols (s_data s)) (s_sx s) x average average_step;
  do g <- gslice full c (s_data s);
  Ok (mkProf (mean_axis1 g) (s_sy s)).

(** *** surface.py:442-488 get_oblique_profile: the coordinates (x, y) in pixels at which the surface is sampled
    and the step. np.linspace(a, b, n) = a + k (b - a) / (n - 1), [a] for n = 1. *)
Definition linspace (a b : R) (n : nat) : list R :=
  map (fun k => if Nat.eqb n 1 then a else a + INR k * ((b - a) / (INR n - 1)))%R (seq 0 n).
(** surface.py:442-488: a position as a pixel number *)
Definition oblique_px (pos ext : R) (n : nat) : Z := pytrunc (pos / ext * INR n).
(** surface.py:442-488 and mathutils.py:13-38: the sampled coordinates *)
Definition oblique_points (x0 y0 x1 y1 : R) (s : surf) : res (list (R * R)) :=
  let nx := ncols (s_data s) in let ny := nrows (s_data s) in
  let w := extent nx (s_sx s) in let h := extent ny (s_sy s) in
  if Req_EM_T w 0 then Err ZeroDivisionError else if Req_EM_T h 0 then Err ZeroDivisionError else
  let a := oblique_px x0 w nx in let b := oblique_px y0 h ny in
  let c := oblique_px x1 w nx in let d := oblique_px y1 h ny in
  let inside p n := (0 <=? p) && (p <=? Z.of_nat n) in
  if negb (inside a nx && inside b ny && inside c nx && inside d ny) then Err ValueError else
  let dx := c - a in let dy := d - b in
  let size := Z.to_nat (pytrunc (sqrt (IZR dx * IZR dx + IZR dy * IZR dy))) in
  if dx =? 0 then Err ZeroDivisionError else
  let m := (IZR dy / IZR dx)%R in
  Ok (map (fun x => (x, m * x)%R) (linspace (IZR a) (IZR c) size)).

(** *** surface.py:1555-1583 depth: the profile indices accessed in the loop (n = number of rows or columns).
    For nprofiles < 1 the loop body is not executed. *)
Definition depth_indices (n nprofiles : nat) : res (list nat) :=
  if Nat.ltb n nprofiles then Err ValueError
  else if Nat.eqb nprofiles 1 then Err ZeroDivisionError
  else let dist := Nat.div n (nprofiles - 1) in
       let is := map (fun i => dist * i)%nat (seq 0 nprofiles) in
       if forallb (fun i => Nat.ltb i n) is then Ok is else Err IndexError.

(** *** surface.py:608-660 rotate.  [rot] is scipy.ndimage.rotate of the data. *)
Definition rotate_window (ny nx : nat) (rny rnx : nat) (angle : R) : pslice * pslice :=
  let aspect := (INR ny / INR nx)%R in
  let raspect := (INR rny / INR rnx)%R in
  let total := if Rlt_dec aspect 1 then (INR ny / raspect)%R else INR nx in
  let s := Rabs (sin (angle * PI / 180)) in
  let c := Rabs (cos (angle * PI / 180)) in
  let w := (total / (aspect * s + c))%R in
  let h := (w * aspect)%R in
  let ymin := pytrunc ((INR rny - h) / 2) + 1 in
  let ymax := pytrunc (INR rny - (INR rny - h) / 2) - 1 in
  let xmin := pytrunc ((INR rnx - w) / 2) + 1 in
  let xmax := pytrunc (INR rnx - (INR rnx - w) / 2) - 1 in
  (sl ymin (ymax + 1), sl xmin (xmax + 1)).
(** surface.py:608-660: cutting the largest inner rectangle out of the rotated array *)
Definition rotate_data (rot : grid) (angle : R) (s : surf) : res grid :=
  let '(r, c) := rotate_window (nrows (s_data s)) (ncols (s_data s)) (nrows rot) (ncols rot) angle in
  gslice r c rot.
