(** mathutils.py:113-145 otsu_threshold; surface.py:753-862 stepheight, cavity_volume. *)
From Coq Require Import String Reals List Bool Arith ZArith.
From Verif Require Import Base RList ModelMath ModelHeights ModelParams.
Import ListNotations.
Local Open Scope res_scope.
Local Open Scope R_scope.

(** *** np.histogram(values, bins=n): range is (min, max); a flat array gets (v-0.5, v+0.5), an empty one (0, 1);
    the last bin is closed.  Ideal arithmetic: numpy's edge corrections have nothing to correct. *)
Definition hist_range (values : list R) : R * R :=
  match lmin values, lmax values with
  | Some a, Some b => if Req_EM_T a b then (a - 1 / 2, b + 1 / 2) else (a, b)
  | _, _ => (0, 1)
  end.
(** the bin np.histogram puts a value into, mathutils.py:132 *)
Definition hist_bin (n : nat) (lo hi x : R) : nat := Nat.min (n - 1) (Z.to_nat (Int_part ((x - lo) / (hi - lo) * INR n))).
(** counts of np.histogram, mathutils.py:132 *)
Definition counts (n : nat) (lo hi : R) (values : list R) : list R :=
  map (fun b => INR (length (List.filter (fun x => Nat.eqb (hist_bin n lo hi x) b) values))) (seq 0 n).
(** bin_edges of np.histogram, mathutils.py:132 *)
Definition bin_edge (n : nat) (lo hi : R) (b : nat) : R := lo + INR b * ((hi - lo) / INR n).
(** mathutils.py:133 *)
Definition bin_center (n : nat) (lo hi : R) (b : nat) : R := (bin_edge n lo hi b + bin_edge n lo hi (S b)) / 2.
(** mathutils.py:133 *)
Definition bin_centers (n : nat) (lo hi : R) : list R := map (bin_center n lo hi) (seq 0 n).
(** np.argmax: the first NaN if there is one, else the first maximum *)
Fixpoint amax_go (l : list (option R)) (i best : nat) (bv : R) : nat :=
  match l with
  | [] => best
  | None :: _ => i
  | Some y :: l' => if Rlt_dec bv y then amax_go l' (S i) i y else amax_go l' (S i) best bv
  end.
(** np.argmax with NaN, mathutils.py:143 *)
Definition argmax_nan (l : list (option R)) : res nat :=
  match l with [] => Err ValueError | None :: _ => Ok 0%nat | Some x :: l' => Ok (amax_go l' 1 0 x) end.
(** mathutils.py:134-143 *)
Definition variance12 (cnt ctr : list R) : list (option R) :=
  let weight1 := cumsum 0 cnt in
  let weight2 := rev (cumsum 0 (rev cnt)) in
  let prod := zip2 Rmult cnt ctr in
  let mean1 := zip2 ndiv (cumsum 0 prod) weight1 in
  let mean2 := rev (zip2 ndiv (cumsum 0 (rev prod)) (rev weight2)) in
  zip2 (fun w m => match m with (Some m1, Some m2) => Some (w * ((m1 - m2) * (m1 - m2))) | _ => None end)
       (zip2 Rmult (removelast weight1) (tl weight2))
       (zip2 pair (removelast mean1) (tl mean2)).
(** mathutils.py:113-145; [values] are the finite ones (line 131). *)
Definition otsu_threshold (nbins : nat) (values : list R) : res R :=
  if Nat.eqb nbins 0 then Err ValueError else
  let '(lo, hi) := hist_range values in
  let cnt := counts nbins lo hi values in
  let ctr := bin_centers nbins lo hi in
  do idx <- argmax_nan (variance12 cnt ctr);
  Ok (nth idx ctr 0).

(** *** surface.py:753-862; data is self.data.ravel(), None is a non-measured point *)
Definition select (mask : list bool) (data : list height) : list height :=
  flat_map (fun p : bool * height => if fst p then [snd p] else []) (combine mask data).
(** ndarray.mean(), np.median: nan if an element is nan or there is none *)
Definition npmean (l : list height) : height := if existsb is_nan l then None else nanmean l.
(** np.median, surface.py:814-828: NaN if an element is NaN or there is none *)
Definition npmedian (l : list height) : height := if existsb is_nan l then None else nanmedian l.
(** x > y with NaN, surface.py:754-769 *)
Definition hgt (a b : height) : bool := match a, b with Some x, Some y => Rltb y x | _, _ => false end.
(** surface.py:753-768 *)
Definition get_mask (data : list height) : res (list bool) :=
  do threshold <- otsu_threshold 256 (measured data);
  let mask := map (fun h => hgt h (Some threshold)) data in
  Ok (if hgt (npmean (select (map negb mask) data)) (npmean (select mask data)) then map negb mask else mask).
(** surface.py:813-827 *)
Definition upper_lower (data : list height) : res (height * height) :=
  do mask <- get_mask data;
  Ok (npmedian (select mask data), npmedian (select (map negb mask) data)).
(** surface.py:829-841 *)
Definition stepheight (data : list height) : res height :=
  do '(u, l) <- upper_lower data; Ok (hsub u l).
(** surface.py:843-862; the sum over no points is 0, over points it is nan if the upper level is *)
Definition cavity_volume (data : list height) (threshold sx sy : R) : res height :=
  do '(u, l) <- upper_lower data;
  do s <- stepheight data;
  let cut := hsub u (hmul (Some threshold) s) in
  let inside := List.filter (fun h => hgt cut h) data in
  let depths := map (fun h => hsub u h) inside in
  Ok (if existsb is_nan depths then None else Some (sumR (measured depths) * sx * sy)).
