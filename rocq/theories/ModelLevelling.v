(** Surface.stepheight_level (surface.py:770-811) and the step heights measured afterwards.  The class mask of _stepheight_get_mask
    (surface.py:753-768) is kept in the cache of the object: a levelled copy starts with the mask of the surface it was made from.
    Numbers are ideal reals; scipy's lstsq is a parameter (its contract is lsq_contract, SpecDetrend). *)
From Coq Require Import String Reals List Bool Arith ZArith.
From Verif Require Import Base RList ModelMath ModelHeights ModelParams ModelDetrend ModelStep.
Import ListNotations.
Local Open Scope res_scope.
Local Open Scope R_scope.

(** A surface as far as stepheight is concerned: its heights, and the entry of its cache for _stepheight_get_mask that stepheight_level
    leaves in a copy (None: no entry left by it; what the method itself caches is what it computes), surface.py:807-810 *)
Record stepped := mkStepped { st_data : grid; st_mask : option (list bool) }.
(** Surface(data, step_x, step_y), surface.py:110-123, and every change of the heights, which clears the cache (surface.py:129-145) *)
Definition fresh (g : grid) : stepped := mkStepped g None.
(** self._stepheight_get_mask() with its cache, surface.py:753-768, cache.py:24-37 *)
Definition mask_of (s : stepped) : res (list bool) :=
  match st_mask s with Some m => Ok m | None => get_mask (flat (st_data s)) end.
(** the points of the upper level: x[mask], y[mask], surface.py:788-790 *)
Definition upper_points (g : grid) (mask : list bool) : list (nat * nat) :=
  map fst (List.filter snd (combine (coords (nrows g) (ncols g)) mask)).
(** np.column_stack((x_flat, y_flat, np.ones_like(x_flat))): the row of a point, surface.py:792 *)
Definition plane_row (p : nat * nat) : list R := [INR (snd p); INR (fst p); 1].
(** a * x + b * y + c, surface.py:798 *)
Definition plane_at (c : list R) (i j : nat) : R := nth 0 c 0 * INR j + nth 1 c 0 * INR i + nth 2 c 0.
(** self.data - (plane - plane.mean()), surface.py:794-800; NaN stays NaN *)
Definition levelled (lstsq : lsq_solver) (g : grid) (mask : list bool) : grid :=
  let pts := upper_points g mask in
  let c := lstsq (map plane_row pts) (map (height_at g) pts) in
  let mean := meanR (map (fun p => plane_at c (fst p) (snd p)) (coords (nrows g) (ncols g))) in
  zip2 (zip2 hsub) g (map (fun i => map (fun j => Some (plane_at c i j - mean)) (seq 0 (ncols g))) (seq 0 (nrows g))).
(** stepheight_level(inplace=False): a new Surface whose cache holds the mask of the old one, surface.py:786-811 *)
Definition level_copy (lstsq : lsq_solver) (s : stepped) : res stepped :=
  do mask <- mask_of s; Ok (mkStepped (levelled lstsq (st_data s) mask) (Some mask)).
(** stepheight_level(inplace=True): _set_data clears the cache, surface.py:801-804 *)
Definition level_inplace (lstsq : lsq_solver) (s : stepped) : res stepped :=
  do mask <- mask_of s; Ok (fresh (levelled lstsq (st_data s) mask)).
(** surface.py:813-827 *)
Definition levels_of (s : stepped) : res (height * height) :=
  do mask <- mask_of s;
  Ok (npmedian (select mask (flat (st_data s))), npmedian (select (map negb mask) (flat (st_data s)))).
(** surface.py:829-841 *)
Definition stepheight_of (s : stepped) : res height := do '(u, l) <- levels_of s; Ok (hsub u l).
