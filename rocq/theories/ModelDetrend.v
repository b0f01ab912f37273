(** surface.py:524-606 (level, detrend_polynomial) and profile.py:158-211.  scipy/numpy's least-squares solvers are
    function parameters [lstsq]; their documented contract is [lsq_contract] in SpecDetrend. *)
From Coq Require Import String Reals List Bool Arith ZArith.
From Verif Require Import Base RList ModelMath ModelHeights ModelParams.
Import ListNotations.
Local Open Scope R_scope.

(** one row of a matrix times the coefficients, surface.py:588-606 *)
Definition dot (a b : list R) : R := sumR (zip2 Rmult a b).
(** np.mgrid[:rows, :cols] flattened: (row, column) in row-major order *)
Definition coords (ny nx : nat) : list (nat * nat) := flat_map (fun i => map (fun j => (i, j)) (seq 0 nx)) (seq 0 ny).
(** not np.isnan(data[i, j]), surface.py:568-576 *)
Definition is_measured (g : grid) (p : nat * nat) : bool :=
  match cell g (fst p) (snd p) with Some (Some _) => true | _ => false end.
(** data[i, j] of a measured point, surface.py:568-576 *)
Definition height_at (g : grid) (p : nat * nat) : R :=
  match cell g (fst p) (snd p) with Some (Some z) => z | _ => 0 end.
(** surface.py:565-566: (k - mean) / max along an axis of n points *)
Definition norm_coord (n k : nat) : R := (INR k - meanR (map INR (seq 0 n))) / (INR n - 1).
(** surface.py:579-583: 1, then x^(i-j) y^j for i = 1..degree, j = 0..i *)
Definition terms (degree : nat) : list (nat * nat) :=
  (0, 0)%nat :: flat_map (fun i => map (fun j => (i - j, j)%nat) (seq 0 (S i))) (seq 1 degree).
(** surface.py:578-583: the row of the design matrix of one point, coordinates normalised to the size *)
Definition design_row (ny nx degree : nat) (p : nat * nat) : list R :=
  map (fun t => norm_coord nx (snd p) ^ (fst t) * norm_coord ny (fst p) ^ (snd t)) (terms degree).
(** np.linalg.lstsq / np.polyfit as a function of the design matrix and the heights (surface.py:586, profile.py:197) *)
Definition lsq_solver := list (list R) -> list R -> list R.
(** surface.py:544-606, the pair (detrended, trend).  Simplifications: flatten/reshape are elided (points are addressed
    by row and column); a single row or column makes the normalised coordinate 0/0, which lstsq rejects. *)
Definition detrend_polynomial (lstsq : lsq_solver) (g : grid) (degree : nat) : res (grid * grid) :=
  let ny := nrows g in let nx := ncols g in
  if (Nat.eqb ny 0 || Nat.eqb nx 0)%bool then Err ValueError else
  if (Nat.leb 1 degree && (Nat.eqb ny 1 || Nat.eqb nx 1))%bool then Err (OtherError "LinAlgError") else
  let valid := List.filter (is_measured g) (coords ny nx) in
  let A := map (design_row ny nx degree) valid in
  let z := map (height_at g) valid in
  let coeffs := lstsq A z in
  let trend := map (fun i => map (fun j => Some (dot (design_row ny nx degree (i, j)) coeffs)) (seq 0 nx)) (seq 0 ny) in
  Ok (zip2 (zip2 (fun h t => match h with None => None | Some _ => hsub h t end)) g trend, trend).
(** surface.py:524-541 *)
Definition level (lstsq : lsq_solver) (g : grid) : res (grid * grid) := detrend_polynomial lstsq g 1.

(** profile.py:176-211.  np.linspace(-1, 1, n); a single point is -1. *)
Definition prof_coord (n k : nat) : R := if Nat.eqb n 1 then -1 else -1 + 2 * INR k / (INR n - 1).
(** the row of the Vandermonde matrix of np.polyfit, profile.py:176-211 *)
Definition prof_row (n degree k : nat) : list R := map (fun e => prof_coord n k ^ e) (seq 0 (S degree)).
(** not np.isnan(data[k]), profile.py:176-211 *)
Definition p_measured (d : list height) (k : nat) : bool := match nth_error d k with Some (Some _) => true | _ => false end.
(** data[k] of a measured point, profile.py:176-211 *)
Definition p_height (d : list height) (k : nat) : R := match nth_error d k with Some (Some z) => z | _ => 0 end.
(** profile.py:176-211 (detrend_polynomial) *)
Definition prof_detrend (polyfit : lsq_solver) (d : list height) (degree : nat) : res (list height * list height) :=
  let n := length d in
  let valid := List.filter (p_measured d) (seq 0 n) in
  if Nat.eqb (length valid) 0 then Err TypeError else      (* polyfit: expected non-empty vector *)
  let coeffs := polyfit (map (prof_row n degree) valid) (map (p_height d) valid) in
  let trend := map (fun k => Some (dot (prof_row n degree k) coeffs)) (seq 0 n) in
  Ok (zip2 (fun h t => match h with None => None | Some _ => hsub h t end) d trend, trend).
