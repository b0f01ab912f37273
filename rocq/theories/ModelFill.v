(** surface.py:491-522 and profile.py:131-156: fill_nonmeasured.  scipy.interpolate.griddata is a function parameter;
    the documented contract of its methods is in [interpolating] and [nearest_method]. *)
From Coq Require Import String Reals List Bool Arith ZArith.
From Verif Require Import Base RList ModelMath ModelHeights ModelParams ModelDetrend.
Import ListNotations.
Local Open Scope R_scope.

(** griddata(points, values, query): one query point at a time; None is NaN *)
Definition interpolator := list (nat * nat) -> list R -> nat * nat -> height.
(** surface.py:509-522.  A Profile is a grid with one row (profile.py:148-156).  inplace only decides where the result
    is stored (ModelHeap).  griddata raises when there is no data point at all. *)
Definition fill_nonmeasured (griddata : interpolator) (g : grid) : res grid :=
  if negb (has_missing g) then Ok g else
  let pts := List.filter (is_measured g) (coords (nrows g) (ncols g)) in
  if Nat.eqb (length pts) 0 then Err (OtherError "IndexError") else
  Ok (map (fun i => map (fun j => griddata pts (map (height_at g) pts) (i, j)) (seq 0 (ncols g))) (seq 0 (nrows g))).

(** ** Contracts *)
Definition dist2 (p q : nat * nat) : R := Rsqr (INR (fst p) - INR (fst q)) + Rsqr (INR (snd p) - INR (snd q)).
(** every method reproduces the data points it is given *)
Definition interpolating (gd : interpolator) : Prop := forall pts vals k, NoDup pts -> length vals = length pts ->
  (k < length pts)%nat -> gd pts vals (nth k pts (0, 0)%nat) = Some (nth k vals 0).
(** method='nearest': the value of some nearest data point *)
Definition nearest_method (gd : interpolator) : Prop := forall pts vals q, pts <> [] -> length vals = length pts ->
  exists k, (k < length pts)%nat /\ gd pts vals q = Some (nth k vals 0) /\
    forall k', (k' < length pts)%nat -> dist2 (nth k pts (0, 0)%nat) q <= dist2 (nth k' pts (0, 0)%nat) q.
