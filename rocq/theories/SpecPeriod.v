(** What is meant by the dominant period of a profile (C86). *)
From Coq Require Import Reals List Arith ZArith.
From Verif Require Import RList ModelHeights ModelGeom.
Import ListNotations.
Local Open Scope R_scope.

(** N points of a cosine that oscillates K times over the N pixels: its period is N / K pixels *)
Definition cosine (a phi off : R) (K N : nat) : list R :=
  map (fun j => off + a * cos (2 * PI * (INR K * INR j / INR N) + phi)) (seq 0 N).
Definition cosine_profile (a phi off : R) (K N : nat) (step : R) : prof := mkProf (map Some (cosine a phi off K N)) step.

(** strength of the k-th harmonic of a real series: modulus of its discrete Fourier coefficient *)
Definition harmonic (y : list R) (k : nat) : R :=
  let n := length y in
  let c := sumR (map (fun j => nth j y 0 * cos (2 * PI * (INR k * INR j / INR n))) (seq 0 n)) in
  let s := sumR (map (fun j => nth j y 0 * sin (2 * PI * (INR k * INR j / INR n))) (seq 0 n)) in
  sqrt (c ^ 2 + s ^ 2).

(** x has a peak at k: a plateau around k, not touching the borders 0 and n - 1, with lower neighbours *)
Definition peak_at (x : nat -> R) (n k : nat) : Prop :=
  exists l r, (0 < l <= k)%nat /\ (k <= r)%nat /\ (r < n - 1)%nat /\ (forall i, (l <= i <= r)%nat -> x i = x k) /\
              x (l - 1)%nat < x k /\ x (r + 1)%nat < x k.
(** the peak at k stands out by c: on both sides one gets down by c before getting higher than the peak *)
Definition stands_out (x : nat -> R) (n k : nat) (c : R) : Prop :=
  (exists i, (i < k)%nat /\ x i <= x k - c /\ forall j, (i <= j <= k)%nat -> x j <= x k) /\
  (exists i, (k < i < n)%nat /\ x i <= x k - c /\ forall j, (k <= j <= i)%nat -> x j <= x k).
(** the same with a second cosine that oscillates L times *)
Definition two_cosines (a phi : R) (K : nat) (b psi : R) (L : nat) (off : R) (N : nat) : list R :=
  map (fun j => off + a * cos (2 * PI * (INR K * INR j / INR N) + phi) + b * cos (2 * PI * (INR L * INR j / INR N) + psi)) (seq 0 N).
Definition two_cosines_profile (a phi : R) (K : nat) (b psi : R) (L : nat) (off : R) (N : nat) (step : R) : prof :=
  mkProf (map Some (two_cosines a phi K b psi L off N)) step.
