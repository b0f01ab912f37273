(** Specification vocabulary for C20. *)
From Coq Require Import Reals List.
From Verif Require Import RList ModelHeights ModelParams ModelDetrend.
Import ListNotations.
Local Open Scope R_scope.

(** sum of squared residuals of A c against z *)
Definition rss (A : list (list R)) (z c : list R) : R := sumR (zip2 (fun row zi => (zi - dot row c) ^ 2) A z).
(** c minimises the residual sum of squares over all coefficient vectors with m entries *)
Definition least_squares (m : nat) (A : list (list R)) (z c : list R) : Prop :=
  length c = m /\ forall c', length c' = m -> rss A z c <= rss A z c'.
(** The contract of numpy.linalg.lstsq / polyfit in exact arithmetic: for every matrix with m columns and matching
    right-hand side the answer is a least-squares solution. *)
Definition lsq_contract (lstsq : lsq_solver) : Prop :=
  forall m A z, A <> [] -> (forall r, In r A -> length r = m) -> length A = length z -> least_squares m A z (lstsq A z).
(** Polynomials of total degree <= d in the column number x and the row number y *)
Inductive is_poly : nat -> (R -> R -> R) -> Prop :=
| poly_const d c : is_poly d (fun _ _ => c)
| poly_add d f g : is_poly d f -> is_poly d g -> is_poly d (fun x y => f x y + g x y)
| poly_mulx d f : is_poly d f -> is_poly (S d) (fun x y => x * f x y)
| poly_muly d f : is_poly d f -> is_poly (S d) (fun x y => y * f x y).
Inductive is_poly1 : nat -> (R -> R) -> Prop :=
| poly1_const d c : is_poly1 d (fun _ => c)
| poly1_add d f g : is_poly1 d f -> is_poly1 d g -> is_poly1 d (fun x => f x + g x)
| poly1_mulx d f : is_poly1 d f -> is_poly1 (S d) (fun x => x * f x).
