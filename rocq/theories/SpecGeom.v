(** Specification vocabulary for the geometric operations. *)
From Coq Require Import Reals List Bool Arith ZArith.
From Verif Require Import Base ModelHeights ModelGeom.
Import ListNotations.

(** The window of rows r0..r0+nr-1 and columns c0..c0+nc-1 *)
Definition window (g : grid) (r0 c0 nr nc : nat) (g' : grid) : Prop :=
  nrows g' = nr /\ rect g' /\ (nr <> 0%nat -> ncols g' = nc) /\
  (forall i j, cell g' i j = if (i <? nr)%nat && (j <? nc)%nat then cell g (r0 + i) (c0 + j) else None).
