(** The height parameters in IEEE double arithmetic (surface.py:868-892, profile.py:307-331, base.py:200-239). *)
From Coq Require Import ZArith List Permutation.
From Flocq Require Import IEEE754.BinarySingleNaN IEEE754.Binary IEEE754.Bits.
From Verif Require Import Base ModelBytes ModelSur.
Import ListNotations.

(** 0.0 *)
Definition fzero : f64 := f64_of_Z 0.

(** np.sum of doubles.  numpy does not document the order in which it adds (it depends on the memory layout, on the
    length and on the vector instructions of the machine), so the model says only which results are possible:
    [sums d l s] when s comes from adding the elements of l pairwise in some order and with some bracketing, no
    element passing through more than d additions; adding to a running total that starts at 0.0 is allowed. *)
Inductive sums : nat -> list f64 -> f64 -> Prop :=
| sums_nil : sums 0 [] fzero
| sums_one x : sums 0 [x] x
| sums_add d d' l l' s s' : sums d l s -> sums d' l' s' -> sums (S (Nat.max d d')) (l ++ l') (fadd s s')
| sums_start d l s : sums d l s -> sums d l (fadd fzero s)
| sums_perm d l l' s : Permutation l l' -> sums d l s -> sums d l' s.
(** a summation routine, with the depth of the additions for each length *)
Definition summation (sum : list f64 -> f64) (depth : nat -> nat) : Prop :=
  forall l, exists d, (d <= depth (length l))%nat /\ sums d l (sum l).

(** one instance: adding from left to right *)
Definition sum_left (l : list f64) : f64 := match l with [] => fzero | x :: t => fold_left fadd t x end.

Section Params.
  Variable sum : list f64 -> f64.
  (** data.size as a double *)
  Definition fsize (l : list f64) : f64 := f64_of_Z (Z.of_nat (length l)).
  (** ndarray.mean: np.add.reduce over the array divided by its size *)
  Definition fmean (l : list f64) : f64 := fdiv (sum l) (fsize l).
  (** surface.py:879-880, base.py:214 (complete data) *)
  Definition fcentered (l : list f64) : list f64 := map (fun h => fsub h (fmean l)) l.
  (** ndarray.min() of complete data, base.py:147-155, surface.py:879 *)
  Definition fmin (l : list f64) : f64 := fextremum flt l.
  (** ndarray.max() of complete data, base.py:157-165, surface.py:880 *)
  Definition fmax (l : list f64) : f64 := fextremum (fun y m => flt m y) l.
  (** surface.py:868-892 without Ssk and Sku, which need the C library's pow.  abs_centered_data ** 2 is numpy's
      square, one multiplication *)
  Record fparams := mkFP { fSa : f64; fSq : f64; fSv : f64; fSp : f64; fSz : f64 }.
  (** surface.py:868-892 in doubles: the mean, centred data, Sa, Sq, Sp, Sv, Sz *)
  Definition float_height_parameters (l : list f64) : res fparams :=
    match l with
    | [] => Err ValueError     (* min of an empty array *)
    | _ =>
      let c := fcentered l in
      let a := map b64_abs c in
      let q := map (fun x => fmul x x) a in
      let sv := b64_abs (fmin c) in
      let sp := fmax c in
      Ok (mkFP (fdiv (sum a) (fsize l)) (b64_sqrt mode_NE (fdiv (sum q) (fsize l))) sv sp (fadd sp sv))
    end.
  (** profile.py:307-319 and 321-331: Ra and Rq are Sa and Sq of the one row of the profile *)
  Definition float_Ra (l : list f64) : f64 := fdiv (sum (map b64_abs (fcentered l))) (fsize l).
  (** profile.py:321-331 (Rq) in doubles *)
  Definition float_Rq (l : list f64) : f64 :=
    b64_sqrt mode_NE (fdiv (sum (map (fun x => fmul x x) (fcentered l))) (fsize l)).
  (** base.py:200-218 and 220-239 on complete data *)
  Definition float_center (l : list f64) : list f64 := fcentered l.
  (** base.py:220-239 (zero) in doubles *)
  Definition float_zero (l : list f64) : list f64 := map (fun h => fsub h (fmin l)) l.
End Params.
