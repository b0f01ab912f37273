(** surfalize/abbottfirestone.py: the Abbott-Firestone (material ratio) curve and the functional parameters;
    base.py:410-525 and surface.py:1119-1313 only forward to it.  Ideal real arithmetic; None is NaN (0/0). *)
From Coq Require Import String Reals List Bool Arith ZArith.
From Verif Require Import Base RList ModelMath ModelHeights ModelParams ModelDetrend.
Import ListNotations.
Local Open Scope res_scope.
Local Open Scope R_scope.

(** np.linspace(a, b, n) *)
Definition linspace (a b : R) (n : nat) : list R := map (fun i => a + (b - a) * INR i / (INR n - 1)) (seq 0 n).
(** np.quantile(xs, q), method 'linear': virtual index q*(N-1), linear between its floor and the next sorted value *)
Definition quantile (xs : list R) (q : R) : R :=
  let s := sortR xs in
  let v := q * (INR (length s) - 1) in
  let k := Z.to_nat (Int_part v) in
  nth k s 0 + (v - INR k) * (nth (Nat.min (S k) (length s - 1)) s 0 - nth k s 0).
(** abbottfirestone.py:36-56 _get_material_ratio_curve: the points (material ratio, height) *)
Definition material_curve (nbins : nat) (data : list R) : list (R * R) :=
  map (fun m => (m, quantile data (1 - m / 100))) (linspace 0 100 nbins).

(** mathutils.py:64-67: np.argsort(xdata) reorders the nodes; among equal nodes numpy's default sort gives no
    guarantee, so the ordering is a parameter ([sorter_ok] below is its contract). *)
Definition sorter := list (R * R) -> list (R * R).
(** abbottfirestone.py:79 and 149-162, _smc_fit *)
Definition mc (c : list (R * R)) (p : R) : R := interp1d (map fst c) (map snd c) p.
(** abbottfirestone.py:119 and 134-147, _smr_fit *)
Definition mr (ord : sorter) (c : list (R * R)) (z : R) : R := interp (ord (map (fun p => (snd p, fst p)) c)) z.

(** abbottfirestone.py:74-103: slide a secant of width 40 until the start exceeds 60; remember the first start
    index with the greatest (least steep) secant slope.  Indexing past the end raises IndexError. *)
Fixpoint central (f : R -> R) (rest : list (R * R)) (istart ifinal : nat) (best : option R) : res nat :=
  match rest with
  | [] => Err (OtherError "IndexError")
  | (m, h) :: rest' =>
      if Rlt_dec (100 - 40) m then Ok ifinal else
      let slope := (f (m + 40) - h) / 40 in
      match best with
      | None => central f rest' (S istart) ifinal (Some slope)
      | Some b => if Rlt_dec b slope then central f rest' (S istart) istart (Some slope)
                  else central f rest' (S istart) ifinal (Some b)
      end
  end.
(** np.searchsorted(a, v, side='right') on an ascending array *)
Fixpoint searchsorted_right (l : list R) (v : R) : nat :=
  match l with [] => 0%nat | x :: l' => if Rle_dec x v then S (searchsorted_right l' v) else 0%nat end.

(** the attributes _calculate_curve stores on the object, abbottfirestone.py:59-122 (with the curve of 37-57) *)
Record afc := mkAfc { a_curve : list (R * R); a_start : nat; a_end : nat; a_slope : R; a_intercept : R; a_data : list R }.
(** abbottfirestone.py:27-121 (__init__ and _calculate_curve).  np.polyfit(x, y, 1) solves the least-squares problem
    with rows (x, 1) and returns (slope, intercept). *)
Definition afc_init (polyfit : lsq_solver) (nbins : nat) (data : list height) : res afc :=
  if existsb is_nan data then Err ValueError else
  match measured data with
  | [] => Err (OtherError "IndexError")
  | d =>
      let c := material_curve nbins d in
      do i0 <- central (mc c) c 0 0 None ;
      let iend := searchsorted_right (map fst c) (nth i0 (map fst c) 0 + 40) in
      let region := firstn (iend - i0) (skipn i0 c) in
      let sol := polyfit (map (fun p => [fst p; 1]) region) (map snd region) in
      Ok (mkAfc c i0 iend (nth 0 sol 0) (nth 1 sol 0) d)
  end.
(** abbottfirestone.py:114-117 *)
Definition yupper (a : afc) : R := a_intercept a.
(** abbottfirestone.py:114-122: self._yupper and self._ylower are the line at 0 and at 100 *)
Definition ylower (a : afc) : R := a_slope a * 100 + a_intercept a.
(** abbottfirestone.py:123-132 *)
Definition afc_k (a : afc) : R := yupper a - ylower a.
(** abbottfirestone.py:164-184 *)
Definition mr1 (ord : sorter) (a : afc) : R := mr ord (a_curve a) (yupper a).
(** abbottfirestone.py:175-184 (mr2) *)
Definition mr2 (ord : sorter) (a : afc) : R := mr ord (a_curve a) (ylower a).
(** np.trapezoid(y, x) over points (x, y) *)
Fixpoint trapezoid (l : list (R * R)) : R :=
  match l with
  | p :: (q :: _) as l' => (fst q - fst p) * (snd p + snd q) / 2 + trapezoid l'
  | _ => 0
  end.
(** argclosest on the curve heights; the curve is never empty, so its ValueError cannot occur *)
Definition idx_of (c : list (R * R)) (z : R) : nat := match argclosest z (map snd c) with Ok i => i | Err _ => 0%nat end.
(** |trapezoid(mr[:idx], x=height[:idx])| and |trapezoid(100 - mr[idx:], x=height[idx:])| *)
Definition area_above (c : list (R * R)) (idx : nat) : R := Rabs (trapezoid (map (fun p => (snd p, fst p)) (firstn idx c))).
(** the trapezoid behind idx, abbottfirestone.py:206-218 (vk) and 304-318 (Vv) *)
Definition area_below (c : list (R * R)) (idx : nat) : R := Rabs (trapezoid (map (fun p => (snd p, 100 - fst p)) (skipn idx c))).
(** x / y of numpy floats, not a number for y = 0 (numpy gives an infinity there unless x = 0; the model does not tell the two apart), abbottfirestone.py:187-218 *)
Definition rdiv (x y : R) : height := if Req_EM_T y 0 then None else Some (x / y).
(** abbottfirestone.py:186-218 *)
Definition pk (ord : sorter) (a : afc) : height := rdiv (2 * area_above (a_curve a) (idx_of (a_curve a) (yupper a))) (mr1 ord a).
(** abbottfirestone.py:205-218 (vk) *)
Definition vk (ord : sorter) (a : afc) : height := rdiv (2 * area_below (a_curve a) (idx_of (a_curve a) (ylower a))) (100 - mr2 ord a).
(** abbottfirestone.py:220-242 *)
Definition pkx (a : afc) : height := option_map (fun m => m - yupper a) (lmax (a_data a)).
(** abbottfirestone.py:232-242 (vkx) *)
Definition vkx (a : afc) : height := option_map (fun m => ylower a - m) (lmin (a_data a)).
(** abbottfirestone.py:244-266 *)
Definition ak1 (ord : sorter) (a : afc) : height := option_map (fun p => 1 / 2 * p * mr1 ord a) (pk ord a).
(** abbottfirestone.py:256-266 (ak2) *)
Definition ak2 (ord : sorter) (a : afc) : height := option_map (fun p => 1 / 2 * p * (100 - mr2 ord a)) (vk ord a).
(** abbottfirestone.py:268-284; surface.py:1277-1294 (Sxp) computes the same difference *)
Definition dc (a : afc) (p q : R) : R := mc (a_curve a) p - mc (a_curve a) q.
(** surface.py:1277-1294 (Sxp) through mc, abbottfirestone.py:149-162 *)
Definition sxp (a : afc) (p q : R) : R := mc (a_curve a) p - mc (a_curve a) q.
(** abbottfirestone.py:286-318 *)
Definition Vm (a : afc) (p : R) : R := area_above (a_curve a) (idx_of (a_curve a) (mc (a_curve a) p)) / 100.
(** abbottfirestone.py:303-318 (Vv) *)
Definition Vv (a : afc) (p : R) : R := area_below (a_curve a) (idx_of (a_curve a) (mc (a_curve a) p)) / 100.
(** abbottfirestone.py:320-362 *)
Definition vmp (a : afc) (p : R) : R := Vm a p.
(** abbottfirestone.py:331-340 (vmc) *)
Definition vmc (a : afc) (p q : R) : R := Vm a q - Vm a p.
(** abbottfirestone.py:342-351 (vvv) *)
Definition vvv (a : afc) (q : R) : R := Vv a q.
(** abbottfirestone.py:353-362 (vvc) *)
Definition vvc (a : afc) (p q : R) : R := Vv a p - Vv a q.
