(** surface.py:1457-1529, Surface.homogeneity on complete data. *)
From Coq Require Import String Reals List Bool Arith ZArith.
From Verif Require Import Base RList ModelMath ModelParams ModelHeights ModelGeom.
Import ListNotations.
Local Open Scope res_scope.
Local Open Scope R_scope.

(** surface.py:1495 *)
Definition disallowed : list string :=
  ["Ssk"; "depth"; "homogeneity"; "orientation"; "aspect_ratio"; "period"]%string.
(** surface.py:1495: parameters for which no homogeneity is computed *)
Definition is_disallowed (p : string) : bool := existsb (String.eqb p) disallowed.
(** np.round(x, k): scale, round half to even, scale back (real arithmetic: no overflow) *)
Definition npround (k : nat) (x : R) : R := IZR (pyround (x * 10 ^ k)) / 10 ^ k.
(** surface.py:1515: data[y0:y1, x0:x1] *)
Definition cell_block (g : rgrid) (cy cx i j : nat) : rgrid :=
  map (fun r => firstn cx (skipn (cx * j) r)) (firstn cy (skipn (cy * i) g)).
(** surface.py:1510-1518.  idx runs over i * ncells_x + j, i.e. row by row. *)
Definition cells (g : rgrid) (cy cx ncy ncx : nat) : list rgrid :=
  flat_map (fun i => map (fun j => cell_block g cy cx i j) (seq 0 ncx)) (seq 0 ncy).
(** the sum of the cell values, NaN if one is NaN, surface.py:1510-1528 *)
Fixpoint osum (l : list (option R)) : option R :=
  match l with [] => Some 0 | o :: l => match o, osum l with Some x, Some s => Some (x + s) | _, _ => None end end.
(** np.mean of a list, nan-propagating; the mean of nothing is nan *)
Definition omean (l : list (option R)) : option R :=
  match l with [] => None | _ => option_map (fun s => s / INR (length l)) (osum l) end.
(** surface.py:1495-1529.  [param p c] is getattr(Surface(c, step_x, step_y), p)(), a real number (parameters that
    raise or give nan on a cell are not modelled); [auto_period] is self.period(), consulted only if period is None.
    Simplification: a negative period is folded into the zero case. *)
Definition homogeneity (param : string -> rgrid -> R) (auto_period : res R)
    (parameters : list string) (period : option R) (g : rgrid) (ny nx : nat) (sx sy : R) : res (option R) :=
  if existsb is_disallowed parameters then Err ValueError else
  do p <- match period with Some p => Ok p | None => auto_period end;
  let cx := pytrunc (p / sx) in
  let cy := pytrunc (p / sy) in
  if (cx <=? 0)%Z then Err ZeroDivisionError else
  if (cy <=? 0)%Z then Err ZeroDivisionError else
  let cx := Z.to_nat cx in let cy := Z.to_nat cy in
  let cs := cells g cy cx (ny / cy) (nx / cx) in
  let h := map (fun q => gini_h (map (fun c => npround 8 (param q c)) cs)) parameters in
  Ok (option_map (npround 4) (omean h)).
