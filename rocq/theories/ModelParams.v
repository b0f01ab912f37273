(** Height, hybrid and functional parameters on complete data (surface.py:864-1040, profile.py:286-447). *)
From Coq Require Import String Reals List Bool Arith ZArith.
From Verif Require Import Base RList ModelMath.
Import ListNotations.
Local Open Scope res_scope.
Local Open Scope R_scope.

(** x / y in numpy; None stands for the nan/inf of a zero denominator *)
Definition ndiv (x y : R) : option R := if Req_EM_T y 0 then None else Some (x / y).

(** surface.py:868-892.  The argument is data.ravel(). *)
Record hparams := mkHP { Sa : R; Sq : R; Sv : R; Sp : R; Sz : R; Ssk : option R; Sku : option R }.
(** surface.py:868-892 (height_parameters) *)
Definition height_parameters (data : list R) : res hparams :=
  let mean := meanR data in
  let centered := map (fun x => x - mean) data in
  let absc := map Rabs centered in
  let sq_ := map (fun x => x * x) absc in
  let size := INR (length data) in
  let sa := sumR absc / size in
  let sq := sqrt (sumR sq_ / size) in
  match lmin centered, lmax centered with
  | Some lo, Some hi =>
      let sv := Rabs lo in let sp := hi in
      Ok (mkHP sa sq sv sp (sp + sv)
            (ndiv (sumR (map (fun x => (Rabs x * Rabs x) * x) centered) / size) (sq ^ 3))
            (ndiv (sumR (map (fun x => (x * x) * (x * x)) absc) / size) (sq ^ 4)))
  | _, _ => Err ValueError   (* min of an empty array *)
  end.

(** *** Hybrid parameters on a complete array *)
Definition rgrid := list (list R).
(** data[i, j] of a complete array, surface.py:986-1042 *)
Definition at_ (g : rgrid) (i j : nat) : R := nth j (nth i g []) 0.
(** np.diff(axis=1), one row *)
Fixpoint diff1 (l : list R) : list R :=
  match l with a :: ((b :: _) as t) => (b - a) :: diff1 t | _ => [] end.
(** elementwise combination of two arrays *)
Fixpoint zip2 {A B C} (f : A -> B -> C) (l : list A) (l' : list B) : list C :=
  match l, l' with x :: l, y :: l' => f x y :: zip2 f l l' | _, _ => [] end.
(** np.diff(axis=0) *)
Fixpoint diff0 (g : rgrid) : rgrid :=
  match g with a :: ((b :: _) as t) => zip2 (fun x y => y - x) a b :: diff0 t | _ => [] end.
(** np.diff(data, axis=1), surface.py:1028-1042 *)
Definition diffx (g : rgrid) : rgrid := map diff1 g.
(** np.sum of a 2d array *)
Definition sum2 (g : rgrid) : R := sumR (map sumR g).
(** surface.py:974-984; extents are (n-1)*step *)
Definition projected_area (ny nx : nat) (sx sy : R) : R :=
  ((INR nx - 1) * sx - sx) * ((INR ny - 1) * sy - sy).
(** surface.py:986-1013.  dz_y[:, :-1] and dz_x[:-1, :] *)
Definition quad (sx sy dzx dzy : R) : R :=
  1 / 2 * sqrt ((sy * dzy) ^ 2 + (sx * dzx) ^ 2 + (sx * sy) ^ 2).
(** surface.py:986-1013: the triangle areas of every cell of four points *)
Definition areas (g : rgrid) (sx sy : R) : rgrid :=
  zip2 (zip2 (fun dzy dzx => quad sx sy dzx dzy))
       (map (@removelast R) (diff0 g)) (removelast (diffx g)).
(** surface.py:988-1013 (surface_area) *)
Definition surface_area (g : rgrid) (sx sy : R) : R := 2 * sum2 (areas g sx sy).
(** surface.py:1015-1024; option: division by a zero projected area *)
Definition Sdr (g : rgrid) (ny nx : nat) (sx sy : R) : option R :=
  option_map (fun q => (q - 1) * 100) (ndiv (surface_area g sx sy) (projected_area ny nx sx sy)).
(** surface.py:1026-1040 *)
Definition Sdq (g : rgrid) (ny nx : nat) (sx sy : R) : R :=
  sqrt ((sum2 (map (map (fun d => (d / sx) ^ 2)) (diffx g)) + sum2 (map (map (fun d => (d / sy) ^ 2)) (diff0 g)))
        / (INR ny * INR nx)).

(** *** Profiles *)
(** np.array_split: the first (size mod n) sections have one extra element *)
Definition section_sizes (size n : nat) : list nat :=
  repeat (S (size / n)) (size mod n) ++ repeat (size / n)%nat (n - size mod n).
(** np.array_split: sections of given sizes, profile.py:286-305 *)
Fixpoint split_sizes {A} (l : list A) (sizes : list nat) : list (list A) :=
  match sizes with [] => [] | k :: ks => firstn k l :: split_sizes (skipn k l) ks end.
(** profile.py:286-305 *)
Definition sectioned_data (data : list R) (n_sections : Z) : res (list (list R)) :=
  if (n_sections <? 1)%Z then Err ValueError
  else if (Z.of_nat (length data) <? n_sections)%Z then Err ValueError
  else Ok (split_sizes (map (fun x => x - meanR data) data) (section_sizes (length data) (Z.to_nat n_sections))).
(** section.max() of a section that is not empty, profile.py:333-392 *)
Definition getmax (l : list R) : R := match lmax l with Some x => x | None => 0 end.
(** section.min() of a section that is not empty, profile.py:333-392 *)
Definition getmin (l : list R) : R := match lmin l with Some x => x | None => 0 end.
(** profile.py:333-392; sections are never empty, so max/min are defined (proved) *)
Definition Rp (data : list R) (n : Z) : res R := do s <- sectioned_data data n; Ok (meanR (map getmax s)).
(** profile.py:354-372 (Rv) *)
Definition Rv (data : list R) (n : Z) : res R := do s <- sectioned_data data n; Ok (meanR (map (fun x => Rabs (getmin x)) s)).
(** profile.py:374-392 (Rz) *)
Definition Rz (data : list R) (n : Z) : res R := do s <- sectioned_data data n; Ok (meanR (map (fun x => getmax x - getmin x) s)).
(** profile.py:394-405 *)
Definition Rt (data : list R) : res R :=
  match lmax data, lmin data with Some a, Some b => Ok (a - b) | _, _ => Err ValueError end.
(** profile.py:309-331, 407-431 *)
Definition Ra (data : list R) : R := sumR (map (fun x => Rabs (x - meanR data)) data) / INR (length data).
(** profile.py:321-331 (Rq) *)
Definition Rq (data : list R) : R := sqrt (sumR (map (fun x => (x - meanR data) ^ 2) data) / INR (length data)).
(** profile.py:407-418 (Rsk) *)
Definition Rsk (data : list R) : option R := ndiv (sumR (map (fun x => (x - meanR data) ^ 3) data) / INR (length data)) (Rq data ^ 3).
(** profile.py:420-431 (Rku) *)
Definition Rku (data : list R) : option R := ndiv (sumR (map (fun x => (x - meanR data) ^ 4) data) / INR (length data)) (Rq data ^ 4).
(** profile.py:435-445 *)
Definition Rdq (data : list R) (step : R) : R := sqrt (meanR (map (fun d => (d / step) ^ 2) (diff1 data))).

(** *** Homogeneity, surface.py:1515-1528: 1 - Gini of one row of (rounded, sorted) cell values.
    None: sum zero, i.e. nan.  Without any cell np.linspace(0, 1, 1, retstep=True) has step nan, the trapezoid of the
    single point is 0 and the result is 1 - 0.5/0.5 = 0. *)
Fixpoint cumsum (acc : R) (l : list R) : list R := match l with [] => [] | x :: l => (acc + x) :: cumsum (acc + x) l end.
(** trapezoid(..., dx), surface.py:1515-1528 *)
Fixpoint trapz1 (dx : R) (l : list R) : R :=
  match l with a :: ((b :: _) as t) => dx * (a + b) / 2 + trapz1 dx t | _ => 0 end.
(** surface.py:1515-1528: one minus the Gini coefficient of the cell values *)
Definition gini_h (values : list R) : option R :=
  let s := sortR values in
  let n := length s in
  let total := sumR s in
  if Nat.eqb n 0 then Some (1 - (1 / 2 - 0) / (1 / 2)) else
  if Req_EM_T total 0 then None else
  let lorenz := 0 :: map (fun c => c / total) (cumsum 0 s) in
  let B := trapz1 (1 / INR n) lorenz in
  let A := 1 / 2 - B in
  Some (1 - A / (1 / 2)).
