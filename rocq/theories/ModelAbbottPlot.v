(** What the plots of the Abbott curve draw: abbottfirestone.py:364-387 (plot), 389-414 (visual_parameter_study), reached through
    base.py:558-596.  Labels, colours and the axes objects are not modelled; ideal real arithmetic. *)
From Coq Require Import String Reals List Bool Arith ZArith.
From Verif Require Import Base RList ModelMath ModelHeights ModelParams ModelDetrend ModelStep ModelAfc.
Import ListNotations.
Local Open Scope res_scope.
Local Open Scope R_scope.

(** a horizontal bar of Axes.barh: vertical centre, length from the left in %, thickness *)
Record bar := mkBar { b_centre : R; b_length : R; b_thickness : R }.
(** abbottfirestone.py:369-371, 383-384; np.flip of the counts and of the edges *)
Definition flipped_edge (n : nat) (lo hi : R) (k : nat) : R := bin_edge n lo hi (n - k).
(** abbottfirestone.py:369-371, 383-384: the bars of the histogram drawn sideways *)
Definition abbott_bars (nbars : nat) (d : list R) : res (list bar) :=
  if Nat.eqb nbars 0 then Err ValueError else
  let '(lo, hi) := hist_range d in
  let dist := rev (counts nbars lo hi d) in
  match lmin d, lmax d, lmax (cumsum 0 dist) with
  | Some mn, Some mx, Some total =>
      Ok (map (fun k => mkBar (flipped_edge nbars lo hi k + (flipped_edge nbars lo hi (S k) - flipped_edge nbars lo hi k) / 2)
                              (nth k dist 0 / total * 100) ((mx - mn) / INR nbars)) (seq 0 nbars))
  | _, _, _ => Err ValueError
  end.
(** abbottfirestone.py:364-387: what the two axes of AbbottFirestoneCurve.plot show *)
Record abbott_fig := mkAbbott { ab_bars : list bar; ab_curve : list (R * R); ab_xlim : R * R; ab_ylim : height * height }.
(** abbottfirestone.py:364-387 on a fresh curve (base.py:573-574) of nbins classes *)
Definition abbott_plot (polyfit : lsq_solver) (nbins nbars : nat) (data : list height) : res abbott_fig :=
  do a <- afc_init polyfit nbins data;
  do bars <- abbott_bars nbars (a_data a);
  Ok (mkAbbott bars (a_curve a) (0, 100) (lmin (a_data a), lmax (a_data a))).
(** abbottfirestone.py:389-414: the equivalent line at ten abscissae, the two triangles, the horizontal lines *)
Record study_fig := mkStudy { st_line : list (R * R); st_peak : list (R * R); st_dale : list (R * R); st_horizontals : list R; st_curve : list (R * R) }.
(** abbottfirestone.py:389-414 (visual_parameter_study) *)
Definition parameter_study (polyfit : lsq_solver) (ord : sorter) (nbins : nat) (data : list height) : res (option study_fig) :=
  do a <- afc_init polyfit nbins data;
  Ok (match pk ord a, vk ord a with
      | Some p, Some v => Some (mkStudy (map (fun x => (x, a_slope a * x + a_intercept a)) (linspace 0 100 10))
           [(0, yupper a); (0, yupper a + p); (mr1 ord a, yupper a)]
           [(100, ylower a); (100, ylower a - v); (mr2 ord a, ylower a)]
           [ylower a; yupper a; ylower a - v; yupper a + p] (a_curve a))
      | _, _ => None                                   (* a coordinate is NaN: nothing is drawn there *)
      end).
