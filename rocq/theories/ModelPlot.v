(** What the plotting methods draw, and where (surface.py:1643-1879, profile.py:630-651, autocorrelation.py:157-176,
    fourier.py:208-290, plotting.py).  Colours, fonts, labels and the figure objects of matplotlib and pyvista are not modelled; numbers
    are ideal reals; np.fft.fft2 is exact. *)
From Coq Require Import String Reals List Bool Arith ZArith.
From Verif Require Import Base RList ModelMath ModelHeights ModelGeom ModelAcf ModelFourier.
Import ListNotations.
Local Open Scope res_scope.
Local Open Scope R_scope.

(** the argument extent = (left, right, bottom, top) of Axes.imshow *)
Record extents := mkExt { e_left : R; e_right : R; e_bottom : R; e_top : R }.
(** the argument cmap of Axes.imshow, surface.py:1715-1779 *)
Inductive colormap := Given | Gray | NoMap.
(** what Axes.imshow draws: the heights or an image layer, surface.py:1715-1779 *)
Inductive content (P : Type) := Topography (g : grid) | Picture (p : P).
Arguments Topography {P}. Arguments Picture {P}.
(** the calls of Axes.imshow, set_xlabel and the colorbar in plot_2d, surface.py:1715-1779 *)
Record figure (P : Type) := mkFig { f_content : content P; f_extent : extents; f_colormap : colormap; f_colorbar : bool; f_legend : bool }.
Arguments mkFig {P}. Arguments f_content {P}. Arguments f_extent {P}. Arguments f_colormap {P}. Arguments f_colorbar {P}. Arguments f_legend {P}.
(** self.image_layers[layer], surface.py:1715-1779 *)
Fixpoint layer_of {P} (name : string) (l : list (string * P)) : option P :=
  match l with [] => None | (k, v) :: l' => if String.eqb k name then Some v else layer_of name l' end.
(** surface.py:1715-1779; [ndim]: number of dimensions of the array of an image layer.  width_um = (nx - 1) step_x, surface.py:144-145 *)
Definition plot_2d {P} (ndim : P -> nat) (s : surf) (image_layers : list (string * P)) (layer : string) (show_cbar : option bool) : res (figure P) :=
  let ext := mkExt 0 (extent (ncols (s_data s)) (s_sx s)) 0 (extent (nrows (s_data s)) (s_sy s)) in
  let bar d := match show_cbar with Some b => b | None => d end in
  if String.eqb layer "Topography" then Ok (mkFig (Topography (s_data s)) ext Given (bar true) (has_missing (s_data s)))
  else match layer_of layer image_layers with
       | Some p => Ok (mkFig (Picture p) ext (if Nat.eqb (ndim p) 3 then NoMap else if Nat.eqb (ndim p) 2 then Gray else Given) (bar false) false)
       | None => Err ValueError
       end.

(** profile.py:630-651 (Axes.plot): the points of the line and the limits of the axis; length_um is (n - 1) step unless the caller of the
    constructor gave another length, profile.py:62-68 *)
Definition prof_length (p : prof) (length_um : option R) : R := match length_um with Some l => l | None => extent (length (p_data p)) (p_step p) end.
(** profile.py:630-651 (plot_2d) *)
Definition plot_profile (p : prof) (length_um : option R) : list (R * height) * (R * R) :=
  let l := prof_length p length_um in (combine (linspace 0 l (length (p_data p))) (p_data p), (0, l)).

(** autocorrelation.py:157-176 and surface.py:1643-1670: the array drawn and its extent; the zero lag is at [shape // 2] *)
Definition plot_autocorrelation (g : grid) (sx sy : R) : res (matrix * extents) :=
  do d <- acf_new g;
  let ex := INR (Nat.div (mcols d) 2) * sx in
  let ey := INR (Nat.div (mrows d) 2) * sy in
  Ok (d, mkExt (- ex) ex (- ey) ey).

(** *** plotting.py:95-117, 123-135 *)
(** ndimage.zoom(data, factor): an array of round(n factor) by round(m factor) points; the values are a parameter *)
Definition zoomed_length (n : nat) (factor : R) : nat := Z.to_nat (pyround (INR n * factor)).
(** plotting.py:95-103: the surface of reduced level of detail that is rendered *)
Definition detail (zoomed : grid -> nat -> nat -> grid) (level : R) (s : surf) : surf :=
  if Rlt_dec level 100 then
    let f := level / 100 in
    mkSurf (zoomed (s_data s) (zoomed_length (nrows (s_data s)) f) (zoomed_length (ncols (s_data s)) f)) (s_sx s / f) (s_sy s / f)
  else s.
(** np.linspace and its np.flip: position of the point in row i and column j; the height is the height drawn *)
Definition mesh (s : surf) (i j : nat) : R * R * option height :=
  (nth j (linspace 0 (extent (ncols (s_data s)) (s_sx s)) (ncols (s_data s))) 0,
   nth i (rev (linspace 0 (extent (nrows (s_data s)) (s_sy s)) (nrows (s_data s)))) 0,
   cell (s_data s) i j).
(** np.deg2rad *)
Definition deg2rad (x : R) : R := x * (PI / 180).
(** plotting.py:123-135: the point the camera looks at *)
Definition target (s : surf) : R * R * R := (extent (ncols (s_data s)) (s_sx s) / 2, extent (nrows (s_data s)) (s_sy s) / 2, 0).
(** plotting.py:123-135: the position of the camera *)
Definition camera (s : surf) (vertical horizontal zoom : R) : R * R * R :=
  let distance := extent (ncols (s_data s)) (s_sx s) * 2 / zoom in
  let h_dist := cos (deg2rad vertical) * distance in
  (fst (fst (target s)) - sin (deg2rad horizontal) * h_dist,
   snd (fst (target s)) - cos (deg2rad horizontal) * h_dist,
   snd (target s) + sin (deg2rad vertical) * distance).

(** *** fourier.py:208-290.  [values]: the array of N x M values np.abs(np.fft.fftshift(np.fft.fft2(...))), its logarithm or not *)
Definition hanning (n i : nat) : R := if Nat.eqb n 1 then 1 else 1 / 2 - 1 / 2 * cos (2 * PI * INR i / (INR n - 1)).
(** fourier.py:208-290: the array drawn *)
Definition plot_values (g : grid) (subtract_mean hann log : bool) : list (list R) :=
  let N := nrows g in let M := ncols g in
  let z := if subtract_mean then centred (zdata g) N M else zdata g in
  let w := if hann then (fun i j => z i j * (hanning N i * hanning M j)) else z in
  let f := fun i j => amplitude w N M (unshift N i) (unshift M j) in
  tabulate N M (fun i j => if log then ln (f i j + / 10 ^ 10) / ln 10 else f i j).
(** Python's l[a:b] for 0 <= a *)
Definition cut {A} (a b : nat) (l : list A) : list A := firstn (b - a) (skipn a l).
(** fourier.py:263-274: the first and the last index shown along one axis of n frequencies *)
Definition shown (n : nat) (freqs : list R) (fmax : option R) : res (nat * nat) :=
  match fmax with
  | None => Ok (0%nat, (n - 1)%nat)
  | Some f => do imax <- argclosest f freqs; Ok ((n - imax)%nat, imax)
  end.
(** fourier.py:208-290 and surface.py:1672-1710: the array drawn and its extent.  An empty array has no maximum: ValueError *)
Definition plot_fourier (g : grid) (sx sy : R) (subtract_mean hann log adjust : bool) (fxmax fymax : option R) : res (list (list R) * extents) :=
  let N := nrows g in let M := ncols g in
  let fx := map (freq_x g sx) (seq 0 M) in
  let fy := map (freq_y g sy) (seq 0 N) in
  let v := plot_values g subtract_mean hann log in
  do x <- shown M fx fxmax;
  let v := match fxmax with Some _ => map (cut (fst x) (snd x + 1)) v | None => v end in
  do y <- shown N fy fymax;
  let v := match fymax with Some _ => cut (fst y) (snd y + 1) v | None => v end in
  if adjust && forallb (fun r => Nat.eqb (length r) 0) v then Err ValueError else
  if Nat.ltb (fst x) M && Nat.ltb (fst y) N then
    Ok (v, mkExt (nth (fst x) fx 0) (nth (snd x) fx 0) (nth (snd y) fy 0) (nth (fst y) fy 0))
  else Err IndexError.
