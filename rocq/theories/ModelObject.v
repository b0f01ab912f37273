(** Surface and Profile as objects: what accompanies the heights.  surface.py:110-123 (__init__), 138-146, 170-200 (data setter, size, _set_data, _with_data),
    301-317 (from_raw_surface), 351-359, utils.py:23-40, image.py:8-55, profile.py:62-127, surface.py:466-488 (the profile made by get_oblique_profile),
    and the two ways operations store their result (all places are listed below).  Caches are in ModelCache.v. *)
From Coq Require Import String Reals List Bool Arith ZArith.
From Verif Require Import Base RList ModelMath ModelHeights ModelGeom.
Import ListNotations.
Local Open Scope R_scope.

(** an image: rows of pixels, a pixel being the list of its channels (image.py:8-10; the array of a grey image has no third dimension) *)
Inductive picture := Grey (rows : list (list Z)) | Colour (rows : list (list (list Z))).
(** image.shape[:2], surface.py:110-123 *)
Definition pic_size (p : picture) : nat * nat :=
  match p with Grey r => (length r, length (hd [] r)) | Colour r => (length r, length (hd [] r)) end.
(** image.py:41-55 is_grayscale on an array of shape (ny, nx, 3) *)
Definition is_grayscale (rows : list (list (list Z))) : bool :=
  forallb (forallb (fun px => Z.eqb (nth 0 px 0%Z) (nth 1 px 0%Z) && Z.eqb (nth 0 px 0%Z) (nth 2 px 0%Z))) rows.

Section Object.
Context {M : Type}.                                   (* the values of the metadata *)
Definition metadata := list (string * M).
(** surface.image_layers, surface.py:110-123 *)
Definition layers := list (string * picture).
(** a Surface object: data and steps, extents, metadata, image layers (surface.py:110-123, 170-196) *)
Record sobj := mkSobj { o_surf : surf; o_width : R; o_height : R; o_meta : metadata; o_layers : layers }.
(** utils.py:23-40 *)
Definition approximately_equal (a b epsilon : R) : bool := if Rlt_dec (Rabs (a - b)) epsilon then true else false.
(** the warning of surface.py:110-123 that the pixels are not square *)
Inductive swarning := DifferentPixelSize.
(** surface.py:110-123; None: the argument is not given *)
Definition new_surface (data : grid) (sx sy : R) (meta : option metadata) (ls : option layers) : sobj * list swarning :=
  (mkSobj (mkSurf data sx sy) (extent (ncols data) sx) (extent (nrows data) sy)
          (match meta with Some m => m | None => [] end) (match ls with Some l => l | None => [] end),
   if approximately_equal sx sy (/ 1000000) then [] else [DifferentPixelSize]).
(** surface.py:141-146 *)
Definition set_data_property (o : sobj) (g : grid) : sobj :=
  mkSobj (mkSurf g (s_sx (o_surf o)) (s_sy (o_surf o))) (extent (ncols g) (s_sx (o_surf o))) (extent (nrows g) (s_sy (o_surf o))) (o_meta o) (o_layers o).
(** surface.py:189-196 *)
Definition set_data (o : sobj) (data : option grid) (sx sy : option R) : sobj :=
  let o1 := match data with Some g => set_data_property o g | None => o end in
  let x := match sx with Some v => v | None => s_sx (o_surf o1) end in
  let y := match sy with Some v => v | None => s_sy (o_surf o1) end in
  let g := s_data (o_surf o1) in
  mkSobj (mkSurf g x y) (extent (ncols g) x) (extent (nrows g) y) (o_meta o1) (o_layers o1).
(** surface.py:167-168 *)
Definition size (o : sobj) : nat * nat := (nrows (s_data (o_surf o)), ncols (s_data (o_surf o))).
(** surface.py:351-359 *)
Definition image_layer_names (o : sobj) : list string := map fst (o_layers o).
(** RawSurface (file/common.py:373-381) and surface.py:301-317 *)
Record rawobj := mkRawObj { r_data : grid; r_sx : R; r_sy : R; r_meta : metadata; r_layers : layers }.
(** file/common.py:373-381 (RawSurface.__init__) *)
Definition new_raw (data : grid) (sx sy : R) (meta : option metadata) (ls : option layers) : rawobj :=
  mkRawObj data sx sy (match meta with Some m => m | None => [] end) (match ls with Some l => l | None => [] end).
(** surface.py:301-317 *)
Definition from_raw_surface (r : rawobj) : sobj * list swarning := new_surface (r_data r) (r_sx r) (r_sy r) (Some (r_meta r)) (Some (r_layers r)).

(** An operation with an argument inplace computes new heights and perhaps new steps ([f], as in ModelHeights.v and ModelGeom.v).  In place:
    self._set_data(data=..., step_x=..., step_y=...) or self._set_data(data=...), which leaves the steps; otherwise Surface(data, step_x, step_y) or
    self._with_data(data) (surface.py:199-200).  surface.py:518-522 fill_nonmeasured, 598-605 detrend_polynomial, 655-660 rotate, 682-686 zoom,
    716-720 crop, 802-806 stepheight_level; base.py:214-218 center, 235-239 zero, 256-260 invert, 293-297 remove_outliers, 332-336 threshold. *)
Definition operation := surf -> res surf.
(** an operation with inplace=True: _set_data, base.py:107-112, surface.py:170-196 *)
Definition in_place (f : operation) (o : sobj) : res sobj :=
  rmap (fun s => set_data o (Some (s_data s)) (Some (s_sx s)) (Some (s_sy s))) (f (o_surf o)).
(** an operation with inplace=False: _with_data, surface.py:199-200 *)
Definition copying (f : operation) (o : sobj) : res (sobj * list swarning) :=
  rmap (fun s => new_surface (s_data s) (s_sx s) (s_sy s) None None) (f (o_surf o)).
(** what a program does with one object: operations in place, assignments surface.data = g and surface[...] = v (which keeps the shape) *)
Inductive event := EInPlace (f : operation) | EAssign (g : grid) | EEdit (f : grid -> grid).
(** one event in the life of an object: base.py:107-134, surface.py:141-146, 170-196 *)
Definition happens (o : sobj) (e : event) : sobj :=
  match e with
  | EInPlace f => match in_place f o with Ok o' => o' | Err _ => o end
  | EAssign g => set_data_property o g
  | EEdit f => mkSobj (mkSurf (f (s_data (o_surf o))) (s_sx (o_surf o)) (s_sy (o_surf o))) (o_width o) (o_height o) (o_meta o) (o_layers o)
  end.

(** profile.py:62-68, 85-89, 102-127 *)
Record pobj := mkPobj { q_prof : prof; q_length : R }.
(** profile.py:62-68 (Profile.__init__) *)
Definition new_profile (data : list height) (step : R) (length_um : option R) : pobj :=
  mkPobj (mkProf data step) (match length_um with Some l => l | None => extent (length data) step end).
(** an operation of a profile with inplace=True: profile.py:102-124 *)
Definition prof_in_place (f : list height -> res (list height)) (q : pobj) : res pobj :=
  rmap (fun d => mkPobj (mkProf d (p_step (q_prof q))) (extent (length d) (p_step (q_prof q)))) (f (p_data (q_prof q))).
(** an operation of a profile with inplace=False: profile.py:126-127 *)
Definition prof_copying (f : list height -> res (list height)) (q : pobj) : res pobj :=
  rmap (fun d => new_profile d (p_step (q_prof q)) None) (f (p_data (q_prof q))).
(** surface.py:389-399, 429-439: the surface's own extent is handed over as length *)
Definition horizontal_profile (y : R) (average : Z) (st : option R) (o : sobj) : res pobj :=
  rmap (fun p => new_profile (p_data p) (p_step p) (Some (o_width o))) (get_horizontal_profile y average st (o_surf o)).
(** surface.py:401-440: the profile object made from a vertical line *)
Definition vertical_profile (x : R) (average : Z) (st : option R) (o : sobj) : res pobj :=
  rmap (fun p => new_profile (p_data p) (p_step p) (Some (o_height o))) (get_vertical_profile x average st (o_surf o)).
(** surface.py:466-488; [sample] is ndimage.map_coordinates; a size of 0 divides by zero (numpy: step is inf or nan with a warning; here an error) *)
Definition oblique_profile (sample : grid -> R * R -> height) (x0 y0 x1 y1 : R) (o : sobj) : res pobj :=
  rbind (oblique_points x0 y0 x1 y1 (o_surf o)) (fun pts =>
  let s := o_surf o in
  let nx := ncols (s_data s) in let ny := nrows (s_data s) in
  let dx := (oblique_px x1 (o_width o) nx - oblique_px x0 (o_width o) nx)%Z in
  let dy := (oblique_px y1 (o_height o) ny - oblique_px y0 (o_height o) ny)%Z in
  let len := sqrt ((IZR dy * s_sy s) * (IZR dy * s_sy s) + (IZR dx * s_sx s) * (IZR dx * s_sx s)) in
  match pts with
  | [] => Err ZeroDivisionError
  | _ => Ok (new_profile (map (sample (s_data s)) pts) (len / INR (length pts)) (Some len))
  end).
End Object.
Arguments metadata : clear implicits.
Arguments sobj : clear implicits.
Arguments rawobj : clear implicits.
