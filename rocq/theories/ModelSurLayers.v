(** Reading a Digital Surf file with its image layers and header, surfalize/file/sur.py: the parts that ModelSur leaves
    out (the comment and private zone of the header, the objects behind an RGB + intensity surface, the metadata). *)
From Coq Require Import String Ascii ZArith Lia Bool Reals.
From Coq Require Import List.
From Flocq Require Import IEEE754.BinarySingleNaN IEEE754.Binary IEEE754.Bits.
From Verif Require Import Base ModelBytes ModelUnits ModelSur ModelReaders.
Import ListNotations.
Local Open Scope Z_scope.

(** sur.py:138-154 (read_sur_header): the enumerations stay integers; the two zones are kept as bytes *)
Definition read_header_zones (en : encoding) (h : fh) : res (dict * fh) :=
  rbind (read_layout en sur_layout h) (fun '(d, h1) =>
  rbind (hstr d "code") (fun code =>
  rbind (hint d "version_number") (fun version =>
  if negb (zs_eqb code (str "DIGITAL SURF") || zs_eqb code (str "DSCOMPRESSED")) || negb (version =? 1)
  then Err CorruptedFileError else
  rbind (hint d "studiable_type") (fun st =>
  if negb ((1 <=? st) && (st <=? 19)) then Err ValueError else
  rbind (hint d "acquisition_type") (fun ac =>
  if negb ((0 <=? ac) && (ac <=? 10)) then Err ValueError else
  if negb (Nat.eqb (pos h1 - pos h) 512) then Err CorruptedFileError else
  rbind (hint d "length_comment") (fun lc =>
  rbind (fread_z lc h1) (fun '(comment, h2) =>
  rbind (hint d "length_private") (fun lp =>
  rbind (fread_z lp h2) (fun '(private, h3) =>
  Ok ((d ++ [("comment"%string, VBytes comment); ("private"%string, VBytes private)])%list, h3)))))))))).

(** sur.py:273-302 (read_sur_object) *)
Definition read_object (z : zlib) (en : encoding) (h : fh) : res (dict * list (list Z) * fh) :=
  rbind (read_header_zones en h) (fun '(d, h1) =>
  rbind (hint d "bits_per_point") (fun bits =>
  rbind (if bits =? 16 then Ok 2%nat else if bits =? 32 then Ok 4%nat else Err KeyError) (fun width =>
  rbind (hint d "n_lines") (fun ny =>
  rbind (hint d "n_points_per_line") (fun nx =>
  rbind (hstr d "code") (fun code =>
  rbind (if zs_eqb code (str "DIGITAL SURF") then
           rbind (hint d "n_total_points") (fun n =>
             if n =? -1 then Ok (fread_all h1) else fread_z (n * Z.of_nat width) h1)
         else rbind (hint d "compressed_data_size") (fun sz => read_compressed z sz h1)) (fun '(b, h2) =>
  rbind (int_array width b) (fun l =>
  rbind (reshape_z ny nx l) (fun data => Ok (d, data, h2)))))))))).

(** np.all(a == b) for arrays of equal shape; arrays of different shapes are compared by broadcasting in numpy (or
    raise): here they always raise *)
Definition same_shape (a b : list (list Z)) : bool :=
  Nat.eqb (length a) (length b) && forallb (fun '(r, s) => Nat.eqb (length r) (length s)) (combine a b).
(** np.all(a == b), sur.py:327-356 *)
Definition all_equal (a b : list (list Z)) : bool :=
  forallb (fun '(r, s) => forallb (fun '(x, y) => x =? y) (combine r s)) (combine a b).
(** a two-dimensional layer as an image of one channel; np.stack(axis=-1) of three *)
Definition one_channel (a : list (list Z)) : list (list (list Z)) := map (map (fun v => [v])) a.
(** np.stack((r, g, b), axis=-1), sur.py:327-356 *)
Definition stack3 (r g b : list (list Z)) : list (list (list Z)) :=
  map (fun '(x, (y, u)) => map (fun '(v, (v', v'')) => [v; v'; v'']) (combine x (combine y u))) (combine r (combine g b)).

(** sur.py:337-350: the objects behind the heights are the red, green and blue channel and the intensity *)
Definition read_layers (z : zlib) (en : encoding) (h : fh) : res image_layers :=
  rbind (read_object z en h) (fun '(_, r, h1) =>
  rbind (read_object z en h1) (fun '(_, g, h2) =>
  rbind (read_object z en h2) (fun '(_, b, h3) =>
  if negb (same_shape r g && same_shape r b) then Err ValueError else
  let colour := if all_equal r g && all_equal r b then ("Grayscale"%string, one_channel r) else ("RGB"%string, stack3 r g b) in
  rbind (read_object z en h3) (fun '(_, i, _) => Ok [colour; ("Intensity"%string, one_channel i)])))).

(** sur.py:254-270, 326-356 (is_gwyddion_export, read_sur): the surface, the image layers, the metadata.  The name of an
    unsupported type in the error message is not modelled. *)
Definition read_sur_full (z : zlib) (lower : pystr -> pystr) (en : encoding) (images : bool) (h : fh)
  : res (raw * image_layers * dict) :=
  rbind (read_object z en h) (fun '(d, data, h1) =>
  rbind (hint d "n_objects") (fun n =>
  if 1 <? n then Err UnsupportedFileFormatError else
  rbind (hint d "studiable_type") (fun st =>
  rbind (hstr d "name_object") (fun no =>
  rbind (hstr d "name_operator") (fun np =>
  if (st =? 2) || ((st =? 1) && zs_eqb no (str "SCRATCH") && zs_eqb np (str "csm")) then
    rbind (get_surface lower d data) (fun s => Ok (s, [], d))
  else if st =? 16 then
    rbind (get_surface lower d data) (fun s =>
    rbind (if images then read_layers z en h1 else Ok []) (fun l => Ok (s, l, d)))
  else Err UnsupportedFileFormatError))))).
