(** surfalize/file/fits.py:72-123: the surface of a FITS file.  The header and the extensions are read by ModelFits.v; float(), str.lower and
    str.capitalize are parameters.  Integers that do not fit into a double (OverflowError) are rounded to infinity. *)
From Coq Require Import String ZArith Bool.
From Coq Require Import List.
From Verif Require Import Base ModelBytes ModelUnits ModelSur ModelFormats ModelFits.
Import ListNotations.
Local Open Scope Z_scope.
Local Open Scope list_scope.
Local Open Scope res_scope.

(** a * b of two header values; a text is an error (Python would repeat a text that is multiplied by an int) *)
Definition hmul (a b : hval) : res hval :=
  match a, b with
  | HInt x, HInt y => Ok (HInt (x * y))
  | HInt x, HFloat y => Ok (HFloat (fmul (f64_of_Z x) y))
  | HFloat x, HInt y => Ok (HFloat (fmul x (f64_of_Z y)))
  | HFloat x, HFloat y => Ok (HFloat (fmul x y))
  | _, _ => Err TypeError
  end.
(** a header value as a number, fits.py:104-127 *)
Definition hfloat (a : hval) : res f64 := match a with HInt z => Ok (f64_of_Z z) | HFloat x => Ok x | HStr _ => Err TypeError end.
(** header[k], KeyError if absent, fits.py:104-127 *)
Definition hitem (d : header) (k : string) : res hval := match hget (str k) d with Some v => Ok v | None => Err KeyError end.
(** get_unit_conversion(unit, 'um'), common.py:114-142: an int for exponents from 0 on, a float otherwise *)
Definition hfactor (lower : pystr -> pystr) (u : hval) : res hval :=
  match u with
  | HStr s => rmap (fun e => if 0 <=? e then HInt (10 ^ e) else HFloat (pow10 e)) (conversion_exponent lower s (str "um"))
  | _ => Err TypeError
  end.
(** fits.py:118-122: image_layers[k.capitalize()] = v.data; only strings have capitalize *)
Fixpoint iset (k : pystr) (v : hdu) (l : list (pystr * hdu)) : list (pystr * hdu) :=
  match l with [] => [(k, v)] | (k', v') :: l' => if zs_eqb k k' then (k', v) :: l' else (k', v') :: iset k v l' end.
(** the loop of fits.py:118-122 *)
Fixpoint fits_images (capitalize : pystr -> pystr) (ls : layers) (acc : list (pystr * hdu)) : res (list (pystr * hdu)) :=
  match ls with
  | [] => Ok acc
  | (k, v) :: ls' =>
      if hval_eqb k (HStr (str "HEIGHTS")) || hval_eqb k (HStr (str "MASK")) then fits_images capitalize ls' acc
      else match k with HStr s => fits_images capitalize ls' (iset (capitalize s) v acc) | _ => Err AttributeError end
  end.
Section FitsSurface.
Variable float_of : pystr -> res f64.
Variables (lower capitalize : pystr -> pystr).
(** fits.py:104-123; both lateral factors are taken from UNITX *)
Definition fits_surface (images : bool) (d : header) (ls : layers) : res (raw * list (pystr * hdu) * header) :=
  do data <- heights ls;
  do m1 <- hitem d "UnitMultiplicatorDeltas"; do u1 <- hitem d "UNITX"; do c1 <- hfactor lower u1; do fx <- hmul m1 c1;
  do m2 <- hitem d "UnitMultiplicatorDeltas"; do u2 <- hitem d "UNITX"; do c2 <- hfactor lower u2; do fy <- hmul m2 c2;
  do m3 <- hitem d "UnitMultiplicatorHeights"; do u3 <- hitem d "UNITZ"; do c3 <- hfactor lower u3; do fz <- hmul m3 c3;
  do dx <- hitem d "DELTAX"; do sx <- hmul dx fx;
  do dy <- hitem d "DELTAY"; do sy <- hmul dy fy;
  do z <- hfloat fz;
  do x <- hfloat sx;
  do y <- hfloat sy;
  do im <- (if images then fits_images capitalize ls [] else Ok []);
  Ok ({| rdata := map (map (fun v => fmul v z)) data; rstep_x := x; rstep_y := y |}, im, d).
(** fits.py:72-123 *)
Definition read_fits_surface (fuel : nat) (en : encoding) (images : bool) (file : bytes) : option (res (raw * list (pystr * hdu) * header)) :=
  if negb (zs_eqb (firstn 6 file) (str "SIMPLE")) then Some (Err file_format_error)
  else match read_header float_of fuel en [] {| contents := file; pos := 0 |} with
       | None => None
       | Some (Err e, _) => Some (Err e)
       | Some (Ok d, h) => option_map (fun r => rbind r (fits_surface images d)) (read_hdus float_of fuel en [] h)
       end.
End FitsSurface.
