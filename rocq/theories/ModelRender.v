(** The picture a static 3d plot returns: cropping of white borders, the colour bar and its place (plotting.py:161-189), and what
    Surface.plot_3d does with it (surface.py:1832-1856).  Pictures are PIL images of mode RGB: a size and a pixel function; x counts columns
    from the left, y rows from the top.  The rendering of the scene, matplotlib's drawing of the colour bar and PIL's resampling are parameters. *)
From Coq Require Import String List Bool Arith ZArith.
From Verif Require Import Base.
Import ListNotations.
Local Open Scope res_scope.
Local Open Scope nat_scope.

(** red, green, blue, plotting.py:169 *)
Definition pixel : Type := (Z * Z * Z)%type.
(** (255, 255, 255), plotting.py:169, 180 *)
Definition white : pixel := (255, 255, 255)%Z.
(** PIL.Image, plotting.py:166 *)
Record image := mkImg { width : nat; height : nat; px : nat -> nat -> pixel }.
(** a pixel of ImageChops.difference(img, bg): 0 in every band, plotting.py:169-170 *)
Definition is_white (p : pixel) : bool := let '(r, g, b) := p in (Z.abs (r - 255) =? 0)%Z && (Z.abs (g - 255) =? 0)%Z && (Z.abs (b - 255) =? 0)%Z.
(** the columns of the difference with a pixel that is not 0, plotting.py:170-172 *)
Definition used_columns (im : image) : list nat :=
  filter (fun x => existsb (fun y => negb (is_white (px im x y))) (seq 0 (height im))) (seq 0 (width im)).
(** diff.getbbox(): the first column and the one after the last column of the bounding box, None for an image of zeros, plotting.py:172 *)
Definition getbbox (im : image) : option (nat * nat) :=
  match used_columns im with [] => None | x :: l => Some (x, S (last l x)) end.
(** img.crop((left, 0, right, img.height)), plotting.py:175 *)
Definition crop (im : image) (left right : nat) : image := mkImg (right - left) (height im) (fun x y => px im (left + x) y).
(** plotting.py:168-175 *)
Definition crop_borders (im : image) : image := match getbbox im with Some (l, r) => crop im l r | None => im end.
(** Image.new('RGB', (w, h), (255, 255, 255)): ValueError for a negative size, plotting.py:169, 180 *)
Definition new (w : Z) (h : nat) : res image := if (w <? 0)%Z then Err ValueError else Ok (mkImg (Z.to_nat w) h (fun _ _ => white)).
(** composite.paste(im, (x0, 0)): parts outside are cut off, plotting.py:181-182 *)
Definition paste (base im : image) (x0 : Z) : image :=
  mkImg (width base) (height base) (fun x y =>
    if ((x0 <=? Z.of_nat x) && (Z.of_nat x <? x0 + Z.of_nat (width im)))%Z && Nat.ltb y (height im) then px im (Z.to_nat (Z.of_nat x - x0)) y else px base x y).

Section Render.
(** PIL's resampling: the pixels of an image of another size, plotting.py:178 *)
Variable resampled : image -> nat -> nat -> nat -> nat -> pixel.

(** cb.resize((int(cb.width * img.height / cb.height), img.height)), plotting.py:178; a size of 0 is a ValueError.  The quotient of the two
    products of pixel numbers is truncated exactly (they are far below 2^53). *)
Definition resize (cb : image) (h : nat) : res image :=
  if Nat.eqb (height cb) 0 then Err ZeroDivisionError else
  let w := Nat.div (width cb * h) (height cb) in
  if Nat.eqb w 0 || Nat.eqb h 0 then Err ValueError else Ok (mkImg w h (resampled cb w h)).
(** plotting.py:180-183 *)
Definition side_by_side (im cb : image) (pad : Z) : res image :=
  do base <- new (Z.of_nat (width im) + Z.of_nat (width cb) + pad) (height im);
  Ok (paste (paste base im 0) cb (Z.of_nat (width im) + pad)).
(** plotting.py:161-185: from the screenshot to the picture *)
Definition picture (shot cb : image) (crop_white colorbar : bool) (pad : Z) : res image :=
  let im := if crop_white then crop_borders shot else shot in
  if colorbar then do cb <- resize cb (height im); side_by_side im cb pad else Ok im.
(** surface.py:1832, 1854: None and '' are false *)
Definition truthy (save_to : option string) : bool := match save_to with Some n => negb (String.eqb n "") | None => false end.
(** surface.py:1832-1856: what is returned and what is saved under which name.  interactive: the window is shown and None returned
    (plotting.py:161-162, 185) *)
Definition plot_3d (shot cb : image) (crop_white colorbar : bool) (pad : Z) (save_to : option string) (interactive : bool) : res (option image * option (string * image)) :=
  if interactive && truthy save_to then Err ValueError else
  if interactive then Ok (None, None) else
  do p <- picture shot cb crop_white colorbar pad;
  Ok (Some p, match save_to with Some n => if truthy save_to then Some (n, p) else None | None => None end).
End Render.
