(** The Digital Surf format, surfalize/file/sur.py. *)
From Coq Require Import String Ascii ZArith Lia Bool Reals.
From Coq Require Import List.
From Flocq Require Import IEEE754.BinarySingleNaN IEEE754.Binary IEEE754.Bits.
From Verif Require Import Base ModelBytes ModelUnits.
Import ListNotations.
Local Open Scope Z_scope.

(** What a reader returns and a writer stores: surfalize/file/common.py:373-381 (RawSurface) without metadata and
    image layers.  Heights are float64; [None] never occurs, non-measured points are NaN. *)
Record raw := { rdata : list (list f64); rstep_x : f64; rstep_y : f64 }.
(** surface.size.y, surface.size.x *)
Definition rows (s : raw) : nat := length (rdata s).
(** surface.size.x, sur.py:359-451 *)
Definition cols (s : raw) : nat := match rdata s with [] => O | r :: _ => length r end.
(** np.isnan of a double *)
Definition isnan (x : f64) : bool := Binary.is_nan 53 1024 x.
(** surfalize/base.py:136-144 (has_missing_points) *)
Definition has_missing (s : raw) : bool := existsb (existsb isnan) (rdata s).

(** float64 arithmetic of numpy (round to nearest even) *)
Definition fadd := b64_plus mode_NE.
(** numpy's - on float64 *)
Definition fsub := b64_minus mode_NE.
(** numpy's * on float64 *)
Definition fmul := b64_mult mode_NE.
(** numpy's / on float64 *)
Definition fdiv := b64_div mode_NE.
(** x < y on float64, False with NaN *)
Definition flt (x y : f64) : bool := match b64_compare x y with Some Lt => true | _ => false end.
(** np.nanmax / np.nanmin: extremum of the non-NaN values; NaN if there is none *)
Definition measured (s : raw) : list f64 := List.filter (fun x => negb (isnan x)) (concat (rdata s)).
(** the best element of a list, scanning from the left; NaN for the empty list (np.nanmin, np.nanmax) *)
Definition fextremum (better : f64 -> f64 -> bool) (l : list f64) : f64 :=
  match l with [] => nan64 | x :: l' => fold_left (fun m y => if better y m then y else m) l' x end.
(** np.nanmax(surface.data), sur.py:365-372 *)
Definition nanmax (s : raw) : f64 := fextremum (fun y m => flt m y) (measured s).
(** np.nanmin(surface.data), sur.py:365-372 *)
Definition nanmin (s : raw) : f64 := fextremum flt (measured s).

(** float -> int32 cast of numpy (x86-64: truncation; NaN and out-of-range values give -2^31) *)
Definition to_int32 (x : f64) : Z :=
  if Binary.is_finite 53 1024 x then
    let n := Binary.Btrunc 53 1024 x in if (- 2 ^ 31 <=? n) && (n <? 2 ^ 31) then n else - 2 ^ 31
  else - 2 ^ 31.

(** sur.py:365-366: INT_DATA_MIN, INT_DATA_MAX *)
Definition INT_DATA_MIN : Z := -2147483646.
(** sur.py:366 *)
Definition INT_DATA_MAX : Z := 2147483646.

(** sur.py:369-372: the stored integer of one height *)
Definition quantise (nm : bool) (dmin dmax x : f64) : Z :=
  let y := fadd (fmul (fdiv (fsub x dmin) (fsub dmax dmin)) (f64_of_Z (INT_DATA_MAX - INT_DATA_MIN)))
                (f64_of_Z INT_DATA_MIN) in
  if nm && isnan y then INT_DATA_MIN - 2 else to_int32 y.

(** an entry of the header layout, sur.py:78-136 *)
Definition E (n : string) (f : fmt) := Entry n (Fixed f).
(** sur.py:73-133 (LAYOUT_HEADER) *)
Definition sur_layout : list entry := [
  E "code" (FStr 12); E "format" fmt_h; E "n_objects" fmt_h; E "version_number" fmt_h; E "studiable_type" fmt_h;
  E "name_object" (FStr 30); E "name_operator" (FStr 30); E "p_size" fmt_h; E "acquisition_type" fmt_h;
  E "range_type" fmt_h; E "non_measured_points" fmt_h; E "absolute_z_axis" fmt_h; E "gauge_resolution" FF32;
  Reserved 4; E "bits_per_point" fmt_h; E "min_point" fmt_i; E "max_point" fmt_i; E "n_points_per_line" fmt_i;
  E "n_lines" fmt_i; E "n_total_points" fmt_i; E "spacing_x" FF32; E "spacing_y" FF32; E "spacing_z" FF32;
  E "name_x" (FStr 16); E "name_y" (FStr 16); E "name_z" (FStr 16); E "unit_step_x" (FStr 16);
  E "unit_step_y" (FStr 16); E "unit_step_z" (FStr 16); E "unit_x" (FStr 16); E "unit_y" (FStr 16);
  E "unit_z" (FStr 16); E "unit_ratio_x" FF32; E "unit_ratio_y" FF32; E "unit_ratio_z" FF32; E "replica" fmt_h;
  E "inverted" fmt_h; E "leveled" fmt_h; Reserved 12; E "seconds" fmt_h; E "minutes" fmt_h; E "hours" fmt_h;
  E "day" fmt_h; E "month" fmt_h; E "year" fmt_h; E "week_day" fmt_h; E "measurement_duration" FF32;
  E "compressed_data_size" fmt_I; Reserved 6; E "length_comment" fmt_h; E "length_private" fmt_h;
  E "client_zone" (FStr 128); E "offset_x" FF32; E "offset_y" FF32; E "offset_z" FF32; E "spacing_t" FF32;
  E "offset_t" FF32; E "name_t" (FStr 13); E "unit_step_t" (FStr 13)].

(** datetime.now() *)
Record timestamp := { t_second : Z; t_minute : Z; t_hour : Z; t_day : Z; t_month : Z; t_year : Z; t_weekday : Z }.
(** the unit written into the header, sur.py:374-451 *)
Definition um_sign : pystr := [181; 109].

(** sur.py:379-436: the header dictionary *)
Definition sur_header (s : raw) (compressed : bool) (t : timestamp) (len_comment : Z) : dict :=
  let dmax := nanmax s in
  let dmin := nanmin s in
  let spacing_z := fdiv (fsub dmax dmin) (f64_of_Z (INT_DATA_MAX - INT_DATA_MIN)) in
  let offset_z := fadd dmin (fdiv (fsub dmax dmin) (f64_of_Z 2)) in
  [("code", VStr (str (if compressed then "DSCOMPRESSED" else "DIGITAL SURF"))); ("format", VInt 0);
   ("n_objects", VInt 1); ("version_number", VInt 1); ("studiable_type", VInt 2); ("name_object", VStr []);
   ("name_operator", VStr []); ("p_size", VInt 0); ("acquisition_type", VInt 0); ("range_type", VInt 0);
   ("non_measured_points", VInt (Z.b2z (has_missing s))); ("absolute_z_axis", VInt 0); ("gauge_resolution", VInt 0);
   ("bits_per_point", VInt 32); ("min_point", VInt INT_DATA_MIN); ("max_point", VInt INT_DATA_MAX);
   ("n_points_per_line", VInt (Z.of_nat (cols s))); ("n_lines", VInt (Z.of_nat (rows s)));
   ("n_total_points", VInt (Z.of_nat (cols s) * Z.of_nat (rows s))); ("spacing_x", VFloat (rstep_x s));
   ("spacing_y", VFloat (rstep_y s)); ("spacing_z", VFloat spacing_z); ("name_x", VStr (str "X"));
   ("name_y", VStr (str "Y")); ("name_z", VStr (str "Z")); ("unit_step_x", VStr um_sign);
   ("unit_step_y", VStr um_sign); ("unit_step_z", VStr um_sign); ("unit_x", VStr um_sign); ("unit_y", VStr um_sign);
   ("unit_z", VStr um_sign); ("unit_ratio_x", VFloat (f64_of_Z 1)); ("unit_ratio_y", VFloat (f64_of_Z 1));
   ("unit_ratio_z", VFloat (f64_of_Z 1)); ("replica", VInt 1); ("inverted", VInt 0); ("leveled", VInt 0);
   ("seconds", VInt (t_second t)); ("minutes", VInt (t_minute t)); ("hours", VInt (t_hour t));
   ("day", VInt (t_day t)); ("month", VInt (t_month t)); ("year", VInt (t_year t));
   ("week_day", VInt (t_weekday t)); ("measurement_duration", VInt 0); ("compressed_data_size", VInt 0);
   ("length_comment", VInt len_comment); ("length_private", VInt 0); ("client_zone", VStr (str "Exported by surfalize"));
   ("offset_x", VInt 0); ("offset_y", VInt 0); ("offset_z", VFloat offset_z); ("spacing_t", VInt 0);
   ("offset_t", VInt 0); ("name_t", VStr []); ("unit_step_t", VStr [])]%string.

(** zlib as an abstract pair of functions; [decompress] may raise *)
Record zlib := { compress : bytes -> bytes; decompress : bytes -> res bytes }.

(** sur.py:358-451 (write_sur): the bytes of the file, or the exception.  np.nanmax of an empty array raises. *)
Definition write_sur (z : zlib) (en : encoding) (t : timestamp) (s : raw) (compressed : bool) (comment : pystr)
  : res bytes :=
  if Nat.eqb (rows s * cols s) 0 then Err ValueError else
  rbind (encode en comment) (fun comment_b =>
  rbind (write_layout en (sur_header s compressed t (zlen comment_b)) sur_layout) (fun head =>
  let ints := map (quantise (has_missing s) (nanmin s) (nanmax s)) (concat (rdata s)) in
  let body := int_tobytes 4 ints in
  if compressed then
    rbind (pack fmt_I (VInt 1)) (fun a =>
    rbind (pack fmt_I (VInt (zlen body))) (fun b =>
    rbind (pack fmt_I (VInt (zlen (compress z body)))) (fun c =>
    Ok (head ++ comment_b ++ a ++ b ++ c ++ compress z body))))
  else Ok (head ++ comment_b ++ body))).

(** accessors of a header that was read *)
Definition hint (d : dict) (k : string) : res Z :=
  rbind (dkey d k) (fun v => match v with VInt z => Ok z | _ => Err TypeError end).
(** sur_obj.header[...] used as a number, sur.py:305-324 *)
Definition hflt (d : dict) (k : string) : res f64 :=
  rbind (dkey d k) (fun v => match v with VFloat x => Ok x | _ => Err TypeError end).
(** sur_obj.header[...] used as a text, sur.py:305-324 *)
Definition hstr (d : dict) (k : string) : res pystr :=
  rbind (dkey d k) (fun v => match v with VStr s => Ok s | _ => Err TypeError end).

(** f.read(n) with n from a header; a negative n other than -1 raises, -1 reads everything *)
Definition fread_z (n : Z) (h : fh) : res (bytes * fh) :=
  if n =? -1 then Ok (fread_all h) else if n <? 0 then Err ValueError else Ok (fread (Z.to_nat n) h).

(** sur.py:138-154 (read_sur_header) *)
Definition read_sur_header (en : encoding) (h : fh) : res (dict * fh) :=
  rbind (read_layout en sur_layout h) (fun '(d, h1) =>
  rbind (hstr d "code") (fun code =>
  rbind (hint d "version_number") (fun version =>
  if negb (zs_eqb code (str "DIGITAL SURF") || zs_eqb code (str "DSCOMPRESSED")) || negb (version =? 1)
  then Err CorruptedFileError else
  rbind (hint d "studiable_type") (fun st =>
  if negb ((1 <=? st) && (st <=? 19)) then Err ValueError else
  rbind (hint d "acquisition_type") (fun ac =>
  if negb ((0 <=? ac) && (ac <=? 10)) then Err ValueError else
  if negb (Nat.eqb (pos h1 - pos h) 512) then Err CorruptedFileError else
  rbind (hint d "length_comment") (fun lc =>
  rbind (fread_z lc h1) (fun '(_, h2) =>
  rbind (hint d "length_private") (fun lp =>
  rbind (fread_z lp h2) (fun '(_, h3) => Ok (d, h3)))))))))).

(** sur.py:157-251 (read_directory, read_compressed_data).  [n] directories of (raw length, zipped length). *)
Fixpoint read_directories (n : nat) (h : fh) : res (list (Z * Z) * fh) :=
  match n with
  | O => Ok ([], h)
  | S n' =>
    let '(b, h1) := fread 8 h in
    rbind (unpack fmt_I (firstn 4 b)) (fun a =>
    rbind (unpack fmt_I (skipn 4 b)) (fun c =>
    match a, c with
    | VInt r, VInt zp => rmap (fun '(l, h2) => ((r, zp) :: l, h2)) (read_directories n' h1)
    | _, _ => Err StructError
    end))
  end.
(** the loop over the directories, sur.py:185-251 *)
Fixpoint read_streams (z : zlib) (dirs : list (Z * Z)) (h : fh) : res (bytes * fh) :=
  match dirs with
  | [] => Ok ([], h)
  | (r, zp) :: dirs' =>
    let '(b, h1) := fread (Z.to_nat zp) h in
    rbind (decompress z b) (fun d =>
    if negb (zlen d =? r) then Err CorruptedFileError
    else rmap (fun '(rest, h2) => (d ++ rest, h2)) (read_streams z dirs' h1))
  end.
(** sur.py:185-251 (read_compressed_data) *)
Definition read_compressed (z : zlib) (expected : Z) (h : fh) : res (bytes * fh) :=
  let '(b, h1) := fread 4 h in
  rbind (unpack fmt_I b) (fun v =>
  match v with
  | VInt n =>
    rbind (read_directories (Z.to_nat n) h1) (fun '(dirs, h2) =>
    let total := fold_left (fun a d => a + (8 + snd d)) dirs 4 in
    if negb (total =? expected) then Err CorruptedFileError else read_streams z dirs h2)
  | _ => Err StructError
  end).

(** np.frombuffer(..., 'int16' / 'int32') *)
Definition int_array (width : nat) (b : bytes) : res (list Z) :=
  rmap (map (fun c => to_signed width (unle c))) (frombuffer width b).
(** reshape(ny, nx); negative (inferred) dimensions of foreign files are not modelled *)
Definition reshape_z {A} (ny nx : Z) (l : list A) : res (list (list A)) :=
  if (ny <? 0) || (nx <? 0) then Err ValueError else reshape (Z.to_nat ny) (Z.to_nat nx) l.

(** sur.py:273-302 (read_sur_object) *)
Definition read_sur_object (z : zlib) (en : encoding) (h : fh) : res (dict * list (list Z) * fh) :=
  rbind (read_sur_header en h) (fun '(d, h1) =>
  rbind (hint d "bits_per_point") (fun bits =>
  rbind (if bits =? 16 then Ok 2%nat else if bits =? 32 then Ok 4%nat else Err KeyError) (fun width =>
  rbind (hint d "n_lines") (fun ny =>
  rbind (hint d "n_points_per_line") (fun nx =>
  rbind (hstr d "code") (fun code =>
  rbind (if zs_eqb code (str "DIGITAL SURF") then
           rbind (hint d "n_total_points") (fun n =>
             if n =? -1 then Ok (fread_all h1) else fread_z (n * Z.of_nat width) h1)
         else rbind (hint d "compressed_data_size") (fun sz => read_compressed z sz h1)) (fun '(b, h2) =>
  rbind (int_array width b) (fun l =>
  rbind (reshape_z ny nx l) (fun data => Ok (d, data, h2)))))))))).

(** sur.py:305-324 (get_surface): the factors 10**exponent are exact powers of ten here only for exponent 0 (an
    int 1, multiplication by which is exact); other exponents are rounded to a double. *)
Definition pow10 (e : Z) : f64 :=
  if 0 <=? e then f64_of_Z (10 ^ e) else fdiv (f64_of_Z 1) (f64_of_Z (10 ^ (- e))).
(** get_unit_conversion(unit, 'um'), file/common.py:114-142, as sur.py:305-324 uses it *)
Definition unit_factor (lower : pystr -> pystr) (u : pystr) : res f64 :=
  rmap pow10 (conversion_exponent lower u (str "um")).
(** sur.py:305-324 (get_surface) *)
Definition get_surface (lower : pystr -> pystr) (d : dict) (data : list (list Z)) : res raw :=
  rbind (hint d "non_measured_points") (fun nm =>
  rbind (hint d "min_point") (fun mp =>
  rbind (hflt d "spacing_z") (fun sz =>
  rbind (hstr d "unit_step_z") (fun uz =>
  rbind (unit_factor lower uz) (fun fz =>
  rbind (hstr d "unit_step_x") (fun ux =>
  rbind (unit_factor lower ux) (fun fx =>
  rbind (hflt d "spacing_x") (fun sx =>
  rbind (hstr d "unit_step_y") (fun uy =>
  rbind (unit_factor lower uy) (fun fy =>
  rbind (hflt d "spacing_y") (fun sy =>
  rbind (hflt d "offset_z") (fun oz =>
  let height n :=
    let v := fmul (fmul (f64_of_Z n) sz) fz in
    let v := if (nm =? 1) && (n =? mp - 2) then nan64 else v in
    fadd v oz in
  Ok {| rdata := map (map height) data; rstep_x := fmul fx sx; rstep_y := fmul fy sy |})))))))))))).

(** sur.py:254-270, 326-356 (is_gwyddion_export, read_sur) without image layers *)
Definition read_sur (z : zlib) (lower : pystr -> pystr) (en : encoding) (h : fh) : res raw :=
  rbind (read_sur_object z en h) (fun '(d, data, h1) =>
  rbind (hint d "n_objects") (fun n =>
  if 1 <? n then Err UnsupportedFileFormatError else
  rbind (hint d "studiable_type") (fun st =>
  rbind (hstr d "name_object") (fun no =>
  rbind (hstr d "name_operator") (fun np =>
  if (st =? 2) || ((st =? 1) && zs_eqb no (str "SCRATCH") && zs_eqb np (str "csm")) || (st =? 16)
  then get_surface lower d data
  else Err UnsupportedFileFormatError))))).

(** a file as it lies on disk, opened for reading *)
Definition open_rb (b : bytes) : fh := {| contents := b; pos := 0 |}.
