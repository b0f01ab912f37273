(** The TrueMap, Alicona and SDF formats: surfalize/file/tmd.py, al3d.py, sdf.py. *)
From Coq Require Import String Ascii ZArith Lia Bool Reals.
From Coq Require Import List.
From Flocq Require Import IEEE754.BinarySingleNaN IEEE754.Binary IEEE754.Bits.
From Verif Require Import Base ModelBytes ModelUnits ModelSur.
Import ListNotations.
Local Open Scope Z_scope.

(** ndarray.astype('float32') of the heights, flattened in row order *)
Definition singles (s : raw) : list f32 := map f32_of_f64 (concat (rdata s)).
(** np.frombuffer(b, 'float32') *)
Definition f32_array (b : bytes) : res (list f32) := rmap (map (fun c => b32_of_bits (unle c))) (frombuffer 4 b).
(** np.frombuffer(b, 'float64'), common.py:338-365 *)
Definition f64_array (b : bytes) : res (list f64) := rmap (map (fun c => b64_of_bits (unle c))) (frombuffer 8 b).

(** ** TrueMap: tmd.py *)
Definition tmd_magic : bytes := str "Binary TrueMap Data File v2.0".
(** the bytes behind the magic, tmd.py:5 *)
Definition line_termination : pystr := [13; 10; 0].
(** tmd.py:8 *)
Definition COMMENT_LEN : nat := 21.
(** tmd.py:10-19 *)
Definition tmd_layout : list entry := [
  E "header" (FStr 32); E "comment" (FStr 24); E "width" fmt_I; E "height" fmt_I; E "length_x" FF32; E "length_y" FF32;
  E "offset_x" FF32; E "offset_y" FF32].
(** tmd.py:41-50 *)
Definition tmd_header (magic : pystr) (s : raw) (comment : pystr) : dict :=
  [("header", VStr (magic ++ line_termination)%list);
   ("comment", VStr (comment ++ repeat 32 (COMMENT_LEN - length comment) ++ line_termination)%list);
   ("width", VInt (Z.of_nat (cols s))); ("height", VInt (Z.of_nat (rows s)));
   ("length_x", VFloat (fmul (f64_of_Z (Z.of_nat (cols s))) (rstep_x s)));
   ("length_y", VFloat (fmul (f64_of_Z (Z.of_nat (rows s))) (rstep_y s)));
   ("offset_x", VInt 0); ("offset_y", VInt 0)]%string.
(** tmd.py:37-52 (write_tmd); the layout is always written in UTF-8 *)
Definition write_tmd (en : encoding) (s : raw) (comment : pystr) : res bytes :=
  if Nat.ltb COMMENT_LEN (length comment) then Err ValueError else
  rbind (decode en tmd_magic) (fun magic =>
  rbind (write_layout Utf8 (tmd_header magic s comment) tmd_layout) (fun head =>
  Ok (head ++ f32_tobytes (singles s)))).
(** float / int of Python; division by zero raises *)
Definition pydiv (x : f64) (n : Z) : res f64 := if n =? 0 then Err (OtherError "ZeroDivisionError") else Ok (fdiv x (f64_of_Z n)).
(** tmd.py:21-35 (read_tmd) *)
Definition read_tmd (h : fh) : res raw :=
  let '(m, h1) := fread (length tmd_magic) h in
  if negb (zs_eqb m tmd_magic) then Err CorruptedFileError else
  rbind (read_layout Utf8 tmd_layout {| contents := contents h1; pos := 0 |}) (fun '(d, h2) =>
  let '(b, _) := fread_all h2 in
  rbind (f32_array b) (fun l =>
  rbind (hint d "height") (fun ny =>
  rbind (hint d "width") (fun nx =>
  if negb (zlen l =? ny * nx) then Err CorruptedFileError else
  rbind (reshape (Z.to_nat ny) (Z.to_nat nx) l) (fun data =>
  rbind (hflt d "length_x") (fun lx =>
  rbind (pydiv lx nx) (fun sx =>
  rbind (hflt d "length_y") (fun ly =>
  rbind (pydiv ly ny) (fun sy =>
  Ok {| rdata := map (map f64_of_f32) data; rstep_x := sx; rstep_y := sy |}))))))))).

(** ** Decimal integers: str(n) for n >= 0, int(s) for digit strings (signs, blanks and underscores are not modelled) *)
Fixpoint dec_aux (fuel : nat) (n : Z) (acc : pystr) : pystr :=
  match fuel with
  | O => acc
  | S f => if n <? 10 then (48 + n) :: acc else dec_aux f (n / 10) ((48 + n mod 10) :: acc)
  end.
(** str(n) of a non-negative integer, used in the headers of al3d.py:24-46 *)
Definition dec (n : Z) : pystr := dec_aux (S (Z.to_nat (Z.log2 n))) n [].
(** the decimal digits 0-9 (int(s) in al3d.py:48-80) *)
Definition is_digit (c : Z) : bool := (48 <=? c) && (c <=? 57).
(** the number written by decimal digits (int(s) in al3d.py:48-80) *)
Definition dec_value (s : pystr) : Z := fold_left (fun a c => a * 10 + (c - 48)) s 0.
(** int(s) of a digit string, ValueError otherwise (al3d.py:48-80) *)
Definition int_parse (s : pystr) : res Z :=
  if negb (zs_eqb s []) && forallb is_digit s then Ok (dec_value s) else Err ValueError.

(** repr / float() of doubles: the shortest decimal that reads back is printed with at most 24 characters *)
Record float_text := { frepr : f64 -> pystr; fparse : pystr -> res f64 }.
(** what is used of repr(float) and float(str): reading back what was written (al3d.py:24-80) *)
Record float_text_ok (ft : float_text) : Prop := {
  ft_round : forall x, exists y, fparse ft (frepr ft x) = Ok y /\
     (isnan x = true -> isnan y = true) /\ (isnan x = false -> y = x);
  ft_length : forall x, (length (frepr ft x) <= 24)%nat;
  ft_chars : forall x, Forall (fun c => 32 < c < 127) (frepr ft x) }.

(** ** Alicona: al3d.py *)
Definition al3d_magic : bytes := str "AliconaImaging" ++ [0; 13; 10].
(** the padding character of tags, al3d.py:10-14 *)
Definition isnul (c : Z) : bool := c =? 0.
(** al3d.py:16-21 (write_tag): struct.pack('20s30s2s', ...) *)
Definition pad0 (n : nat) (b : bytes) : bytes := firstn n b ++ repeat 0 (n - length b).
(** al3d.py:16-21 (write_tag) *)
Definition write_tag (en : encoding) (kv : pystr * pystr) : res bytes :=
  rbind (encode en (fst kv)) (fun k =>
  rbind (encode en (snd kv)) (fun v =>
  rbind (encode en [13; 10]) (fun t => Ok (pad0 20 k ++ pad0 30 v ++ pad0 2 t)))).
(** al3d.py:10-14 (read_tag) *)
Definition read_tag (en : encoding) (h : fh) : res ((pystr * pystr) * fh) :=
  let '(b, h1) := fread 52 h in
  if negb (Nat.eqb (length b) 52) then Err StructError else
  rbind (decode en (firstn 20 b)) (fun k =>
  rbind (decode en (firstn 30 (skipn 20 b))) (fun v =>
  rbind (decode en (skipn 50 b)) (fun t =>
  if zs_eqb (rstrip isnul t) [13; 10] then Ok ((rstrip isnul k, rstrip isnul v), h1) else Err CorruptedFileError))).
(** the loop over the tags in write_al3d, al3d.py:24-46 *)
Fixpoint write_tags (en : encoding) (l : list (pystr * pystr)) : res bytes :=
  match l with [] => Ok [] | kv :: l' => rbind (write_tag en kv) (fun b => rmap (app b) (write_tags en l')) end.
(** the loop over the tags in read_al3d, al3d.py:48-80 *)
Fixpoint read_tags (en : encoding) (n : nat) (h : fh) : res (list (pystr * pystr) * fh) :=
  match n with
  | O => Ok ([], h)
  | S n' => rbind (read_tag en h) (fun '(kv, h1) => rmap (fun '(l, h2) => (kv :: l, h2)) (read_tags en n' h1))
  end.
(** a dict keyed by str; a later entry replaces an earlier one *)
Fixpoint tag (l : list (pystr * pystr)) (k : pystr) : option pystr :=
  match l with
  | [] => None
  | (k', v) :: l' => match tag l' k with Some v' => Some v' | None => if zs_eqb k k' then Some v else None end
  end.
(** header[k] of the tags read, KeyError if absent, al3d.py:48-80 *)
Definition tagv (l : list (pystr * pystr)) (k : string) : res pystr :=
  match tag l (str k) with Some v => Ok v | None => Err KeyError end.

(** al3d.py:25-36: 1e-6 is the double nearest to 10^-6 *)
Definition al3d_tags (ft : float_text) (s : raw) : list (pystr * pystr) :=
  [(str "Version", dec 1); (str "TagCount", dec 9); (str "Cols", dec (Z.of_nat (cols s))); (str "IconOffset", dec 0);
   (str "DepthImageOffset", dec 845); (str "InvalidPixelValue", frepr ft nan64);
   (str "PixelSizeYMeter", frepr ft (fmul (rstep_y s) (pow10 (-6))));
   (str "PixelSizeXMeter", frepr ft (fmul (rstep_x s) (pow10 (-6))));
   (str "NumberOfPlanes", dec 0); (str "Rows", dec (Z.of_nat (rows s))); (str "TextureImageOffset", dec 0)].
(** float32 array times a Python float: the scalar is rounded to single precision, the product too *)
Definition fmul32 := b32_mult mode_NE.
(** al3d.py:23-45 (write_al3d), written at the beginning of the file *)
Definition write_al3d (ft : float_text) (en : encoding) (s : raw) : res bytes :=
  rbind (write_tags en (al3d_tags ft s)) (fun tags =>
  let head := al3d_magic ++ tags in
  let padding := repeat 0 (845 - length head - 2) ++ [13; 10] in
  Ok (head ++ padding ++ f32_tobytes (map (fun x => fmul32 x (f32_of_f64 (pow10 (-6)))) (singles s)))).
(** float == float *)
Definition feq32 (x y : f64) : bool := match b64_compare x y with Some Eq => true | _ => false end.
(** al3d.py:47-80 (read_al3d) *)
Definition read_al3d (ft : float_text) (en : encoding) (h : fh) : res raw :=
  let '(m, h1) := fread 17 h in
  if negb (zs_eqb m al3d_magic) then Err CorruptedFileError else
  rbind (read_tag en h1) (fun '(t1, h2) =>
  if negb (zs_eqb (fst t1) (str "Version")) then Err CorruptedFileError else
  rbind (read_tag en h2) (fun '(t2, h3) =>
  if negb (zs_eqb (fst t2) (str "TagCount")) then Err CorruptedFileError else
  rbind (int_parse (snd t2)) (fun n =>
  rbind (read_tags en (Z.to_nat n) h3) (fun '(l, h4) =>
  let d := t1 :: t2 :: l in
  rbind (rbind (tagv d "Cols") int_parse) (fun nx =>
  rbind (rbind (tagv d "Rows") int_parse) (fun ny =>
  rbind (rbind (tagv d "PixelSizeXMeter") (fparse ft)) (fun px =>
  rbind (rbind (tagv d "PixelSizeYMeter") (fparse ft)) (fun py =>
  rbind (rbind (tagv d "DepthImageOffset") int_parse) (fun off =>
  let '(b, _) := fread (Z.to_nat (nx * ny) * 4) {| contents := contents h4; pos := Z.to_nat off |} in
  rbind (f32_array b) (fun vals =>
  rbind (reshape (Z.to_nat ny) (Z.to_nat nx) vals) (fun data =>
  rbind (rbind (tagv d "InvalidPixelValue") (fparse ft)) (fun inv =>
  let height v :=
    let v := if feq32 (f64_of_f32 v) (f64_of_f32 (f32_of_f64 inv)) then nan32 else v in
    f64_of_f32 (fmul32 v (f32_of_f64 (pow10 6))) in
  Ok {| rdata := map (map height) data; rstep_x := fmul px (pow10 6); rstep_y := fmul py (pow10 6) |})))))))))))).

(** ** SDF: sdf.py *)
Definition sdf_magic_ascii : bytes := str "aISO-1.0".
(** MAGIC_BINARY, sdf.py:9-13 *)
Definition sdf_magic_binary : bytes := str "bISO-1.0".
(** sdf.py:17-30 *)
Definition sdf_layout : list entry := [
  E "ManufacID" (FStr 10); E "CreateDate" (FStr 12); E "ModDate" (FStr 12); E "NumPoints" fmt_H; E "NumProfiles" fmt_H;
  E "Xscale" FF64; E "Yscale" FF64; E "Zscale" FF64; E "Zresolution" FF64; E "Compression" fmt_B; E "DataType" fmt_B;
  E "CheckType" fmt_B].
(** np.nanmax(np.abs(data)) *)
Definition max_abs (s : raw) : f64 := fextremum (fun y m => flt m y) (map b64_abs (measured s)).
(** sdf.py:152-159: the scale factor; [scale_of m] stands for 10 ** (-floor(log10 m)) of libm *)
Definition is_zero (x : f64) : bool := match x with Binary.B754_zero _ _ _ => true | _ => false end.
(** sdf.py:152-159: the factor by which the heights are multiplied before they are rounded *)
Definition sdf_scale (scale_of : f64 -> f64) (s : raw) : f64 :=
  if is_zero (max_abs s) then f64_of_Z 1 else scale_of (max_abs s).
(** sdf.py:161-177 *)
Definition sdf_header (scale_of : f64 -> f64) (s : raw) (create_date mod_date : pystr) : dict :=
  [("ManufacID", VStr (str "surfalize ")); ("CreateDate", VStr create_date); ("ModDate", VStr mod_date);
   ("NumPoints", VInt (Z.of_nat (cols s))); ("NumProfiles", VInt (Z.of_nat (rows s)));
   ("Xscale", VFloat (fmul (rstep_x s) (pow10 (-6)))); ("Yscale", VFloat (fmul (rstep_y s) (pow10 (-6))));
   ("Zscale", VFloat (fdiv (pow10 (-6)) (sdf_scale scale_of s))); ("Zresolution", VInt (-1)); ("Compression", VInt 0);
   ("DataType", VInt 7); ("CheckType", VInt 0)]%string.
(** the scaled heights *)
Definition sdf_data (scale_of : f64 -> f64) (s : raw) : list f64 :=
  map (fun x => fmul x (sdf_scale scale_of s)) (concat (rdata s)).
(** sdf.py:138-183 (write_sdf, binary=True); np.nanmax of an empty array raises *)
Definition write_sdf (scale_of : f64 -> f64) (s : raw) (create_date mod_date : pystr) : res bytes :=
  if Nat.eqb (rows s * cols s) 0 then Err ValueError else
  rbind (write_layout Utf8 (sdf_header scale_of s create_date mod_date) sdf_layout) (fun head =>
  Ok (sdf_magic_binary ++ head ++ f64_tobytes (sdf_data scale_of s))).
(** sdf.py:47-51: item sizes of DTYPE_MAP *)
Definition sdf_item (dt : Z) : option nat :=
  if dt =? 5 then Some 2%nat else if dt =? 6 then Some 4%nat else if dt =? 7 then Some 8%nat else None.
(** sdf.py:98-126 (read_binary_sdf), the handle standing after the magic *)
Definition read_binary_sdf (en : encoding) (h : fh) : res raw :=
  rbind (read_layout en sdf_layout h) (fun '(d, h1) =>
  rbind (hint d "NumPoints") (fun nx =>
  rbind (hint d "NumProfiles") (fun ny =>
  rbind (hint d "DataType") (fun dt =>
  match sdf_item dt with
  | None => Err CorruptedFileError
  | Some width =>
    let size := (width * Z.to_nat nx * Z.to_nat ny)%nat in
    let '(b, _) := fread size h1 in
    if negb (Nat.eqb (length b) size) then Err CorruptedFileError else
    rbind (hflt d "Zscale") (fun zs =>
    let scale x := fmul (fmul x zs) (pow10 6) in
    rbind (if dt =? 7 then rmap (map scale) (f64_array b)
           else rmap (map (fun n => if n =? - 2 ^ (8 * Z.of_nat width - 1) then nan64 else scale (f64_of_Z n)))
                     (int_array width b)) (fun vals =>
    rbind (reshape (Z.to_nat ny) (Z.to_nat nx) vals) (fun data =>
    rbind (hflt d "Xscale") (fun xs =>
    rbind (hflt d "Yscale") (fun ys =>
    Ok {| rdata := data; rstep_x := fmul xs (pow10 6); rstep_y := fmul ys (pow10 6) |})))))
  end)))).

(** *** ASCII SDF *)
(** str.split(sep) for a single character *)
Fixpoint split_on (sep : Z) (s : pystr) : list pystr :=
  match s with
  | [] => [[]]
  | c :: s' =>
    match split_on sep s' with
    | [] => [[c]]
    | p :: ps => if c =? sep then [] :: p :: ps else (c :: p) :: ps
    end
  end.
(** str.splitlines; of the line boundaries only those of ASCII text *)
Definition is_linebreak (c : Z) : bool := ((10 <=? c) && (c <=? 13)) || ((28 <=? c) && (c <=? 30)).
(** str.splitlines, sdf.py:61-73 *)
Fixpoint splitlines_aux (s : pystr) : list pystr :=
  match s with
  | [] => []
  | c :: s' =>
    if is_linebreak c then
      match c, s' with
      | 13, 10 :: s'' => [] :: splitlines_aux s''
      | _, _ => [] :: splitlines_aux s'
      end
    else match splitlines_aux s' with [] => [[c]] | l :: ls => (c :: l) :: ls end
  end.
(** ASCII whitespace *)
Definition is_space (c : Z) : bool := (c =? 32) || ((9 <=? c) && (c <=? 13)) || ((28 <=? c) && (c <=? 31)).
(** str.lstrip, sdf.py:61-73 *)
Fixpoint lstrip (s : pystr) : pystr := match s with [] => [] | c :: s' => if is_space c then lstrip s' else s end.
(** sdf.py:185-203 (write_sdf, binary=False).  CRLF is a bytes object; in the header lines it is interpolated into an
    f-string, i.e. its repr is written.  [text] formats a value, [body] the heights. *)
Definition crlf_repr : pystr := str "b'\n'".
(** sdf.py:185-203 *)
Definition write_sdf_ascii (text : pyval -> pystr) (body : pystr) (header : dict) : bytes :=
  sdf_magic_ascii ++ [10] ++
  concat (map (fun kv => str (fst kv) ++ str " = " ++ text (snd kv) ++ crlf_repr) header) ++
  [42; 10] ++ body ++ [42; 10] ++ str "<ExportedBy>Surfalize</ExportedBy>" ++ [10] ++ [42; 10].
(** sdf.py:61-96 (read_ascii_sdf) up to the header values; converting them ([convert]) and the data section ([rest]) are left open *)
Fixpoint read_header_lines (convert : pystr -> pystr -> res (string * pyval)) (l : list pystr) : res dict :=
  match l with
  | [] => Ok []
  | line :: l' =>
    match split_on 61 line with
    | [name; value] => rbind (convert name value) (fun kv => rmap (cons kv) (read_header_lines convert l'))
    | _ => Err ValueError
    end
  end.
(** sdf.py:61-96 (read_ascii_sdf) up to the header values *)
Definition read_ascii_sdf (convert : pystr -> pystr -> res (string * pyval)) (rest : dict -> pystr -> res raw) (h : fh) : res raw :=
  let '(b, _) := fread_all h in
  if negb (forallb (fun c => (0 <=? c) && (c <? 128)) b) then Err UnicodeError else
  match split_on 42 (lstrip b) with
  | [header; data; _; e] =>
    if negb (zs_eqb (lstrip e) []) then Err ValueError else
    rbind (read_header_lines convert (splitlines_aux (lstrip header))) (fun d => rest d data)
  | _ => Err ValueError
  end.
(** sdf.py:128-136 (read_sdf) *)
Definition read_sdf (convert : pystr -> pystr -> res (string * pyval)) (rest : dict -> pystr -> res raw) (en : encoding)
  (h : fh) : res raw :=
  let '(m, h1) := fread 8 h in
  if zs_eqb m sdf_magic_ascii then read_ascii_sdf convert rest h1
  else if zs_eqb m sdf_magic_binary then read_binary_sdf en h1
  else match utf8_decode m with Ok _ => Err CorruptedFileError | Err e => Err e end.
