(** The instrument file readers surfalize/file/plu.py, zmg.py, os3d.py and nms.py.
    Files are byte strings with a position (ModelBytes).  dateutil.parser.parse and PIL.Image.open are parameters:
    only whether the former accepts a text, and which image the latter returns, matter.  Metadata other than the
    heights, the steps and the image layers is not modelled. *)
From Coq Require Import String Ascii ZArith Lia Bool.
From Coq Require Import List.
From Flocq Require Import IEEE754.BinarySingleNaN IEEE754.Binary IEEE754.Bits.
From Verif Require Import Base ModelBytes ModelSur ModelFormats.
Import ListNotations.
Local Open Scope Z_scope.

(** an image layer: rows of pixels, a pixel is the list of its channel values *)
Definition image := list (list (list Z)).
(** the dictionary image_layers of a RawSurface, file/common.py:373-381 *)
Definition image_layers := list (string * image).

(** common.py:338-365 (read_array) for a count >= 0 of items of [size] bytes; a short file gives fewer items *)
Definition read_items (size : nat) (count : Z) (h : fh) : res (list bytes * fh) :=
  let '(b, h1) := fread (Z.to_nat (count * Z.of_nat size)) h in rmap (fun l => (l, h1)) (frombuffer size b).
(** f.seek(n, 0) *)
Definition fseek (n : nat) (h : fh) : fh := {| contents := contents h; pos := n |}.
(** np.frombuffer items of the dtypes used *)
Definition item_f32 (c : bytes) : f32 := b32_of_bits (unle c).
(** an item of an unsigned integer dtype, file/common.py:338-365 *)
Definition item_u (c : bytes) : Z := unle c.
(** an item of a signed integer dtype of n bytes, file/common.py:338-365 *)
Definition item_i (n : nat) (c : bytes) : Z := to_signed n (unle c).
(** arr.reshape(rows, cols, k) *)
Definition reshape3 {A} (rows cols k : nat) (l : list A) : res (list (list (list A))) :=
  rbind (reshape (rows * cols) k l) (fun px => reshape rows cols px).
(** comparisons of float32 arrays with a Python number: the number is rounded to single precision first *)
Definition feq_s (x y : f32) : bool := match b32_compare x y with Some Eq => true | _ => false end.
(** x < y on float32, False with NaN *)
Definition flt_s (x y : f32) : bool := match b32_compare x y with Some Lt => true | _ => false end.

(** ** Sensofar PLu: plu.py *)
(** plu.py:10-21 (LAYOUT_CALIBRATION) *)
Definition plu_calibration : list entry := [
  E "yres" fmt_I; E "xres" fmt_I; E "N_tall" fmt_I; E "dy_multip" FF32; E "mppx" FF32; E "mppy" FF32; E "x_0" FF32;
  E "y_0" FF32; E "mpp_tall" FF32; E "z0" FF32].
(** plu.py:23-45 (LAYOUT_MEASURE_CONFIG) *)
Definition plu_config : list entry := [
  E "type" fmt_I; E "algorithm" fmt_I; E "method" fmt_I; E "objective" fmt_I; E "area" fmt_I; E "xres_area" fmt_I;
  E "yres_area" fmt_I; E "xres" fmt_I; E "yres" fmt_I; E "na" fmt_I; E "incr_z" FF64; E "range" FF32;
  E "n_planes" fmt_I; E "tpc_umbral_F" fmt_I; E "restore" (FInt true 1); E "num_layers" (FInt true 1);
  E "version" (FInt true 1); E "config_hardware" (FInt true 1); E "stack_in_num" (FInt true 1); Reserved 3;
  E "factorio_delmacio" fmt_I].
(** plu.py:58-66: the image behind the heights; equal channels give a grey image *)
Definition plu_image (ny nx : Z) (h : fh) : res image_layers :=
  rbind (read_items 1 (nx * ny * 3) (fskip 16 h)) (fun '(l, _) =>
  rbind (reshape3 (Z.to_nat ny) (Z.to_nat nx) 3 (map item_u l)) (fun img =>
  if forallb (forallb (fun px => (nth 0 px 0 =? nth 1 px 0) && (nth 0 px 0 =? nth 2 px 0))) img
  then Ok [("Grayscale"%string, map (map (fun px => [nth 0 px 0])) img)]
  else Ok [("RGB"%string, img)])).
(** plu.py:47-74 (read_plu); 1000001 marks a point that was not measured *)
Definition read_plu (parse_date : pystr -> res unit) (en : encoding) (images : bool) (h : fh) : res (raw * image_layers) :=
  let '(date, h1) := fread 128 h in
  rbind (rbind (decode en date) (fun s => parse_date (rstrip isnul s))) (fun _ =>
  rbind (read_layout en plu_calibration (fskip (256 + 4) h1)) (fun '(cal, h2) =>
  rbind (read_layout en plu_config h2) (fun '(_, h3) =>
  rbind (hint cal "xres") (fun nx =>
  rbind (hint cal "yres") (fun ny =>
  rbind (read_items 4 (nx * ny) h3) (fun '(items, h4) =>
  rbind (if images then plu_image ny nx h4 else Ok []) (fun layers =>
  rbind (reshape (Z.to_nat ny) (Z.to_nat nx) (map item_f32 items)) (fun data =>
  rbind (hflt cal "mppx") (fun sx =>
  rbind (hflt cal "mppy") (fun sy =>
  let height v := f64_of_f32 (if feq_s v (f32_make 1000001 0) then nan32 else v) in
  Ok ({| rdata := map (map height) data; rstep_x := sx; rstep_y := sy |}, layers))))))))))).

(** ** Zeta Instruments: zmg.py *)
(** zmg.py:5 *)
Definition zmg_magic : bytes := str "Zeta-Instruments".
(** zmg.py:7-18 (LAYOUT_HEADER) *)
Definition zmg_layout : list entry := [
  Reserved 85; E "res_x" fmt_I; E "res_y" fmt_I; Reserved 4; E "step_x" FF32; E "step_y" FF32; E "step_z" FF32;
  Reserved 8; E "comment_size" fmt_I; Reserved 84].
(** zmg.py:20-34 (read_zmg); an int16 array times a Python float is a float64 array.  Image layers are not read. *)
Definition read_zmg (en : encoding) (h : fh) : res raw :=
  let '(m, h1) := fread (length zmg_magic) h in
  if negb (zs_eqb m zmg_magic) then Err CorruptedFileError else
  rbind (read_layout en zmg_layout (fseek 0 h1)) (fun '(d, h2) =>
  rbind (hint d "comment_size") (fun comment_size =>
  rbind (hint d "res_x") (fun nx =>
  rbind (hint d "res_y") (fun ny =>
  rbind (read_items 2 (nx * ny) (fskip (Z.to_nat comment_size) h2)) (fun '(items, _) =>
  rbind (hflt d "step_z") (fun sz =>
  rbind (reshape (Z.to_nat ny) (Z.to_nat nx) (map (fun c => fmul (f64_of_Z (item_i 2 c)) sz) items)) (fun data =>
  rbind (hflt d "step_x") (fun sx =>
  rbind (hflt d "step_y") (fun sy =>
  Ok {| rdata := data; rstep_x := sx; rstep_y := sy |}))))))))).

(** ** OmniSurf3D: os3d.py *)
(** os3d.py:11 *)
Definition os3d_magic : bytes := str "OmniSurf3D".
(** os3d.py:15-28 (LAYOUT_HEADER) *)
Definition os3d_layout : list entry := [
  E "nMajorVersion" fmt_i; E "nMinorVersion" fmt_i;
  E "nIdentificationStringLength" fmt_i; Entry "chArrayIdentification" (FromPrev "nIdentificationStringLength");
  E "nMeasureDateTimeStringLength" fmt_i; Entry "chArrayMeasureDateTime" (FromPrev "nMeasureDateTimeStringLength");
  E "nPointsAlongX" fmt_i; E "nPointsAlongY" fmt_i; E "dSpacingAlongXUM" FF64; E "dSpacingAlongYUM" FF64;
  E "dXOriginUM" FF64; E "dYOriginUM" FF64].
(** os3d.py:13: the single nearest to -3e38 *)
Definition os3d_threshold : f32 := f32_make (-3 * 10 ^ 38) 0.
(** os3d.py:30-49 (read_os3d).  [open_image] is PIL.Image.open; has_image is the tuple returned by struct.unpack,
    hence always true.  The wrong-magic message decodes the bytes read, which may itself raise.  A negative number
    of points is not modelled further: it is an error here. *)
Definition read_os3d (parse_date : pystr -> res unit) (open_image : bytes -> res image) (en : encoding) (images : bool)
  (h : fh) : res (raw * image_layers) :=
  let '(m, h1) := fread (length os3d_magic) h in
  if negb (zs_eqb m os3d_magic) then rbind (decode en m) (fun _ => Err CorruptedFileError) else
  rbind (read_layout en os3d_layout h1) (fun '(d, h2) =>
  rbind (hint d "nPointsAlongX") (fun nx =>
  rbind (hint d "nPointsAlongY") (fun ny =>
  if (nx <? 0) || (ny <? 0) then Err ValueError else
  rbind (read_items 4 (nx * ny) h2) (fun '(items, h3) =>
  rbind (reshape (Z.to_nat ny) (Z.to_nat nx) (map item_f32 items)) (fun data =>
  rbind (hflt d "dSpacingAlongXUM") (fun sx =>
  rbind (hflt d "dSpacingAlongYUM") (fun sy =>
  rbind (rbind (hstr d "chArrayMeasureDateTime") parse_date) (fun _ =>
  let '(flag, h4) := fread 1 h3 in
  rbind (unpack (FInt true 1) flag) (fun _ =>
  rbind (if images then rmap (fun img => [("RGBA"%string, img)]) (open_image (fst (fread_all h4))) else Ok []) (fun layers =>
  let height v := f64_of_f32 (if flt_s v os3d_threshold then nan32 else v) in
  Ok ({| rdata := map (map height) data; rstep_x := sx; rstep_y := sy |}, layers))))))))))).

(** ** NMS: nms.py *)
(** struct.unpack('<2d', f.read(16)) after f.seek(o, 0), nms.py:20-27 *)
Definition two_doubles (o : nat) (h : fh) : res (f64 * f64) :=
  let '(b, _) := fread 16 (fseek o h) in
  if Nat.eqb (length b) 16 then Ok (b64_of_bits (unle (firstn 8 b)), b64_of_bits (unle (skipn 8 b))) else Err StructError.
(** struct.unpack('<2I', f.read(8)) *)
Definition two_words (o : nat) (h : fh) : res (Z * Z) :=
  let '(b, _) := fread 8 (fseek o h) in
  if Nat.eqb (length b) 8 then Ok (unle (firstn 4 b), unle (skipn 4 b)) else Err StructError.
(** nms.py:31-33: data / (2 ** 16 - 2) * (zmax - zmin) + zmax *)
Definition nms_height (zmin zmax : f64) (code : Z) : f64 :=
  fadd (fmul (fdiv (f64_of_Z code) (f64_of_Z (2 ^ 16 - 2))) (fsub zmax zmin)) zmax.
(** 1e-3 *)
Definition milli : f64 := pow10 (-3).
(** nms.py:18-42 (read_nms); the grey image is reshaped to (ny, ny) *)
Definition read_nms (parse_date : pystr -> res unit) (en : encoding) (images : bool) (h : fh) : res (raw * image_layers) :=
  rbind (two_doubles 16 h) (fun '(zmin, zmax) =>
  let '(date, _) := fread 16 (fseek 1076 h) in
  rbind (rbind (decode en date) parse_date) (fun _ =>
  rbind (two_words 1368 h) (fun '(nx, ny) =>
  rbind (two_doubles 1376 h) (fun '(dx, dy) =>
  rbind (read_items 2 (nx * ny) (fseek 3468 h)) (fun '(items, h1) =>
  rbind (reshape (Z.to_nat ny) (Z.to_nat nx) (map (fun c => nms_height zmin zmax (item_u c)) items)) (fun data =>
  rbind (if images then
           rbind (read_items 1 (nx * ny) h1) (fun '(l, _) =>
           rmap (fun m => [("Grayscale"%string, map (map (fun v => [v])) m)]) (reshape (Z.to_nat ny) (Z.to_nat ny) (map item_u l)))
         else Ok []) (fun layers =>
  Ok ({| rdata := data; rstep_x := fmul dx milli; rstep_y := fmul dy milli |}, layers)))))))).
