(** Keyence VK4 and VK6/VK7 files: surfalize/file/vk.py.  zipfile is a parameter.  Metadata is read only as far as
    reading it can fail. *)
From Coq Require Import String Ascii ZArith Lia Bool.
From Coq Require Import List.
From Flocq Require Import IEEE754.BinarySingleNaN IEEE754.Binary IEEE754.Bits.
From Verif Require Import Base ModelBytes ModelSur ModelFormats ModelReaders.
Import ListNotations.
Local Open Scope Z_scope.

(** vk.py:14-30 *)
Definition vk_offsets : list entry := [
  E "meas_conds" fmt_I; E "color_peak" fmt_I; E "color_light" fmt_I; E "light" fmt_I; Reserved 8; E "height" fmt_I; Reserved 8;
  E "clr_peak_thumb" fmt_I; E "clr_thumb" fmt_I; E "light_thumb" fmt_I; E "height_thumb" fmt_I; E "assembly_info" fmt_I;
  E "line_measure" fmt_I; E "line_thickness" fmt_I; E "string_data" fmt_I].
(** vk.py:32-103 *)
Definition vk_conditions : list entry := [
  E "size" fmt_I; E "year" fmt_I; E "month" fmt_I; E "day" fmt_I; E "hour" fmt_I; E "minute" fmt_I; E "second" fmt_I;
  E "diff_from_UTC" fmt_i; E "img_attributes" fmt_I; E "user_interface_mode" fmt_I; E "color_composite_mode" fmt_I;
  E "img_layer_number" fmt_I; E "run_mode" fmt_I; E "peak_mode" fmt_I; E "sharpening_level" fmt_I; E "speed" fmt_I;
  E "distance" fmt_I; E "pitch" fmt_I; E "optical_zoom" fmt_I; E "number_of_lines" fmt_I; E "line0_position" fmt_I;
  Reserved 12; E "lens_magnification" fmt_I; E "PMT_gain_mode" fmt_I; E "PMT_gain" fmt_I; E "PMT_offset" fmt_I;
  E "ND_filter" fmt_I; Reserved 4; E "persist_count" fmt_I; E "shutter_speed_mode" fmt_I; E "shutter_speed" fmt_I;
  E "white_balance_mode" fmt_I; E "white_balance_red" fmt_I; E "white_balance_blue" fmt_I; E "camera_gain" fmt_I;
  E "plane_compensation" fmt_I; E "xy_length_unit" fmt_I; E "z_length_unit" fmt_I; E "xy_decimal_place" fmt_I;
  E "z_decimal_place" fmt_I; E "x_length_per_pixel" fmt_I; E "y_length_per_pixel" fmt_I; E "z_length_per_digit" fmt_I;
  Reserved 20; E "light_filter_type" fmt_I; Reserved 4; E "gamma_reverse" fmt_I; E "gamma" fmt_I;
  E "gamma_correction_offset" fmt_I; E "CCD_BW_offset" fmt_I; E "num_aperture" fmt_I; E "head_type" fmt_I;
  E "PMT_gain_2" fmt_I; E "omit_color_img" fmt_I; E "lens_ID" fmt_I; E "light_lut_mode" fmt_I; E "light_lut_in0" fmt_I;
  E "light_lut_out0" fmt_I; E "light_lut_in1" fmt_I; E "light_lut_out1" fmt_I; E "light_lut_in2" fmt_I;
  E "light_lut_out2" fmt_I; E "light_lut_in3" fmt_I; E "light_lut_out3" fmt_I; E "light_lut_in4" fmt_I;
  E "light_lut_out4" fmt_I; E "upper_position" fmt_I; E "lower_position" fmt_I; E "light_effective_bit_depth" fmt_I;
  E "height_effective_bit_depth" fmt_I].
(** vk.py:105-114 *)
Definition vk_height : list entry := [
  E "width" fmt_I; E "height" fmt_I; E "bit_depth" fmt_I; E "compression" fmt_I; E "data_byte_size" fmt_I;
  E "palette_range_min" fmt_I; E "palette_range_max" fmt_I; Reserved 768].
(** vk.py:116-122 *)
Definition vk_image : list entry := [
  E "width" fmt_I; E "height" fmt_I; E "bit_depth" fmt_I; E "compression" fmt_I; E "data_byte_size" fmt_I].

(** vk.py:12 (DTYPE_MAP): bytes per item *)
Definition vk_itemsize (bit_depth : Z) : res nat :=
  if bit_depth =? 16 then Ok 2%nat else if bit_depth =? 32 then Ok 4%nat else Err KeyError.
(** vk.py:135-144 (read_height_layer).  data_byte_size != length * bit_depth / 8 compares an integer below 2^32 with a
    correctly rounded quotient, which is equal only if the division is exact. *)
Definition vk_read_height (offset : Z) (h : fh) : res (list (list Z)) :=
  rbind (read_layout Utf8 vk_height (fseek (Z.to_nat offset) h)) (fun '(t, h1) =>
  rbind (hint t "width") (fun w =>
  rbind (hint t "height") (fun ht =>
  rbind (hint t "data_byte_size") (fun size =>
  rbind (hint t "bit_depth") (fun bd =>
  if negb (8 * size =? w * ht * bd) then Err CorruptedFileError else
  rbind (vk_itemsize bd) (fun k =>
  rbind (read_items k (w * ht) h1) (fun '(items, _) =>
  reshape (Z.to_nat ht) (Z.to_nat w) (map item_u items)))))))).
(** vk.py:124-133 (read_rgb_layer): three bytes per point, channels reversed *)
Definition vk_read_rgb (offset : Z) (h : fh) : res image :=
  rbind (read_layout Utf8 vk_image (fseek (Z.to_nat offset) h)) (fun '(t, h1) =>
  rbind (hint t "width") (fun w =>
  rbind (hint t "height") (fun ht =>
  rbind (hint t "data_byte_size") (fun size =>
  rbind (hint t "bit_depth") (fun bd =>
  if negb (24 * size =? w * ht * 3 * bd) then Err CorruptedFileError else
  rbind (read_items 1 (w * ht * 3) h1) (fun '(items, _) =>
  rmap (map (map (@rev Z))) (reshape3 (Z.to_nat ht) (Z.to_nat w) 3 (map item_u items)))))))).
(** vk.py:146-156 (read_string_data): two strings of 16-bit characters behind their lengths *)
Definition vk_read_string (en : encoding) (h : fh) : res fh :=
  let '(n, h1) := fread 4 h in
  rbind (unpack fmt_I n) (fun v => match v with
  | VInt k => let '(s, h2) := fread (Z.to_nat (k * 2)) h1 in rmap (fun _ => h2) (decode en s)
  | _ => Err TypeError
  end).
(** vk.py:146-156 (read_string_data) *)
Definition vk_read_strings (en : encoding) (offset : Z) (h : fh) : res fh :=
  rbind (vk_read_string en (fseek (Z.to_nat offset) h)) (vk_read_string en).
(** datetime(year, month, day, hour, minute, second) *)
Definition leap (y : Z) : bool := (y mod 4 =? 0) && (negb (y mod 100 =? 0) || (y mod 400 =? 0)).
(** the number of days of a month (datetime, vk.py:184-186) *)
Definition month_days (y m : Z) : Z :=
  if m =? 2 then (if leap y then 29 else 28) else if (m =? 4) || (m =? 6) || (m =? 9) || (m =? 11) then 30 else 31.
(** the checks of the datetime constructor, vk.py:184-186 *)
Definition datetime_ok (y mo d h mi s : Z) : bool :=
  (1 <=? y) && (y <=? 9999) && (1 <=? mo) && (mo <=? 12) && (1 <=? d) && (d <=? month_days y mo) &&
  (0 <=? h) && (h <? 24) && (0 <=? mi) && (mi <? 60) && (0 <=? s) && (s <? 60).
(** get_unit_conversion('pm', 'um') *)
Definition vk_unit : f64 := pow10 (-6).
(** vk.py:158-190 (read_vk4) *)
Definition read_vk4 (en : encoding) (images : bool) (h : fh) : res (raw * image_layers) :=
  let '(_, h1) := fread 12 h in
  rbind (read_layout Utf8 vk_offsets h1) (fun '(o, h2) =>
  rbind (hint o "meas_conds") (fun meas =>
  rbind (read_layout Utf8 vk_conditions (fseek (Z.to_nat meas) h2)) (fun '(c, h3) =>
  rbind (if images then
    rbind (hint o "color_peak") (fun cp => rbind (vk_read_rgb cp h3) (fun rgb =>
    rbind (hint o "color_light") (fun cl => rbind (vk_read_rgb cl h3) (fun lrgb =>
    rbind (hint o "light") (fun li => rbind (vk_read_height li h3) (fun laser =>
    Ok [("RGB"%string, rgb); ("Laser+RGB"%string, lrgb); ("Laser"%string, map (map (fun v => [v])) laser)]))))))
    else Ok []) (fun layers =>
  rbind (hint o "height") (fun oh =>
  rbind (vk_read_height oh h3) (fun data =>
  rbind (hint o "string_data") (fun os =>
  rbind (vk_read_strings en os h3) (fun _ =>
  rbind (hint c "z_length_per_digit") (fun zl =>
  rbind (hint c "x_length_per_pixel") (fun xl =>
  rbind (hint c "y_length_per_pixel") (fun yl =>
  rbind (hint c "year") (fun y => rbind (hint c "month") (fun mo => rbind (hint c "day") (fun d =>
  rbind (hint c "hour") (fun ho => rbind (hint c "minute") (fun mi => rbind (hint c "second") (fun se =>
  if negb (datetime_ok y mo d ho mi se) then Err ValueError else
  let scale := fmul vk_unit (f64_of_Z zl) in
  Ok ({| rdata := map (map (fun v => fmul (f64_of_Z v) scale)) data;
         rstep_x := fmul (f64_of_Z xl) vk_unit; rstep_y := fmul (f64_of_Z yl) vk_unit |}, layers)))))))))))))))))).
(** vk.py:192-196 (read_vk6_vk7): the member Vk4File of a zip archive *)
Definition read_vk67 (zip_member : string -> bytes -> res bytes) (en : encoding) (images : bool) (b : bytes) : res (raw * image_layers) :=
  rbind (zip_member "Vk4File"%string b) (fun b' => read_vk4 en images {| contents := b'; pos := 0 |}).
