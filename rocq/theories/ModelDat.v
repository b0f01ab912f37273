(** Zygo MetroPro files: surfalize/file/dat.py. *)
From Coq Require Import String Ascii ZArith Lia Bool DecimalString.
From Coq Require Import List.
From Flocq Require Import IEEE754.BinarySingleNaN IEEE754.Binary IEEE754.Bits.
From Verif Require Import Base ModelBytes ModelSur ModelFormats ModelReaders.
Import ListNotations.
Local Open Scope string_scope.
Local Open Scope Z_scope.

(** numbers of n bytes, big-endian if be *)
Definition endian (be : bool) (c : bytes) : bytes := if be then rev c else c.
(** int(struct.unpack(...)) of dat.py:19-254: an integer of n bytes, signed or not *)
Definition as_int (be sg : bool) (n : nat) (c : bytes) : Z := if sg then to_signed n (unle (endian be c)) else unle (endian be c).
(** struct.unpack('>f' or '<f') of dat.py:19-254: a single widened to a Python float *)
Definition as_f32 (be : bool) (c : bytes) : f64 := f64_of_f32 (b32_of_bits (unle (endian be c))).
(** layout entries with explicit byte order: the n bytes are read raw and converted (struct.unpack('>H', ...)[0] etc.); the write
    direction is not used *)
Definition conv (f : bytes -> pyval) (v : pyval) : res pyval := match v with VBytes c => Ok (f c) | _ => Err TypeError end.
(** no DAT file is written; dat.py registers no writer *)
Definition nowrite (_ : pyval) : res pyval := Err TypeError.
(** an integer entry of the header, dat.py:19-254 *)
Definition I (be sg : bool) (n : nat) (name : string) : entry := Entry name (Convert (FStr n) (conv (fun c => VInt (as_int be sg n c))) nowrite).
(** count floats: the first one is kept *)
Definition F (be : bool) (name : string) (count : nat) : entry := Entry name (Convert (FStr (4 * count)) (conv (fun c => VFloat (as_f32 be (firstn 4 c)))) nowrite).
(** a text field *)
Definition T (name : string) (n : nat) : entry := Entry name (Fixed (FStr n)).

(** dat.py:31-185 (LAYOUT_HEADER) *)
Definition dat_header : list entry := [
  I true false 2 "header_format"; I true false 4 "header_size"; I true true 2 "swinfo_type"; T "swinfo_date" 30; I true true 2 "swinfo_vers_maj"; 
  I true true 2 "swinfo_vers_min"; I true true 2 "swinfo_vers_bug"; I true true 2 "ac_org_x"; I true true 2 "ac_org_y"; I true false 2 "ac_width"; 
  I true false 2 "ac_height"; I true false 2 "ac_n_buckets"; I true true 2 "ac_range"; I true false 4 "ac_n_bytes"; I true true 2 "cn_org_x"; 
  I true true 2 "cn_org_y"; I true false 2 "cn_width"; I true false 2 "cn_height"; I true false 4 "cn_n_bytes"; I true true 4 "time_stamp"; 
  T "comment" 82; I true true 2 "source"; F true "intf_scale_factor" 1; F true "wavelength_in" 1; F true "num_aperture" 1; F true "obliquity_factor" 1; 
  F true "magnification" 1; F true "lateral_res" 1; I true true 2 "acq_type"; I true true 2 "intens_avg_cnt"; I true true 2 "ramp_cal"; 
  I true true 2 "sfac_limit"; I true true 2 "ramp_gain"; F true "part_thickness" 1; I true true 2 "sw_llc"; F true "target_range" 1; 
  I false true 2 "rad_crv_veasure_eeq"; I true true 4 "min_mod"; I true true 4 "min_mod_count"; I true true 2 "phase_res"; I true true 4 "min_area"; 
  I true true 2 "discon_action"; F true "discon_filter" 1; I true true 2 "connect_order"; I true true 2 "sign"; I true true 2 "camera_width"; 
  I true true 2 "camera_height"; I true true 2 "sys_type"; I true true 2 "sys_board"; I true true 2 "sys_serial"; I true true 2 "inst_id"; 
  T "obj_name" 12; T "part_name" 40; I true true 2 "codev_type"; I true true 2 "phase_avg_cnt"; I true true 2 "sub_sys_err"; Reserved 16; 
  T "part_ser_num" 40; F true "refractive_index" 1; I true true 2 "rem_tilt_bias"; I true true 2 "rem_fringes"; I true true 4 "max_area"; 
  I true true 2 "setup_type"; I true true 2 "wrapped"; F true "pre_connect_filter" 1; F true "wavelength_in_2" 1; I true true 2 "wavelength_fold"; 
  F true "wavelength_in_1" 1; F true "wavelength_in_3" 1; F true "wavelength_in_4" 1; T "wavelen_select" 8; I true true 2 "fda_res"; T "scan_descr" 20; 
  I true true 2 "n_fiducials_a"; F true "fiducials_a" 14; F true "pixel_width" 1; F true "pixel_height" 1; F true "exit_pupil_diam" 1; 
  F true "light_level_pct" 1; I false true 4 "coords_state"; F false "coords_x_pos" 1; F false "coords_y_pos" 1; F false "coords_z_pos" 1; 
  F false "coords_x_rot" 1; F false "coords_y_rot" 1; F false "coords_z_rot" 1; I false true 2 "coherence_mode"; I false true 2 "surface_filter"; 
  T "sys_err_file_name" 28; T "zoom_descr" 8; F false "alpha_part" 1; F false "beta_part" 1; F false "dist_part" 1; I false true 2 "cam_split_loc_x"; 
  I false true 2 "cam_split_loc_y"; I false true 2 "cam_split_trans_x"; I false true 2 "cam_split_trans_y"; T "material_a" 24; T "material_b" 24; 
  I false true 2 "cam_split_unused"; Reserved 2; F false "dmi_ctr_x" 1; F false "dmi_ctr_y" 1; I false true 2 "sph_dist_corr"; Reserved 2; 
  F false "sph_dist_part_na" 1; F false "sph_dist_part_radius" 1; F false "sph_dist_cal_na" 1; F false "sph_dist_cal_radius" 1; 
  I false true 2 "surface_type"; I false true 2 "ac_surface_type"; F false "z_position" 1; F false "power_multiplier" 1; F false "focus_multiplier" 1; 
  F false "rad_crv_vocus_sal_lactor" 1; F false "rad_crv_vower_ral_lactor" 1; F false "ftp_left_pos" 1; F false "ftp_right_pos" 1; 
  F false "ftp_pitch_pos" 1; F false "ftp_roll_pos" 1; F false "min_mod_pct" 1; I false true 4 "max_inten"; I false true 2 "ring_of_fire"; Reserved 1; 
  I false false 1 "rc_orientation"; F false "rc_distance" 1; F false "rc_angle" 1; F false "rc_diameter" 1; I true true 2 "rem_fringes_mode"; Reserved 1; 
  I false false 1 "ftpsi_phase_res"; I false true 2 "frames_acquired"; I false true 2 "cavity_type"; F false "cam_frame_rate" 1; F false "tune_range" 1; 
  I false true 2 "cal_pix_loc_x"; I false true 2 "cal_pix_loc_y"; I false true 2 "n_tst_cal_pts"; I false true 2 "n_ref_cal_pts"; 
  F false "tst_cal_pts" 4; F false "ref_cal_pts" 4; F false "tst_cal_pix_opd" 1; F false "ref_cal_pix_opd" 1; I false true 4 "sys_serial2"; 
  F false "flash_phase_dc_mask" 1; F false "flash_phase_alias_mask" 1; F false "flash_phase_filter" 1; I false false 1 "scan_direction"; Reserved 1; 
  I true true 2 "pre_fda_filter"; Reserved 4; I false true 4 "ftpsi_res_factor"; Reserved 8].
(** dat.py:187-252 (LAYOUT_HEADER_3) *)
Definition dat_header_3 : list entry := [
  Reserved 4; I true true 2 "films_mode"; I true true 2 "films_reflectivity_ratio"; F true "films_obliquity_correction" 1; 
  F true "films_refraction_index" 1; F true "films_min_mod" 1; F true "films_min_thickness" 1; F true "films_max_thickness" 1; 
  F true "films_min_refl_ratio" 1; F true "films_max_refl_ratio" 1; T "films_sys_char_file_name" 28; I true true 2 "films_dfmt"; 
  I true true 2 "films_merit_mode"; I true true 2 "films_h2g"; T "anti_vibration_cal_file_name" 28; Reserved 2; F true "films_fringe_remove_perc" 1; 
  T "asphere_job_file_name" 28; T "asphere_test_plan_name" 28; Reserved 4; F true "asphere_nzones" 1; F true "asphere_rv" 1; F true "asphere_voffset" 1; 
  F true "asphere_att4" 1; F true "asphere_r0" 1; F true "asphere_att6" 1; F true "asphere_r0_optimization" 1; F true "asphere_att8" 1; 
  F true "asphere_aperture_pct" 1; F true "asphere_optimized_r0" 1; I false true 2 "iff_state"; T "iff_idr_filename" 42; T "iff_ise_filename" 42; 
  Reserved 2; F true "asphere_eqn_r0" 1; F true "asphere_eqn_k" 1; F true "asphere_eqn_coef" 21; I false true 4 "awm_enable"; 
  F false "awm_vacuum_wavelength_nm" 1; F false "awm_air_wavelength_nm" 1; F false "awm_air_temperature_degc" 1; F false "awm_air_pressure_mmhg" 1; 
  F false "awm_air_rel_humidity_pct" 1; F false "awm_air_quality" 1; F false "awm_input_power_mw" 1; I true true 4 "asphere_optimizations"; 
  I true true 4 "asphere_optimization_mode"; F true "asphere_optimized_k" 1; Reserved 2; I true true 2 "n_fiducials_b"; F true "fiducials_b" 14; 
  Reserved 2; I true true 2 "n_fiducials_c"; F true "fiducials_c" 14; Reserved 2; I true true 2 "n_fiducials_d"; F true "fiducials_d" 14; 
  F false "gpi_enc_zoom_mag" 1; F true "asphere_max_distortion" 1; F true "asphere_distortion_uncert" 1; T "field_stop_name" 12; T "apert_stop_name" 12; 
  T "illum_filt_name" 12; Reserved 2606].

(** dat.py:8-17: magic, header format, header size *)
Definition dat_magics : list bytes := [[136; 27; 3; 111]; [136; 27; 3; 112]; [136; 27; 3; 113]].
(** the check of magic, format and size, dat.py:256-275 *)
Definition dat_valid (m : bytes) (format size : Z) : bool :=
  (zs_eqb m [136; 27; 3; 111] && (format =? 1) && (size =? 834)) ||
  (zs_eqb m [136; 27; 3; 112] && (format =? 2) && (size =? 834)) ||
  (zs_eqb m [136; 27; 3; 113] && (format =? 3) && (size =? 4096)).
(** dat.py:25-29 (RESOLUTION_MAP) *)
Definition dat_resolution (k : Z) : res Z := if k =? 1 then Ok 4096 else if k =? 2 then Ok 32768 else if k =? 3 then Ok 131072 else Err KeyError.
(** the decimal number in the name of a layer *)
Definition digits (n : nat) : string := NilEmpty.string_of_uint (Nat.to_uint n).
(** dat.py:273-282: the intensity images; a pixel is a one-element list *)
Definition dat_images (w hh k range : Z) (h : fh) : res (image_layers * fh) :=
  rbind (read_items 2 (w * hh * k) h) (fun '(its, h1) =>
  let px := map (as_int true false 2) its in
  rbind (if 1 <? k then
           rmap (fun m => map (fun c => (String.append "Intensity_" (digits c), map (map (fun p => [nth c p 0])) m)) (seq 0 (Z.to_nat k)))
             (reshape3 (Z.to_nat hh) (Z.to_nat w) (Z.to_nat k) px)
         else rmap (fun m => [("Intensity", map (map (fun v => [v])) m)]) (reshape (Z.to_nat hh) (Z.to_nat w) px)) (fun layers =>
  if existsb (fun v => range <? v) px then Err CorruptedFileError else Ok (layers, h1))).
(** dat.py:288-293: one code as a height in micrometres *)
Definition dat_height (s wl ob : f64) (r : Z) (code : Z) : f64 :=
  let phase := if 2147483640 <=? code then nan64 else f64_of_Z code in
  fmul (fdiv (fmul (fmul (fmul phase s) wl) ob) (f64_of_Z r)) (pow10 6).
(** dat.py:255-300 (read_dat).  The texts of the header are decoded as utf-8 whatever the encoding argument says. *)
Definition read_dat (en : encoding) (images : bool) (h : fh) : res (raw * image_layers) :=
  let '(m, h1) := fread 4 h in
  if negb (existsb (zs_eqb m) dat_magics) then Err CorruptedFileError else
  rbind (read_layout Utf8 dat_header h1) (fun '(d, h2) =>
  rbind (hint d "header_format") (fun format =>
  rbind (hint d "header_size") (fun size =>
  if negb (dat_valid m format size) then Err CorruptedFileError else
  rbind (if format =? 3 then rmap snd (read_layout Utf8 dat_header_3 h2) else Ok h2) (fun h3 =>
  rbind (hint d "ac_width") (fun aw =>
  rbind (hint d "ac_height") (fun ah =>
  rbind (hint d "ac_n_buckets") (fun ak =>
  rbind (hint d "ac_n_bytes") (fun an =>
  rbind (hint d "ac_range") (fun ar =>
  if negb (aw * ah * ak * 2 =? an) then Err CorruptedFileError else
  rbind (if (0 <? an) && images then dat_images aw ah ak ar h3 else Ok ([], fskip (Z.to_nat an) h3)) (fun '(layers, h4) =>
  rbind (hint d "cn_width") (fun w =>
  rbind (hint d "cn_height") (fun hh =>
  rbind (read_items 4 (w * hh) h4) (fun '(its, _) =>
  rbind (reshape (Z.to_nat hh) (Z.to_nat w) (map (as_int true true 4) its)) (fun tab =>
  rbind (hflt d "intf_scale_factor") (fun s =>
  rbind (hflt d "wavelength_in") (fun wl =>
  rbind (hflt d "obliquity_factor") (fun ob =>
  rbind (hint d "phase_res") (fun pr =>
  rbind (dat_resolution pr) (fun r =>
  rbind (hflt d "lateral_res") (fun lr =>
  let st := fmul lr (pow10 6) in
  Ok ({| rdata := map (map (dat_height s wl ob r)) tab; rstep_x := st; rstep_y := st |}, layers))))))))))))))))))))).
