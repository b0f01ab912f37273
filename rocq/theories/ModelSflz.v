(** The native format of the library: surfalize/file/sflz.py. *)
From Coq Require Import String Ascii ZArith Lia Bool Reals.
From Coq Require Import List.
From Flocq Require Import IEEE754.BinarySingleNaN IEEE754.Binary IEEE754.Bits.
From Verif Require Import Base ModelBytes ModelUnits ModelSur ModelFormats.
Import ListNotations.
Local Open Scope Z_scope.

(** The numpy dtypes that occur: little-endian integers and floats.  np.dtype(dt).str, itemsize, np.iinfo(dt).min/max *)
Inductive dtype := U (n : nat) | I (n : nat) | F4 | F8.       (* n = item size: 1, 2, 4 or 8 *)
Definition dsize (dt : dtype) : nat := match dt with U n | I n => n | F4 => 4 | F8 => 8 end.
(** np.dtype(dt).str, sflz.py:136, 152 *)
Definition dstr (dt : dtype) : pystr :=
  let n := dsize dt in
  [if Nat.eqb n 1 then 124 else 60; match dt with U _ => 117 | I _ => 105 | F4 | F8 => 102 end; 48 + Z.of_nat n].
(** the dtypes the model knows *)
Definition dtypes : list dtype := [U 1; U 2; U 4; U 8; I 1; I 2; I 4; I 8; F4; F8].
(** np.dtype(s); anything else raises (other spellings of dtypes are not modelled) *)
Fixpoint dfind (s : pystr) (l : list dtype) : res dtype :=
  match l with [] => Err TypeError | dt :: l' => if zs_eqb s (dstr dt) then Ok dt else dfind s l' end.
(** np.dtype(s), sflz.py:77 *)
Definition dparse (s : pystr) : res dtype := dfind s dtypes.
(** dtype.kind in ['i', 'u'], sflz.py:111 *)
Definition is_int (dt : dtype) : bool := match dt with U _ | I _ => true | _ => false end.
(** np.iinfo(dt).min, sflz.py:87 *)
Definition dmin (dt : dtype) : Z := match dt with I n => - 2 ^ (8 * Z.of_nat n - 1) | _ => 0 end.
(** np.iinfo(dt).max, sflz.py:88 *)
Definition dmax (dt : dtype) : Z :=
  match dt with U n => 2 ^ (8 * Z.of_nat n) - 1 | I n => 2 ^ (8 * Z.of_nat n - 1) - 1 | _ => 0 end.

(** ndarray.min() / max(): NaN if any element is NaN *)
Definition amin (s : raw) : f64 := if has_missing s then nan64 else nanmin s.
(** ndarray.max(), sflz.py:114: NaN if any element is NaN *)
Definition amax (s : raw) : f64 := if has_missing s then nan64 else nanmax s.
(** sflz.py:116-117 *)
Definition scale_height (dt : dtype) (lo hi x : f64) : f64 :=
  fadd (fmul (fdiv (fsub x lo) (fsub hi lo)) (f64_of_Z (dmax dt - dmin dt))) (f64_of_Z (dmin dt)).
(** sflz.py:84-85 *)
Definition unscale_height (dt : dtype) (lo hi : f64) (n : Z) : f64 :=
  fadd (fmul (fdiv (fadd (f64_of_Z n) (f64_of_Z (dmin dt))) (f64_of_Z (dmax dt - dmin dt))) (fsub hi lo)) lo.

(** zlib and lzma *)
Record codecs := { c_zlib : zlib; c_lzma : zlib }.
(** COMPRESSION_TYPE_FROM_INT[data], sflz.py:8-12, 18-19 *)
Definition cname (i : Z) : res pystr :=
  if i =? 0 then Ok (str "none") else if i =? 1 then Ok (str "zlib") else if i =? 2 then Ok (str "lzma") else Err KeyError.
(** INT_FROM_COMPRESSION_TYPE[data], sflz.py:14, 21-22 *)
Definition cnum (s : pystr) : res Z :=
  if zs_eqb s (str "none") then Ok 0 else if zs_eqb s (str "zlib") then Ok 1 else if zs_eqb s (str "lzma") then Ok 2 else Err KeyError.
(** sflz.py:8-23 (ConvertCompression) *)
Definition cread (v : pyval) : res pyval := match v with VInt i => rmap VStr (cname i) | _ => Err KeyError end.
(** sflz.py:21-22 (ConvertCompression.write) *)
Definition cwrite (v : pyval) : res pyval := match v with VStr s => rmap VInt (cnum s) | _ => Err KeyError end.
(** sflz.py:47-61 (compress, decompress); the name is one of the three, otherwise the header is not written *)
Definition ccompress (c : codecs) (name : pystr) (b : bytes) : bytes :=
  if zs_eqb name (str "zlib") then compress (c_zlib c) b else if zs_eqb name (str "lzma") then compress (c_lzma c) b else b.
(** sflz.py:55-61 (decompress) *)
Definition cdecompress (c : codecs) (name : pystr) (b : bytes) : res bytes :=
  if zs_eqb name (str "zlib") then decompress (c_zlib c) b else if zs_eqb name (str "lzma") then decompress (c_lzma c) b else Ok b.

(** sflz.py:26-36 *)
Definition sflz_layout : list entry := [
  E "version" (FStr 10); E "step_x" FF64; E "step_y" FF64; E "scaled" FBool; E "min_value" FF64; E "max_value" FF64;
  E "num_layers" fmt_H; E "num_metadata" fmt_H; Entry "compression_algorithm" (Convert fmt_B cread cwrite)].
(** sflz.py:38-46 *)
Definition layer_layout : list entry := [
  E "name_length" fmt_H; Entry "name" (FromPrev "name_length"); E "width" fmt_I; E "height" fmt_I; E "channels" fmt_B;
  E "datatype" (FStr 3); E "size" fmt_I].

(** an image layer: name, shape, dtype and the C-ordered bytes of the array *)
Record layer := { lname : pystr; lshape : list nat; ldt : dtype; lbytes : bytes }.
(** sflz.py:96-123: the header dictionary *)
Definition sflz_header (s : raw) (n_layers n_meta : Z) (comp : pystr) (dt : dtype) : dict :=
  [("version", VStr (ljust 10 (str "1.0"))); ("step_x", VFloat (rstep_x s)); ("step_y", VFloat (rstep_y s));
   ("num_layers", VInt n_layers); ("num_metadata", VInt n_meta); ("compression_algorithm", VStr comp);
   ("scaled", VBool (is_int dt));
   ("min_value", if is_int dt then VFloat (amin s) else VInt 0); ("max_value", if is_int dt then VFloat (amax s) else VInt 0)]%string.
(** the header of one layer, sflz.py:130-138, 146-154 *)
Definition layer_header (name : pystr) (w h ch : Z) (dt : dtype) (size : Z) : dict :=
  [("name_length", VInt (zlen name)); ("name", VStr name); ("width", VInt w); ("height", VInt h); ("channels", VInt ch);
   ("datatype", VStr (dstr dt)); ("size", VInt size)]%string.
(** sflz.py:116-117, 126: data.astype(dtype).tobytes(); [cast] is the float-to-integer conversion of numpy *)
Definition store (cast : dtype -> f64 -> Z) (dt : dtype) (s : raw) : bytes :=
  let data := concat (rdata s) in
  match dt with
  | F8 => f64_tobytes data
  | F4 => f32_tobytes (map f32_of_f64 data)
  | _ => int_tobytes (dsize dt) (map (fun x => cast dt (scale_height dt (amin s) (amax s) x)) data)
  end.
(** sflz.py:138-157: one layer; fewer than two dimensions raise IndexError *)
Definition write_layer (c : codecs) (comp : pystr) (l : layer) : res bytes :=
  match lshape l with
  | h :: w :: rest =>
    let data := ccompress c comp (lbytes l) in
    let ch := match rest with [] => 1 | _ => Z.of_nat (last rest 0%nat) end in
    rmap (fun head => head ++ data)
      (write_layout Utf8 (layer_header (lname l) (Z.of_nat w) (Z.of_nat h) ch (ldt l) (zlen data)) layer_layout)
  | _ => Err IndexError
  end.
(** the loop over the image layers, sflz.py:142-157 *)
Fixpoint write_layers (c : codecs) (comp : pystr) (l : list layer) : res bytes :=
  match l with [] => Ok [] | x :: l' => rbind (write_layer c comp x) (fun b => rmap (app b) (write_layers c comp l')) end.
(** sflz.py:95-157 (write_sflz); data.min() of an empty array raises *)
Definition write_sflz (c : codecs) (cast : dtype -> f64 -> Z) (s : raw) (layers : list layer) (n_meta : Z) (comp : pystr)
  (save_layers : bool) (dt : dtype) : res bytes :=
  if is_int dt && Nat.eqb (rows s * cols s) 0 then Err ValueError else
  let used := if save_layers then layers else [] in
  rbind (write_layout Utf8 (sflz_header s (1 + zlen used) n_meta comp dt) sflz_layout) (fun head =>
  let data := ccompress c comp (store cast dt s) in
  rbind (write_layout Utf8 (layer_header (str "topography") (Z.of_nat (cols s)) (Z.of_nat (rows s)) 1 dt (zlen data)) layer_layout) (fun lh =>
  rbind (write_layers c comp used) (fun rest =>
  Ok (str "SFLZ" ++ head ++ lh ++ data ++ rest)))).

(** what the reader returns: heights (None if the first layer is not the topography), steps, image layers *)
Record sflz := { sf_heights : option (list (list f64)); sf_step_x : f64; sf_step_y : f64; sf_layers : list layer }.
(** sflz.py:72-77: one layer as read: the items of the array *)
Definition read_layer (c : codecs) (comp : pystr) (h : fh) : res ((layer * fh)) :=
  rbind (read_layout Utf8 layer_layout h) (fun '(d, h1) =>
  rbind (hint d "size") (fun size =>
  let '(b, h2) := fread (Z.to_nat size) h1 in
  rbind (cdecompress c comp b) (fun data =>
  rbind (rbind (hstr d "datatype") dparse) (fun dt =>
  rbind (frombuffer (dsize dt) data) (fun items =>
  rbind (hint d "channels") (fun ch =>
  rbind (hint d "height") (fun hh =>
  rbind (hint d "width") (fun w =>
  rbind (hstr d "name") (fun name =>
  let shape := if 1 <? ch then [Z.to_nat hh; Z.to_nat w; Z.to_nat ch] else [Z.to_nat hh; Z.to_nat w] in
  if Nat.eqb (length items) (fold_right Nat.mul 1%nat shape)
  then Ok ({| lname := name; lshape := shape; ldt := dt; lbytes := data |}, h2) else Err ValueError))))))))).
(** sflz.py:78-87: the heights; three-dimensional data (foreign files only) is not modelled *)
Definition layer_heights (scaled : bool) (lo hi : f64) (l : layer) : res (list (list f64)) :=
  match lshape l with
  | [h; w] =>
    rbind (frombuffer (dsize (ldt l)) (lbytes l)) (fun items =>
    let vals := match ldt l with
      | F8 => if scaled then Err ValueError else Ok (map (fun b => b64_of_bits (unle b)) items)
      | F4 => if scaled then Err ValueError else Ok (map (fun b => f64_of_f32 (b32_of_bits (unle b))) items)
      | U n => Ok (map (fun b => if scaled then unscale_height (U n) lo hi (unle b) else f64_of_Z (unle b)) items)
      | I n => Ok (map (fun b => if scaled then unscale_height (I n) lo hi (to_signed n (unle b)) else f64_of_Z (to_signed n (unle b))) items)
      end in
    rbind vals (fun v => reshape h w v))
  | _ => Err (OtherError "three-dimensional heights")
  end.
(** image_layers[name] = data *)
Fixpoint lput (l : list layer) (x : layer) : list layer :=
  match l with [] => [x] | y :: l' => if zs_eqb (lname x) (lname y) then x :: l' else y :: lput l' x end.
(** the loop over the layers, sflz.py:73-92 *)
Fixpoint read_layers (c : codecs) (comp : pystr) (n : nat) (acc : list layer) (h : fh) : res (list layer) :=
  match n with O => Ok acc | S n' => rbind (read_layer c comp h) (fun '(x, h') => read_layers c comp n' (lput acc x) h') end.
(** header['scaled'], sflz.py:84 *)
Definition hbool (d : dict) (k : string) : res bool :=
  rbind (dkey d k) (fun v => match v with VBool b => Ok b | _ => Err TypeError end).
(** sflz.py:63-93 (read_sflz) *)
Definition read_sflz (c : codecs) (read_image_layers : bool) (h : fh) : res sflz :=
  let '(m, h1) := fread 4 h in
  if negb (zs_eqb m (str "SFLZ")) then Err ValueError else
  rbind (read_layout Utf8 sflz_layout h1) (fun '(d, h2) =>
  rbind (hstr d "compression_algorithm") (fun comp =>
  rbind (hint d "num_layers") (fun nl =>
  rbind (hflt d "step_x") (fun sx =>
  rbind (hflt d "step_y") (fun sy =>
  rbind (hbool d "scaled") (fun scaled =>
  rbind (hflt d "min_value") (fun lo =>
  rbind (hflt d "max_value") (fun hi =>
  match (if read_image_layers then Z.to_nat nl else 1%nat) with
  | O => Ok {| sf_heights := None; sf_step_x := sx; sf_step_y := sy; sf_layers := [] |}
  | S n =>
    rbind (read_layer c comp h2) (fun '(x, h3) =>
    rbind (if zs_eqb (lname x) (str "topography") then rmap Some (layer_heights scaled lo hi x) else Ok None) (fun heights =>
    rbind (read_layers c comp n (match heights with Some _ => [] | None => [x] end) h3) (fun ls =>
    Ok {| sf_heights := heights; sf_step_x := sx; sf_step_y := sy; sf_layers := ls |})))
  end)))))))).
