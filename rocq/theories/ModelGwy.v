(** Gwyddion files: surfalize/file/gwy.py. *)
From Coq Require Import String Ascii ZArith NArith Lia Bool.
From Coq Require Import List.
From Flocq Require Import IEEE754.BinarySingleNaN IEEE754.Binary IEEE754.Bits.
From Verif Require Import Base ModelBytes ModelUnits ModelSur ModelFormats ModelReaders.
Import ListNotations.
Local Open Scope Z_scope.

(** gwy.py:8 (MAGIC) *)
Definition gwy_magic : bytes := str "GWYP".
(** gwy.py:10 (STR_MAX_SIZE) *)
Definition gwy_max : nat := 4096%nat.
(** gwy.py:28-35: byte by byte up to a null byte; at the end of the file read(1) is empty and the loop goes on doing nothing *)
Fixpoint until_nul (n : nat) (h : fh) : bytes * fh :=
  match n with
  | O => ([], h)
  | S n' =>
    let '(c, h1) := fread 1 h in
    match c with
    | [] => until_nul n' h1
    | x :: _ => if x =? 0 then ([], h1) else let '(s, h2) := until_nul n' h1 in (x :: s, h2)
    end
  end.
(** gwy.py:13-36 (read_null_terminated_string) *)
Definition gwy_string (en : encoding) (h : fh) : res (pystr * fh) :=
  let '(s, h1) := until_nul gwy_max h in rmap (fun t => (t, h1)) (decode en s).
(** what a file consists of once read: Python values, lists and dictionaries.  An array of int32 or int64 is GInts, of characters
    GChars. *)
Inductive gval :=
| GBool (b : bool) | GChar (c : Z) | GInt (z : Z) | GFloat (x : f64) | GStr (s : pystr)
| GChars (l : bytes) | GInts (l : list Z) | GFloats (l : list f64) | GStrs (l : list pystr)
| GDict (d : list (pystr * gval)) | GList (l : list gval).
(** d[k] = v *)
Fixpoint gput {A} (d : list (pystr * A)) (k : pystr) (v : A) : list (pystr * A) :=
  match d with [] => [(k, v)] | (k', v') :: d' => if zs_eqb k k' then (k, v) :: d' else (k', v') :: gput d' k v end.
(** d[k] of a dict, gwy.py:39-129 *)
Fixpoint gget {A} (d : list (pystr * A)) (k : pystr) : option A :=
  match d with [] => None | (k', v) :: d' => if zs_eqb k k' then Some v else gget d' k end.
(** struct.unpack('I', f.read(4))[0] *)
Definition gwy_count (h : fh) : res (Z * fh) :=
  let '(c, h1) := fread 4 h in if Nat.eqb (length c) 4 then Ok (unle c, h1) else Err StructError.
(** n strings, gwy.py:178 *)
Fixpoint gwy_strings (en : encoding) (n : nat) (h : fh) : res (list pystr * fh) :=
  match n with
  | O => Ok ([], h)
  | S n' => rbind (gwy_string en h) (fun '(s, h1) => rbind (gwy_strings en n' h1) (fun '(l, h2) => Ok (s :: l, h2)))
  end.
Section component.
(** reading a container (Container(f).read_contents()) *)
Variable container : fh -> res (gval * fh).
Variable en : encoding.
(** n containers, gwy.py:176 *)
Fixpoint gwy_objects (n : nat) (h : fh) : res (list gval * fh) :=
  match n with
  | O => Ok ([], h)
  | S n' => rbind (container h) (fun '(v, h1) => rbind (gwy_objects n' h1) (fun '(l, h2) => Ok (v :: l, h2)))
  end.
(** struct.unpack(code, f.read(size))[0], gwy.py:186-190 *)
Definition gwy_number (size : nat) (f : bytes -> gval) (h : fh) : res (gval * fh) :=
  let '(c, h1) := fread size h in if Nat.eqb (length c) size then Ok (f c, h1) else Err StructError.
(** gwy.py:181-190 (_read_atomic) for the codes of the format: o s b c i q d.  The other codes known to struct are errors here. *)
Definition gwy_atomic (t : Z) (h : fh) : res (gval * fh) :=
  if t =? 111 then container h
  else if t =? 115 then rmap (fun '(s, h1) => (GStr s, h1)) (gwy_string en h)
  else if t =? 98 then gwy_number 1 (fun c => GBool (negb (unle c =? 0))) h
  else if t =? 99 then gwy_number 1 (fun c => GChar (unle c)) h
  else if t =? 105 then gwy_number 4 (fun c => GInt (to_signed 4 (unle c))) h
  else if t =? 113 then gwy_number 8 (fun c => GInt (to_signed 8 (unle c))) h
  else if t =? 100 then gwy_number 8 (fun c => GFloat (b64_of_bits (unle c))) h
  else Err StructError.
(** gwy.py:173-179 (_read_array) for the codes of the format: O S C I Q D, given in lower case.  Other codes are errors here. *)
Definition gwy_array (t : Z) (h : fh) : res (gval * fh) :=
  rbind (gwy_count h) (fun '(n, h1) =>
  if t =? 111 then rmap (fun '(l, h2) => (GList l, h2)) (gwy_objects (Z.to_nat n) h1)
  else if t =? 115 then rmap (fun '(l, h2) => (GStrs l, h2)) (gwy_strings en (Z.to_nat n) h1)
  else if t =? 99 then rmap (fun '(l, h2) => (GChars (map unle l), h2)) (read_items 1 n h1)
  else if t =? 105 then rmap (fun '(l, h2) => (GInts (map (item_i 4) l), h2)) (read_items 4 n h1)
  else if t =? 113 then rmap (fun '(l, h2) => (GInts (map (item_i 8) l), h2)) (read_items 8 n h1)
  else if t =? 100 then rmap (fun '(l, h2) => (GFloats (map (fun c => b64_of_bits (unle c)) l), h2)) (read_items 8 n h1)
  else Err TypeError).
(** gwy.py:155-171 (Component): name, one character of type - upper case for an array -, contents.  At the end of the file the type is
    the empty string and unpacking it gives an empty tuple. *)
Definition gwy_component (h : fh) : res ((pystr * gval) * fh) :=
  rbind (gwy_string en h) (fun '(name, h1) =>
  let '(t, h2) := fread 1 h1 in
  rmap (fun '(v, h3) => ((name, v), h3))
    match t with
    | [] => Err IndexError
    | x :: _ => if 128 <=? x then Err UnicodeError
                else if (65 <=? x) && (x <=? 90) then gwy_array (x + 32) h2 else gwy_atomic x h2
    end).
(** gwy.py:144-150 (Container.read_contents): components until the position reaches [stop].  The last case is never reached (proved). *)
Fixpoint gwy_components (fuel : nat) (stop : Z) (acc : list (pystr * gval)) (h : fh) : res (list (pystr * gval) * fh) :=
  if Z.of_nat (pos h) <? stop then
    match fuel with
    | S n => rbind (gwy_component h) (fun '((k, v), h1) => gwy_components n stop (gput acc k v) h1)
    | O => Err (OtherError "unreachable")
    end
  else Ok (acc, h).
End component.
(** gwy.py:133-151 (Container): name, size in bytes, components.  [depth] is how many containers Python's stack lets one nest. *)
Fixpoint gwy_container (en : encoding) (depth : nat) (h : fh) : res (gval * fh) :=
  match depth with
  | O => Err (OtherError "RecursionError")
  | S d =>
    rbind (gwy_string en h) (fun '(name, h1) =>
    rbind (gwy_count h1) (fun '(size, h2) =>
    rmap (fun '(l, h3) => (GDict [(name, GDict l)], h3))
      (gwy_components (gwy_container en d) en (S (length (contents h2))) (Z.of_nat (pos h2) + size) [] h2)))
  end.

(** tree[k]; subscripting something else with a string fails *)
Definition gitem (v : gval) (k : pystr) : res gval :=
  match v with GDict d => match gget d k with Some x => Ok x | None => Err KeyError end | _ => Err TypeError end.
(** k in tree *)
Definition ghas (v : gval) (k : pystr) : res bool :=
  match v with GDict d => Ok (match gget d k with Some _ => true | None => false end) | _ => Err TypeError end.
(** re.search('/(\d+)/', key) of gwy.py:124; decimal digits other than 0-9 are left out *)
Definition is_digit (c : Z) : bool := (48 <=? c) && (c <=? 57).
(** \d+ of the pattern of gwy.py:124 *)
Fixpoint digit_run (s : pystr) : pystr * pystr :=
  match s with
  | c :: s' => if is_digit c then let '(d, r) := digit_run s' in (c :: d, r) else ([], s)
  | [] => ([], [])
  end.
(** re.search of gwy.py:124: the first slash, digits, slash *)
Fixpoint layer_number (s : pystr) : option pystr :=
  match s with
  | [] => None
  | c :: s' =>
    if c =? 47 then match digit_run s' with
                    | (d :: ds, r :: _) => if r =? 47 then Some (d :: ds) else layer_number s'
                    | _ => layer_number s'
                    end
    else layer_number s'
  end.
(** the keys /n/data, /n/data/title, /n/mask, /n/meta *)
Definition slash (k : pystr) (rest : string) : pystr := [47] ++ k ++ str rest.
(** equality of Python strings is decidable (no counterpart in the code) *)
Definition pystr_dec : forall a b : pystr, {a = b} + {a <> b} := list_eq_dec Z.eq_dec.
(** gwy.py:122-128 (get_image_related_layer_keys).  [order] is the order in which Python walks through the set. *)
Definition layer_keys (order : list pystr -> list pystr) (c : gval) : res (list pystr) :=
  match c with
  | GDict d => Ok (order (nodup pystr_dec (flat_map (fun '(k, _) => match layer_number k with Some n => [n] | None => [] end) d)))
  | _ => Err TypeError
  end.
(** int(key) and str(number) *)
Fixpoint uint_of (s : pystr) : Decimal.uint :=
  match s with
  | [] => Decimal.Nil
  | c :: s' =>
    let u := uint_of s' in
    if c =? 48 then Decimal.D0 u else if c =? 49 then Decimal.D1 u else if c =? 50 then Decimal.D2 u else if c =? 51 then Decimal.D3 u
    else if c =? 52 then Decimal.D4 u else if c =? 53 then Decimal.D5 u else if c =? 54 then Decimal.D6 u else if c =? 55 then Decimal.D7 u
    else if c =? 56 then Decimal.D8 u else Decimal.D9 u
  end.
(** the characters of a decimal numeral (str(number), gwy.py:78-103) *)
Fixpoint of_uint (u : Decimal.uint) : pystr :=
  match u with
  | Decimal.Nil => []
  | Decimal.D0 u => 48 :: of_uint u | Decimal.D1 u => 49 :: of_uint u | Decimal.D2 u => 50 :: of_uint u | Decimal.D3 u => 51 :: of_uint u
  | Decimal.D4 u => 52 :: of_uint u | Decimal.D5 u => 53 :: of_uint u | Decimal.D6 u => 54 :: of_uint u | Decimal.D7 u => 55 :: of_uint u
  | Decimal.D8 u => 56 :: of_uint u | Decimal.D9 u => 57 :: of_uint u
  end.
(** int(key), gwy.py:78-103 *)
Definition int_of (s : pystr) : N := N.of_uint (uint_of s).
(** str(number), gwy.py:78-103 *)
Definition str_of (n : N) : pystr := of_uint (N.to_uint n).
(** for every element of a list *)
Fixpoint rfilter {A} (f : A -> res bool) (l : list A) : res (list A) :=
  match l with
  | [] => Ok []
  | x :: l' => rbind (f x) (fun b => rbind (rfilter f l') (fun r => Ok (if b then x :: r else r)))
  end.
(** tree['GwyContainer']['/n/data']['GwyDataField'] *)
Definition data_field (c : gval) (k : pystr) : res gval := rbind (gitem c (slash k "/data")) (fun v => gitem v (str "GwyDataField")).
(** field['si_unit_z']['GwySIUnit']['unitstr'] *)
Definition unit_of (f : gval) (name : string) : res gval :=
  rbind (gitem f (str name)) (fun u => rbind (gitem u (str "GwySIUnit")) (fun u' => gitem u' (str "unitstr"))).
(** u in UNIT_EXPONENT.keys(): lists, dictionaries and arrays cannot be looked up *)
Definition is_length_unit (u : gval) : res bool :=
  match u with
  | GStr s => Ok (match lookup unit_table s with Some _ => true | None => false end)
  | GBool _ | GChar _ | GInt _ | GFloat _ => Ok false
  | _ => Err TypeError
  end.
(** gwy.py:39-46 (_filter_candidates_by_z_unit_presence): the units as they are, not sanitised *)
Definition has_length_unit (c : gval) (k : pystr) : res bool :=
  rbind (data_field c k) (fun f =>
  rbind (ghas f (str "si_unit_z")) (fun has =>
  if has then rbind (unit_of f "si_unit_z") is_length_unit else Ok false)).
(** substring *)
Fixpoint prefix_of (p s : pystr) : bool :=
  match p, s with [], _ => true | x :: p', y :: s' => (x =? y) && prefix_of p' s' | _, [] => false end.
(** guess in title, gwy.py:48-76 *)
Fixpoint contains (p s : pystr) : bool := prefix_of p s || match s with [] => false | _ :: s' => contains p s' end.
(** gwy.py:48-75 (_filter_candidates_by_name) *)
Definition title_of (c : gval) (k : pystr) : res gval := gitem c (slash k "/data/title").
(** gwy.py:48-76: the title of the channel contains one of the guesses *)
Definition sounds_like_height (lower : pystr -> pystr) (c : gval) (k : pystr) : res bool :=
  rbind (title_of c k) (fun t => match t with
  | GStr s => Ok (contains (str "height") (lower s) || contains (str "topo") (lower s))
  | _ => Err AttributeError end).
(** sorted(...)[0] *)
Definition lowest (l : list pystr) : N := match map int_of l with [] => 0%N | x :: r => fold_left N.min r x end.
(** gwy.py:78-113 (_filter_candidates_by_number, guess_height_channel) *)
Definition guess_height_channel (lower : pystr -> pystr) (c : gval) (keys : list pystr) : res pystr :=
  rbind (rfilter (has_length_unit c) keys) (fun l1 =>
  match l1 with
  | [] => Err UnsupportedFileFormatError
  | [k] => Ok k
  | _ => rbind (rfilter (sounds_like_height lower c) l1) (fun r =>
         let l2 := match r with [] => l1 | _ => r end in
         match l2 with [k] => Ok k | _ => Ok (str_of (lowest l2)) end)
  end).
(** values of a field, of the types the format gives them *)
Definition gint (v : gval) : res Z := match v with GInt z => Ok z | _ => Err TypeError end.
(** a field used as a number, gwy.py:216-269 *)
Definition gflt (v : gval) : res f64 := match v with GFloat x => Ok x | _ => Err TypeError end.
(** a field used as a string, gwy.py:216-269 *)
Definition gtext (v : gval) : res pystr := match v with GStr s => Ok s | _ => Err TypeError end.
(** an array of heights; arrays of integers, which numpy would convert, are an error here *)
Definition gfloats (v : gval) : res (list f64) := match v with GFloats l => Ok l | _ => Err TypeError end.
(** data[mask] = nan, where mask is an array converted to bool *)
Definition truthy (x : f64) : bool := match x with B754_zero _ _ _ => false | _ => true end.
(** the mask of a channel applied to the heights, gwy.py:216-269 *)
Definition gwy_mask (c : gval) (k : pystr) (data : list f64) : res (list f64) :=
  rbind (ghas c (slash k "/mask")) (fun has =>
  if has then
    rbind (gitem c (slash k "/mask")) (fun v => rbind (gitem v (str "GwyDataField")) (fun f => rbind (gitem f (str "data")) (fun dv => rbind (gfloats dv) (fun m =>
    if Nat.eqb (length m) (length data) then Ok (map (fun '(b, x) => if truthy b then nan64 else x) (combine m data)) else Err IndexError))))
  else Ok data).
(** gwy.py:242-244: a non-empty metadata container *)
Definition gwy_meta (c : gval) (k : pystr) : res unit :=
  rbind (ghas c (slash k "/meta")) (fun has =>
  if has then rbind (gitem c (slash k "/meta")) (fun v => rbind (gitem v (str "GwyContainer")) (fun m => match m with GDict _ => Ok tt | _ => Err TypeError end))
  else Ok tt).
(** gwy.py:115-119, 246-261: channels without a z unit, of the size and lateral unit of the surface *)
Definition float_layers := list (pystr * list (list f64)).
(** the loop over the image channels, gwy.py:246-261 *)
Fixpoint gwy_images (c : gval) (nx ny : Z) (uxy : pystr) (keys : list pystr) (acc : float_layers) : res float_layers :=
  match keys with
  | [] => Ok acc
  | k :: keys' =>
    rbind (data_field c k) (fun f =>
    rbind (rbind (title_of c k) gtext) (fun title =>
    rbind (rbind (gitem f (str "data")) gfloats) (fun data =>
    rbind (rbind (unit_of f "si_unit_xy") gtext) (fun u =>
    rbind (rbind (gitem f (str "xres")) gint) (fun w =>
    rbind (rbind (gitem f (str "yres")) gint) (fun hh =>
    if negb (w =? nx) || negb (hh =? ny) || negb (zs_eqb u uxy) then gwy_images c nx ny uxy keys' acc
    else rbind (reshape_z ny nx data) (fun m => gwy_images c nx ny uxy keys' (gput acc title m))))))))
  end.
(** gwy.py:215-269 (read_gwy).  [depth]: recursion limit, [order]: iteration order of a Python set of strings (it changes from run to run),
    [lower]: str.lower. *)
Definition gwy_surface (lower : pystr -> pystr) (order : list pystr -> list pystr) (images : bool) (tree : gval) : res (raw * float_layers) :=
  rbind (gitem tree (str "GwyContainer")) (fun c =>
  rbind (layer_keys order c) (fun keys =>
  rbind (guess_height_channel lower c keys) (fun k =>
  rbind (data_field c k) (fun f =>
  rbind (rbind (gitem f (str "data")) gfloats) (fun data =>
  rbind (rbind (unit_of f "si_unit_xy") gtext) (fun uxy =>
  rbind (rbind (unit_of f "si_unit_z") gtext) (fun uz =>
  rbind (rbind (gitem f (str "xreal")) gflt) (fun xreal =>
  rbind (rbind (gitem f (str "yreal")) gflt) (fun yreal =>
  rbind (rbind (gitem f (str "xres")) gint) (fun nx =>
  rbind (rbind (gitem f (str "yres")) gint) (fun ny =>
  rbind (unit_factor lower uxy) (fun fxy =>
  if (nx =? 0) || (ny =? 0) then Err ZeroDivisionError else
  let sx := fmul (fdiv xreal (f64_of_Z nx)) fxy in
  let sy := fmul (fdiv yreal (f64_of_Z ny)) fxy in
  rbind (unit_factor lower uz) (fun fz =>
  rbind (gwy_mask c k (map (fun x => fmul x fz) data)) (fun data' =>
  rbind (reshape_z ny nx data') (fun m =>
  rbind (gwy_meta c k) (fun _ =>
  rbind (if images then rbind (rfilter (fun k => rbind (data_field c k) (fun f => rmap negb (ghas f (str "si_unit_z")))) keys)
                          (fun ks => gwy_images c nx ny uxy ks [])
         else Ok []) (fun layers =>
  Ok ({| rdata := m; rstep_x := sx; rstep_y := sy |}, layers)))))))))))))))))).
(** gwy.py:215-269 (read_gwy) *)
Definition read_gwy (lower : pystr -> pystr) (order : list pystr -> list pystr) (depth : nat) (en : encoding) (images : bool) (h : fh)
  : res (raw * float_layers) :=
  let '(m, h1) := fread 4 h in
  if negb (zs_eqb m gwy_magic) then Err (OtherError "FileFormatError") else
  rbind (gwy_container en depth h1) (fun '(tree, _) => gwy_surface lower order images tree).
