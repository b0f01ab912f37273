(** Gwyddion files, as their format describes them: a tree of containers, each a name, a size in bytes and a sequence of named, typed
    components; and what such a tree means. *)
From Coq Require Import String ZArith List Bool.
From Flocq Require Import IEEE754.Binary IEEE754.Bits.
From Verif Require Import Base ModelBytes ModelUnits ModelSur ModelGwy SpecReaders.
Import ListNotations.
Local Open Scope list_scope.
Local Open Scope Z_scope.

(** the components of the format *)
Inductive node :=
| NBool (b : bool) | NChar (c : Z) | NInt (z : Z) | NLong (z : Z) | NFloat (x : f64) | NText (s : pystr) | NObject (o : object)
| NChars (l : bytes) | NInts (l : list Z) | NLongs (l : list Z) | NFloats (l : list f64) | NTexts (l : list pystr) | NObjects (l : list object)
with object := Object (name : pystr) (items : list (pystr * node)).

(** the letter that says what follows *)
Definition letter (n : node) : Z :=
  match n with
  | NBool _ => 98 | NChar _ => 99 | NInt _ => 105 | NLong _ => 113 | NFloat _ => 100 | NText _ => 115 | NObject _ => 111
  | NChars _ => 67 | NInts _ => 73 | NLongs _ => 81 | NFloats _ => 68 | NTexts _ => 83 | NObjects _ => 79
  end.
(** the bytes, given those of the texts *)
Section writing.
Variable enc : pystr -> bytes.
Definition text_bytes (s : pystr) : bytes := (enc s ++ [0])%list.
Definition count_bytes {A} (l : list A) : bytes := le 4 (Z.of_nat (length l)).
Fixpoint node_bytes (n : node) : bytes :=
  match n with
  | NBool b => [if b then 1 else 0]
  | NChar c => [c]
  | NInt z => le 4 (z mod 2 ^ 32)
  | NLong z => le 8 (z mod 2 ^ 64)
  | NFloat x => le 8 (bits_of_b64 x)
  | NText s => text_bytes s
  | NObject o => object_bytes o
  | NChars l => count_bytes l ++ l
  | NInts l => count_bytes l ++ flat_map (fun z => le 4 (z mod 2 ^ 32)) l
  | NLongs l => count_bytes l ++ flat_map (fun z => le 8 (z mod 2 ^ 64)) l
  | NFloats l => count_bytes l ++ flat_map (fun x => le 8 (bits_of_b64 x)) l
  | NTexts l => count_bytes l ++ flat_map text_bytes l
  | NObjects l => count_bytes l ++ flat_map object_bytes l
  end
with object_bytes (o : object) : bytes :=
  match o with
  | Object name items =>
    let body := flat_map (fun kv => text_bytes (fst kv) ++ [letter (snd kv)] ++ node_bytes (snd kv)) items in
    text_bytes name ++ le 4 (Z.of_nat (length body)) ++ body
  end.
Definition gwy_file (o : object) : bytes := (str "GWYP"%string ++ object_bytes o)%list.
Definition items_bytes (items : list (pystr * node)) : bytes :=
  flat_map (fun kv => text_bytes (fst kv) ++ [letter (snd kv)] ++ node_bytes (snd kv)) items.
(** what can be written: texts that the encoding reproduces, without a null, of at most 4095 bytes; numbers that fit; names that
    occur once in their container; counts and sizes below 2^32 *)
Variable en : encoding.
Definition text_fits (s : pystr) : Prop := decode en (enc s) = Ok s /\ ~ In 0 (enc s) /\ (length (enc s) <= 4095)%nat.
Definition small {A} (l : list A) : Prop := Z.of_nat (length l) < 2 ^ 32.
Inductive fits : node -> Prop :=
| fits_bool b : fits (NBool b)
| fits_char c : 0 <= c < 256 -> fits (NChar c)
| fits_int z : - 2 ^ 31 <= z < 2 ^ 31 -> fits (NInt z)
| fits_long z : - 2 ^ 63 <= z < 2 ^ 63 -> fits (NLong z)
| fits_float x : fits (NFloat x)
| fits_text s : text_fits s -> fits (NText s)
| fits_object o : object_fits o -> fits (NObject o)
| fits_chars l : small l -> Forall (fun c => 0 <= c < 256) l -> fits (NChars l)
| fits_ints l : small l -> Forall (fun z => - 2 ^ 31 <= z < 2 ^ 31) l -> fits (NInts l)
| fits_longs l : small l -> Forall (fun z => - 2 ^ 63 <= z < 2 ^ 63) l -> fits (NLongs l)
| fits_floats l : small l -> fits (NFloats l)
| fits_texts l : small l -> Forall text_fits l -> fits (NTexts l)
| fits_objects l : small l -> Forall object_fits l -> fits (NObjects l)
with object_fits : object -> Prop :=
| fits_Object name items : text_fits name -> Forall (fun kv => text_fits (fst kv) /\ fits (snd kv)) items ->
    NoDup (map fst items) -> small (items_bytes items) -> object_fits (Object name items).
End writing.
(** how deep containers are nested *)
Fixpoint nesting (o : object) : nat :=
  match o with
  | Object _ items => S (list_max (map (fun kv => node_nesting (snd kv)) items))
  end
with node_nesting (n : node) : nat :=
  match n with NObject o => nesting o | NObjects l => list_max (map nesting l) | _ => 0%nat end.
(** what the reader is to make of it *)
Fixpoint node_value (n : node) : gval :=
  match n with
  | NBool b => GBool b | NChar c => GChar c | NInt z | NLong z => GInt z | NFloat x => GFloat x | NText s => GStr s
  | NObject o => object_value o
  | NChars l => GChars l | NInts l | NLongs l => GInts l | NFloats l => GFloats l | NTexts l => GStrs l
  | NObjects l => GList (map object_value l)
  end
with object_value (o : object) : gval :=
  match o with Object name items => GDict [(name, GDict (map (fun kv => (fst kv, node_value (snd kv))) items))] end.

(** ** What a Gwyddion container says (C81) *)
(** the value under a key, and under a path of keys *)
Fixpoint entry (d : list (pystr * gval)) (k : pystr) : option gval :=
  match d with [] => None | (k', v) :: d' => if list_eq_dec Z.eq_dec k k' then Some v else entry d' k end.
Fixpoint inside (v : gval) (path : list pystr) : option gval :=
  match path with
  | [] => Some v
  | k :: p => match v with GDict d => match entry d k with Some x => inside x p | None => None end | _ => None end
  end.
(** "/n/data", "/n/mask", ... *)
Definition path_key (n : pystr) (rest : string) : pystr := 47 :: n ++ str rest.
Definition in_field (c : gval) (n : pystr) (p : list pystr) : option gval := inside c (path_key n "/data" :: str "GwyDataField" :: p).
Definition field_unit (c : gval) (n : pystr) (which : string) : option gval := in_field c n [str which; str "GwySIUnit"; str "unitstr"].
(** a data field *)
Record channel := { f_data : list f64; f_nx : Z; f_ny : Z; f_x : f64; f_y : f64; f_uxy : pystr }.
Definition shows (c : gval) (n : pystr) (f : channel) : Prop :=
  in_field c n [str "data"] = Some (GFloats (f_data f)) /\ in_field c n [str "xres"] = Some (GInt (f_nx f)) /\
  in_field c n [str "yres"] = Some (GInt (f_ny f)) /\ in_field c n [str "xreal"] = Some (GFloat (f_x f)) /\
  in_field c n [str "yreal"] = Some (GFloat (f_y f)) /\ field_unit c n "si_unit_xy" = Some (GStr (f_uxy f)).
(** a key belongs to channel n if the first "/digits/" in it is "/n/" *)
Definition digit (c : Z) : Prop := 48 <= c <= 57.
Definition matches (key a n b : pystr) : Prop := key = a ++ [47] ++ n ++ [47] ++ b /\ n <> [] /\ Forall digit n.
Definition belongs (key n : pystr) : Prop :=
  exists a b, matches key a n b /\ forall a' n' b', matches key a' n' b' -> (length a <= length a')%nat.
Definition numbered (c : gval) (n : pystr) : Prop := exists d k v, c = GDict d /\ In (k, v) d /\ belongs k n.
(** the units of length, as they must be spelled *)
Definition length_units : list pystr :=
  map str ["m"; "meter"; "dm"; "decimeter"; "cm"; "centimeter"; "mm"; "millimeter"; "um"; "micrometer"; "nm"; "nanometer"; "pm"; "picometer"]%string.
Definition candidate (c : gval) (n : pystr) : Prop :=
  numbered c n /\ exists u, field_unit c n "si_unit_z" = Some (GStr u) /\ In u length_units.
(** a title that speaks of heights *)
Definition has_part (p s : pystr) : Prop := exists a b, s = a ++ p ++ b.
Definition topographic (lower : pystr -> pystr) (c : gval) (n : pystr) : Prop :=
  exists t, inside c [path_key n "/data/title"] = Some (GStr t) /\ (has_part (str "height") (lower t) \/ has_part (str "topo") (lower t)).
(** the value of a decimal number *)
Definition decimal (s : pystr) : Z := fold_left (fun a c => 10 * a + (c - 48)) s 0.
Definition plain_decimal (s : pystr) : Prop := Forall digit s /\ s <> [] /\ (s = [48] \/ forall t, s <> 48 :: t).
Definition only {A} (P : A -> Prop) (x : A) : Prop := P x /\ forall y, P y -> y = x.
Definition several {A} (P : A -> Prop) : Prop := exists x y, P x /\ P y /\ x <> y.
(** of several candidates, those whose title speaks of heights, if there are any *)
Definition preferred (lower : pystr -> pystr) (c : gval) (n : pystr) : Prop :=
  candidate c n /\ (topographic lower c n \/ forall m, candidate c m -> ~ topographic lower c m).
(** the channel taken for the heights: the only candidate, the only preferred one, or the preferred one with the lowest number *)
Definition chosen (lower : pystr -> pystr) (c : gval) (k : pystr) : Prop :=
  only (candidate c) k \/
  (several (candidate c) /\
    (only (preferred lower c) k \/
     (several (preferred lower c) /\ plain_decimal k /\ exists n, preferred lower c n /\ decimal k = decimal n /\ forall m, preferred lower c m -> decimal n <= decimal m))).
(** a masked point: the mask of the channel is not zero there *)
Definition masked (c : gval) (n : pystr) (i : nat) : Prop :=
  exists m x, inside c [path_key n "/mask"; str "GwyDataField"; str "data"] = Some (GFloats m) /\ nth_error m i = Some x /\ forall b, x <> Binary.B754_zero 53 1024 b.
(** what must hold of all channels for any to be found: a data field, whose z unit, if any, is a text or a number; and, if several
    have a length as z unit, they all have a title *)
Definition scalar (v : gval) : Prop := match v with GStr _ | GBool _ | GChar _ | GInt _ | GFloat _ => True | _ => False end.
Definition unit_readable (c : gval) (n : pystr) : Prop :=
  exists d, in_field c n [] = Some (GDict d) /\ (in_field c n [str "si_unit_z"] = None \/ exists u, field_unit c n "si_unit_z" = Some u /\ scalar u).
Definition titled (c : gval) (n : pystr) : Prop := exists t, inside c [path_key n "/data/title"] = Some (GStr t).
Definition searchable (c : gval) : Prop :=
  (exists d, c = GDict d) /\ (forall n, numbered c n -> unit_readable c n) /\ (several (candidate c) -> forall n, candidate c n -> titled c n).
(** the heights a container describes: those of the chosen channel, times the factor of its z unit, without the masked ones *)
Definition mask_fits (c : gval) (k : pystr) (n : nat) : Prop :=
  inside c [path_key k "/mask"] = None \/ exists m, inside c [path_key k "/mask"; str "GwyDataField"; str "data"] = Some (GFloats m) /\ length m = n.
Definition meta_fits (c : gval) (k : pystr) : Prop :=
  inside c [path_key k "/meta"] = None \/ exists d, inside c [path_key k "/meta"; str "GwyContainer"] = Some (GDict d).
Definition heights_of (lower : pystr -> pystr) (c : gval) (k : pystr) (f : channel) (s : raw) : Prop :=
  searchable c /\ chosen lower c k /\ shows c k f /\ 0 < f_nx f /\ 0 < f_ny f /\ length (f_data f) = (Z.to_nat (f_ny f) * Z.to_nat (f_nx f))%nat /\
  mask_fits c k (length (f_data f)) /\ meta_fits c k /\
  exists uz ez exy, field_unit c k "si_unit_z" = Some (GStr uz) /\
    conversion_exponent lower uz (str "um") = Ok ez /\ conversion_exponent lower (f_uxy f) (str "um") = Ok exy /\
    rstep_x s = fmul (fdiv (f_x f) (f64_of_Z (f_nx f))) (pow10 exy) /\ rstep_y s = fmul (fdiv (f_y f) (f64_of_Z (f_ny f))) (pow10 exy) /\
    table_is (rdata s) (Z.to_nat (f_ny f)) (Z.to_nat (f_nx f)) (fun i j x =>
      let p := (i * Z.to_nat (f_nx f) + j)%nat in
      (masked c k p -> x = nan64) /\ (~ masked c k p -> exists v, nth_error (f_data f) p = Some v /\ x = fmul v (pow10 ez))).
(** an image layer: a channel without a z unit, of the size and lateral unit of the heights *)
Definition layer_readable (c : gval) (f : channel) (n : pystr) : Prop :=
  exists t data nx ny u, inside c [path_key n "/data/title"] = Some (GStr t) /\ in_field c n [str "data"] = Some (GFloats data) /\
    in_field c n [str "xres"] = Some (GInt nx) /\ in_field c n [str "yres"] = Some (GInt ny) /\ field_unit c n "si_unit_xy" = Some (GStr u) /\
    (nx = f_nx f -> ny = f_ny f -> u = f_uxy f -> length data = (Z.to_nat ny * Z.to_nat nx)%nat).
Definition layer_of (c : gval) (f : channel) (n t : pystr) (m : list (list f64)) : Prop :=
  numbered c n /\ in_field c n [str "si_unit_z"] = None /\ inside c [path_key n "/data/title"] = Some (GStr t) /\
  in_field c n [str "xres"] = Some (GInt (f_nx f)) /\ in_field c n [str "yres"] = Some (GInt (f_ny f)) /\ field_unit c n "si_unit_xy" = Some (GStr (f_uxy f)) /\
  exists data, in_field c n [str "data"] = Some (GFloats data) /\ length data = (Z.to_nat (f_ny f) * Z.to_nat (f_nx f))%nat /\
    table_is m (Z.to_nat (f_ny f)) (Z.to_nat (f_nx f)) (fun i j x => nth_error data (i * Z.to_nat (f_nx f) + j) = Some x).
