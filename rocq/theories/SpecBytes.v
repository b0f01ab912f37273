(** What a binary field can store, stated without reference to the encoder: [reads_back w r f v v'] says that the
    value v, written into a field of struct format f under encoding w, must come back as v' under encoding r. *)
From Coq Require Import String ZArith List.
From Flocq Require Import IEEE754.Binary.
From Verif Require Import Base ModelBytes.
Import ListNotations.
Local Open Scope Z_scope.

(** what was written with w can be read with r *)
Definition compatible (w r : encoding) : Prop :=
  (w = Utf8 /\ (r = Utf8 \/ r = Auto)) \/ (w = Latin1 /\ r = Latin1).
(** the string survives: its encoding fits the field and it does not end in a blank or NUL *)
Definition fits (w : encoding) (n : nat) (s : pystr) : Prop :=
  (exists b, encode w s = Ok b /\ (length b <= n)%nat) /\ forall s' c, s = s' ++ [c] -> c <> 32 /\ c <> 0.
(** the integers of a signed / unsigned field of n bytes *)
Definition int_fits (signed : bool) (n : nat) (z : Z) : Prop :=
  if signed then - 2 ^ (8 * Z.of_nat n - 1) <= z < 2 ^ (8 * Z.of_nat n - 1) else 0 <= z < 2 ^ (8 * Z.of_nat n).

Inductive reads_back (w r : encoding) : fmt -> pyval -> pyval -> Prop :=
| rb_int s n z : (0 < n)%nat -> int_fits s n z -> reads_back w r (FInt s n) (VInt z) (VInt z)
| rb_f64 x : reads_back w r FF64 (VFloat x) (VFloat x)
| rb_f64_int z : Binary.is_finite 53 1024 (f64_of_Z z) = true ->
    reads_back w r FF64 (VInt z) (VFloat (f64_of_Z z))
| rb_f32 x : (Binary.is_finite 53 1024 x = true -> Binary.is_finite 24 128 (f32_of_f64 x) = true) ->
    reads_back w r FF32 (VFloat x) (VFloat (f64_of_f32 (f32_of_f64 x)))
| rb_f32_int z : Binary.is_finite 53 1024 (f64_of_Z z) = true ->
    Binary.is_finite 24 128 (f32_of_f64 (f64_of_Z z)) = true ->
    reads_back w r FF32 (VInt z) (VFloat (f64_of_f32 (f32_of_f64 (f64_of_Z z))))
| rb_bool b : reads_back w r FBool (VBool b) (VBool b)
| rb_str n s : compatible w r -> fits w n s -> reads_back w r (FStr n) (VStr s) (VStr s)
| rb_str_trailing n s t b : compatible w r -> encode w (s ++ t) = Ok b -> (length b <= n)%nat ->   (* trailing blanks and NULs are lost *)
    Forall (fun c => c = 32 \/ c = 0) t -> (forall s' c, s = s' ++ [c] -> c <> 32 /\ c <> 0) ->
    reads_back w r (FStr n) (VStr (s ++ t)) (VStr s).

(** the header [d], written entry by entry, must be read back as [fin] (starting from the fields [acc] already
    read), using [size] bytes *)
Inductive storable (w r : encoding) (d : dict) : dict -> list entry -> dict -> nat -> Prop :=
| st_nil acc : storable w r d acc [] acc 0
| st_reserved n acc l fin k : storable w r d acc l fin k -> storable w r d acc (Reserved n :: l) fin (n + k)
| st_fixed name f v v' acc l fin k :
    dget d name = Some v -> reads_back w r f v v' -> storable w r d (dset acc name v') l fin k ->
    storable w r d acc (Entry name (Fixed f) :: l) fin (calcsize f + k)
| st_prev name p z v v' acc l fin k :
    dget d p = Some (VInt z) -> dget acc p = Some (VInt z) -> 0 <= z ->
    dget d name = Some v -> reads_back w r (FStr (Z.to_nat z)) v v' ->
    storable w r d (dset acc name v') l fin k ->
    storable w r d acc (Entry name (FromPrev p) :: l) fin (Z.to_nat z + k)
| st_conv name s n rd wr v x v' acc l fin k :
    dget d name = Some v -> wr v = Ok (VInt x) -> (0 < n)%nat -> int_fits s n x -> rd (VInt x) = Ok v' ->
    storable w r d (dset acc name v') l fin k ->
    storable w r d acc (Entry name (Convert (FInt s n) rd wr) :: l) fin (n + k).
