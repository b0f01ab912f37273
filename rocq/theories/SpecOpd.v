(** What an OPD file says: a directory of 24-byte entries at byte 2 (the first entry describes the directory itself), and behind
    it the blocks, one after the other, in directory order. *)
From Coq Require Import String ZArith List Reals.
From Flocq Require Import IEEE754.Binary IEEE754.Bits.
From Verif Require Import Base ModelBytes ModelSur ModelFormats SpecReaders.
Import ListNotations.
Local Open Scope Z_scope.

Definition entry_at (k : nat) : nat := (2 + 24 * k)%nat.
(** number of entries, the directory itself included *)
Definition entries (b : bytes) : nat := Z.to_nat (i32 b 20 / 24).
(** name (without trailing zeros), type and size of entry k *)
Definition entry_name (en : encoding) (b : bytes) (k : nat) : pystr :=
  match decode en (firstn 16 (skipn (entry_at k) b)) with Ok s => rstrip (fun c => c =? 0) s | Err _ => [] end.
Definition entry_type (b : bytes) (k : nat) : Z := i16 b (entry_at k + 16).
Definition entry_size (b : bytes) (k : nat) : Z := i32 b (entry_at k + 18).
(** where the contents of entry k begin *)
Fixpoint sizes_upto (b : bytes) (k : nat) : Z := match k with O => 0 | S k' => sizes_upto b k' + (if Nat.eqb k' 0 then 0 else entry_size b k') end.
Definition entry_offset (b : bytes) (k : nat) : Z := Z.of_nat (entry_at (entries b)) + sizes_upto b k.
Definition names_distinct (en : encoding) (b : bytes) : Prop :=
  forall j k, (1 <= j < k)%nat -> (k < entries b)%nat -> entry_name en b j <> entry_name en b k.
(** the numbers of the header *)
Definition number_at (t : Z) (b : bytes) (o : nat) : f64 :=
  if t =? 6 then f64_of_Z (i16 b o) else if t =? 7 then single_at b o else if t =? 8 then f64_at b o else f64_of_Z (i32 b o).
Definition number_type (t : Z) : Prop := t = 6 \/ t = 7 \/ t = 8 \/ t = 12.
(** x is the number called nm in the file, or 1 if there is no such number *)
Definition labelled (en : encoding) (b : bytes) (nm : string) (x : f64) : Prop :=
  (exists k, (1 <= k < entries b)%nat /\ entry_name en b k = str nm /\ number_type (entry_type b k) /\ 0 <= entry_offset b k /\
     x = number_at (entry_type b k) b (Z.to_nat (entry_offset b k))) \/
  ((forall k, (1 <= k < entries b)%nat -> entry_name en b k = str nm -> ~ number_type (entry_type b k)) /\ x = f64_of_Z 1).
(** one point of k bytes at p: 32767 and the single nearest to 1e38 are unmeasured points *)
Definition point_at (k : nat) (scale : f64) (b : bytes) (p : nat) : f64 :=
  match k with
  | 1%nat => fmul (f64_of_Z (byte b p)) scale
  | 2%nat => if i16 b p =? 32767 then nan64 else fmul (f64_of_Z (i16 b p)) scale
  | _ => match b32_compare (f32_at b p) (f32_of_f64 (pow10 38)) with Some Eq => nan64 | _ => fmul (single_at b p) scale end
  end.
