(** Numbers and tables in a byte string, written down without the reader's machinery: a file is a list of bytes, a field
    is given by its byte offset. *)
From Coq Require Import ZArith List Reals.
From Flocq Require Import IEEE754.Binary IEEE754.Bits.
From Verif Require Import Base ModelBytes ModelSur.
Import ListNotations.
Local Open Scope Z_scope.

Definition byte (b : bytes) (o : nat) : Z := nth o b 0.
(** unsigned little-endian and big-endian integers of n bytes at offset o *)
Fixpoint uint (n : nat) (b : bytes) (o : nat) : Z :=
  match n with O => 0 | S n' => byte b o + 256 * uint n' b (S o) end.
Fixpoint uint_be (n : nat) (b : bytes) (o : nat) : Z :=
  match n with O => 0 | S n' => 256 * uint_be n' b o + byte b (o + n') end.
Definition u16 b o := uint 2 b o.
Definition u32 b o := uint 4 b o.
(** two's complement *)
Definition two_compl (bits v : Z) : Z := if v <? 2 ^ (bits - 1) then v else v - 2 ^ bits.
Definition i16 b o := two_compl 16 (uint 2 b o).
Definition i32 b o := two_compl 32 (uint 4 b o).
(** IEEE-754 numbers *)
Definition f32_at b o : f32 := b32_of_bits (uint 4 b o).
Definition f64_at b o : f64 := b64_of_bits (uint 8 b o).
(** a single as a double (exact) *)
Definition single_at b o : f64 := f64_of_f32 (f32_at b o).
(** a file *)
Definition is_file (b : bytes) : Prop := Forall (fun x => 0 <= x < 256) b.
(** ny rows of nx heights *)
Definition grid {A} (ny nx : nat) (v : nat -> nat -> A) : list (list A) :=
  map (fun i => map (fun j => v i j) (seq 0 nx)) (seq 0 ny).
(** the real value of a finite double / single *)
Definition val (x : f64) : R := B2R 53 1024 x.
Definition val32 (x : f32) : R := B2R 24 128 x.
(** a table of ny rows and nx columns whose entry (i, j) satisfies P i j *)
Definition table_is {A} (m : list (list A)) (ny nx : nat) (P : nat -> nat -> A -> Prop) : Prop :=
  length m = ny /\
  forall i, (i < ny)%nat -> exists row, nth_error m i = Some row /\ length row = nx /\
    forall j, (j < nx)%nat -> exists h, nth_error row j = Some h /\ P i j h.
(** a file opened for reading *)
Definition opened (b : bytes) : fh := {| contents := b; pos := 0 |}.
