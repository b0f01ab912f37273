(** What a MetroPro file says: big-endian numbers at fixed offsets, the intensity images behind the header, the phase codes behind them. *)
From Coq Require Import ZArith List Bool.
From Flocq Require Import IEEE754.Binary IEEE754.Bits.
From Verif Require Import Base ModelBytes ModelSur SpecReaders.
Import ListNotations.
Local Open Scope Z_scope.

Definition U16 b o := uint_be 2 b o.
Definition U32 b o := uint_be 4 b o.
Definition I16 b o := two_compl 16 (uint_be 2 b o).
Definition I32 b o := two_compl 32 (uint_be 4 b o).
Definition Single b o : f64 := f64_of_f32 (b32_of_bits (uint_be 4 b o)).
(** the three kinds of header *)
Definition dat_kind (b : bytes) : Prop :=
  firstn 3 b = [136; 27; 3] /\
  ((byte b 3 = 111 /\ U16 b 4 = 1 /\ U32 b 6 = 834) \/ (byte b 3 = 112 /\ U16 b 4 = 2 /\ U32 b 6 = 834) \/ (byte b 3 = 113 /\ U16 b 4 = 3 /\ U32 b 6 = 4096)).
Definition dat_header_end (b : bytes) : nat := if U16 b 4 =? 3 then 4096%nat else 834%nat.
(** intensity images: ac_width, ac_height, ac_n_buckets, ac_range, ac_n_bytes *)
Definition ac_w b := Z.to_nat (U16 b 52).
Definition ac_h b := Z.to_nat (U16 b 54).
Definition ac_k b := Z.to_nat (U16 b 56).
Definition ac_bytes b := Z.to_nat (U32 b 60).
(** phase codes: cn_width, cn_height *)
Definition cn_w b := Z.to_nat (U16 b 68).
Definition cn_h b := Z.to_nat (U16 b 70).
Definition dat_start (b : bytes) : nat := (dat_header_end b + ac_bytes b)%nat.
(** the resolution belonging to phase_res *)
Definition dat_res (k : Z) : Z := if k =? 1 then 4096 else if k =? 2 then 32768 else 131072.
(** the text fields of the header: offset and length *)
Definition dat_texts : list (nat * nat) := [(12, 30); (80, 82); (246, 12); (258, 40); (320, 40); (398, 8); (408, 20); (534, 28); (562, 8); (590, 24); (614, 24)]%nat.
Definition dat_texts_3 : list (nat * nat) := [(870, 28); (904, 28); (938, 28); (966, 28); (1040, 42); (1082, 42); (1454, 12); (1466, 12); (1478, 12)]%nat.
Definition readable (b : bytes) (l : list (nat * nat)) : Prop := Forall (fun '(o, n) => is_ok (decode Utf8 (firstn n (skipn o b))) = true) l.
