(** Concrete files for the instrument readers: the hypotheses of C74-C77 are met, and what the readers return on them. *)
From Coq Require Import String Ascii ZArith Lia Bool Reals Lra.
From Coq Require Import List.
From Flocq Require Import IEEE754.BinarySingleNaN IEEE754.Binary IEEE754.Bits.
From Verif Require Import Base ModelBytes ModelSur ModelFormats ModelReaders SpecReaders ProofReaders PropsReaders PropsNms ProofFloat.
Import ListNotations.
Local Open Scope Z_scope.

Definition any_date (_ : pystr) : res unit := Ok tt.
Definition no_image (b : bytes) : res image := match b with [] => Err ValueError | _ => Ok [[[1; 2; 3; 4]]] end.
Definition zeros (n : nat) : bytes := repeat 0 n.
(** the bit patterns of the heights and of the two steps *)
Definition shown (s : raw) := (map (map bits_of_b64) (rdata s), bits_of_b64 (rstep_x s), bits_of_b64 (rstep_y s)).
Definition bit (r : res (raw * image_layers)) := rmap (fun '(s, l) => (shown s, l)) r.
Definition d (z e : Z) : Z := bits_of_b64 (f64_make z e).
Definition i4 (v : Z) : bytes := le 4 (v mod 2 ^ 32).
Definition single (z e : Z) : bytes := le 4 (bits_of_b32 (f32_make z e)).
Definition double (z e : Z) : bytes := le 8 (bits_of_b64 (f64_make z e)).
Lemma bytes_ok b : forallb (fun x => (0 <=? x) && (x <? 256)) b = true -> is_file b.
Proof. intros H. apply Forall_forall. intros x Hx. rewrite forallb_forall in H. specialize (H x Hx). lia. Qed.

(** PLU: 2 x 1 points, the second not measured; steps 0.5 and 0.25; an image with one grey and one green pixel *)
Definition plu_file (image : bytes) : bytes :=
  zeros 388 ++ i4 2 ++ i4 1 ++ zeros 8 ++ single 1 (-1) ++ single 1 (-2) ++ zeros 88 ++ single 5 (-1) ++ single 1000001 0 ++ zeros 16 ++ image.
Example plu_example : is_file (plu_file [7; 7; 7; 0; 9; 0]) /\
  bit (read_plu any_date Utf8 true (opened (plu_file [7; 7; 7; 0; 9; 0]))) =
    Ok ([[d 5 (-1)]; [bits_of_b64 (f64_of_f32 nan32)]], d 1 (-1), d 1 (-2), [("RGB"%string, [[[7; 7; 7]]; [[0; 9; 0]]])]) /\
  bit (read_plu any_date Utf8 true (opened (plu_file [7; 7; 7; 9; 9; 9]))) =
    Ok ([[d 5 (-1)]; [bits_of_b64 (f64_of_f32 nan32)]], d 1 (-1), d 1 (-2), [("Grayscale"%string, [[[7]]; [[9]]])]) /\
  is_ok (read_plu any_date Utf8 false (opened (firstn 507 (plu_file [])))) = false.
Proof. split; [apply bytes_ok; vm_compute; reflexivity|]. vm_compute. repeat split. Qed.

(** ZMG: one row of two points, codes 3 and -2, z step 0.5, a 5-byte comment *)
Definition zmg_file : bytes :=
  str "Zeta-Instruments" ++ zeros 69 ++ i4 2 ++ i4 1 ++ zeros 4 ++ single 1 0 ++ single 3 0 ++ single 1 (-1) ++ zeros 8 ++ i4 5 ++ zeros 84 ++
  str "hello" ++ [3; 0] ++ [254; 255].
Example zmg_example : is_file zmg_file /\
  rmap shown (read_zmg Utf8 (opened zmg_file)) = Ok ([[d 3 (-1); d (-1) 0]], d 1 0, d 3 0) /\
  is_ok (read_zmg Utf8 (opened (firstn (length zmg_file - 1) zmg_file))) = false.
Proof. split; [apply bytes_ok; vm_compute; reflexivity|]. vm_compute. repeat split. Qed.

(** OS3D: one row of two points, the second below the threshold *)
Definition os3d_file (tail : bytes) : bytes :=
  str "OmniSurf3D" ++ i4 1 ++ i4 0 ++ i4 2 ++ str "id" ++ i4 4 ++ str "2020" ++ i4 2 ++ i4 1 ++ double 1 (-1) ++ double 2 0 ++ zeros 16 ++
  single 7 0 ++ single (-31 * 10 ^ 37) 0 ++ [0] ++ tail.
Example os3d_example : is_file (os3d_file []) /\
  bit (read_os3d any_date no_image Utf8 false (opened (os3d_file []))) = Ok ([[d 7 0; bits_of_b64 (f64_of_f32 nan32)]], d 1 (-1), d 2 0, []) /\
  is_ok (read_os3d any_date no_image Utf8 true (opened (os3d_file []))) = false /\
  bit (read_os3d any_date no_image Utf8 true (opened (os3d_file [5]))) =
    Ok ([[d 7 0; bits_of_b64 (f64_of_f32 nan32)]], d 1 (-1), d 2 0, [("RGBA"%string, [[[1; 2; 3; 4]]])]).
Proof. split; [apply bytes_ok; vm_compute; reflexivity|]. vm_compute. repeat split. Qed.

(** NMS: heights stored between 1 and 2; codes 0 and 65534 come out as 2 and 3.  One file is square, one is not. *)
Definition nms_file (nx ny : Z) (body : bytes) : bytes :=
  zeros 16 ++ double 1 0 ++ double 2 0 ++ zeros (1368 - 32) ++ i4 nx ++ i4 ny ++ double 1000 0 ++ double 2000 0 ++ zeros (3468 - 1392) ++ body.
Example nms_example : is_file (nms_file 2 1 [0; 0; 254; 255; 1; 2]) /\
  bit (read_nms any_date Utf8 false (opened (nms_file 2 1 [0; 0; 254; 255; 1; 2]))) = Ok ([[d 2 0; d 3 0]], d 1 0, d 2 0, []) /\
  is_ok (read_nms any_date Utf8 true (opened (nms_file 2 1 [0; 0; 254; 255; 1; 2]))) = false /\
  bit (read_nms any_date Utf8 true (opened (nms_file 1 1 [254; 255; 9]))) = Ok ([[d 3 0]], d 1 0, d 2 0, [("Grayscale"%string, [[[9]]])]).
Proof. split; [apply bytes_ok; vm_compute; reflexivity|]. vm_compute. repeat split. Qed.
