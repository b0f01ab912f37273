(** A concrete PLUX file; the hypotheses of the C84 theorems are met. *)
From Coq Require Import String Ascii ZArith Lia Bool.
From Coq Require Import List.
From Flocq Require Import IEEE754.BinarySingleNaN IEEE754.Binary IEEE754.Bits.
From Verif Require Import Base ModelBytes ModelUnits ModelSur ModelFormats ModelReaders ModelGwy ModelZip SpecReaders SpecZip ProofBytes PropsMagic PropsLayout ProofReaders ProofZip PropsPlux ExamplesX3p.
Import ListNotations.
Local Open Scope list_scope.
Local Open Scope Z_scope.

Definition plux_item (i : string) (name : string) (value : option string) : elem :=
  branch i [leaf "NAME" name; Elem (str "VALUE") (option_map str value) []].
Definition plux_root (comment : option string) : elem :=
  branch "xml" [branch "GENERAL" [leaf "DATE" "2024-01-01"; leaf "IMAGE_SIZE_X" "2"; leaf "IMAGE_SIZE_Y" "1"; leaf "FOV_X" "2E-6"; leaf "FOV_Y" "3E-6"];
                branch "INFO" [leaf "SIZE" "3"; plux_item "ITEM_0" "Device" (Some "S neox"%string); plux_item "ITEM_1" " Device " (Some " S lynx "%string);
                               plux_item "ITEM_2" "Threshold" None; plux_item "ITEM_3" "Comment" comment]].
Definition singles : bytes := le 4 (bits_of_b32 (f32_of_f64 (f64_make 3 (-1)))) ++ le 4 (bits_of_b32 (f32_of_f64 (f64_make 5 0))) ++ [7; 7].
Definition plux_archive (img : list (pystr * bytes)) : archive := [(str "LAYER_0.raw", singles); (str "index.xml", str "<xml>")] ++ img.
Definition shown_plux (r : res plux) :=
  rmap (fun p => (map (map bits_of_b64) (cells (pdata p)), bits_of_b64 (pstep_x p), bits_of_b64 (pstep_y p), pmeta p, pimages p)) r.
Example plux_example :
  shown_plux (read_plux (toy (plux_archive [(str "LAYER_0.stack.raw", [1; 1; 1; 4; 5; 6])]) (plux_root (Some ""%string))) Utf8 true []) =
  Ok ([[bits_of_b64 (f64_make 3 (-1)); bits_of_b64 (f64_make 5 0)]], bits_of_b64 (f64_make 1 (-19)), bits_of_b64 (f64_make 1 (-18)),
      [(str "timestamp", MDate 20240101); (str "device", MText (str "S lynx")); (str "comment", MText [])], [("RGB"%string, [[[1; 1; 1]; [4; 5; 6]]])]).
Proof. vm_compute. reflexivity. Qed.
Example plux_grey :
  rmap pimages (read_plux (toy (plux_archive [(str "LAYER_0.stack.raw", [1; 1; 1; 4; 4; 4])]) (plux_root (Some ""%string))) Utf8 true []) = Ok [("Grayscale"%string, [[[1]; [4]]])].
Proof. vm_compute. reflexivity. Qed.
(** the libraries of the example lower the six names as Python does *)
Example toy_lowers : forall a root, lowers (toy a root).
Proof. intros a root n key H. cbn in H. repeat (destruct H as [H|H]; [injection H as <- <-; reflexivity|]). destruct H. Qed.
(** without the picture: read without pictures, not with them; and not at all if the comment has no value *)
Example plux_meets : is_ok (read_plux (toy (plux_archive []) (plux_root (Some "x"%string))) Utf8 false []) = true /\
  read_plux (toy (plux_archive []) (plux_root (Some "x"%string))) Utf8 true [] = Err UnboundLocalError /\
  read_plux (toy (plux_archive []) (plux_root None)) Utf8 false [] = Err AttributeError.
Proof. vm_compute. auto. Qed.
Example plux_spec_meets : exists rows sx sy a nx ny, plux_surface (toy (plux_archive []) (plux_root (Some "x"%string))) Utf8 [] a nx ny rows sx sy.
Proof.
  destruct (read_plux (toy (plux_archive []) (plux_root (Some "x"%string))) Utf8 false []) as [p|] eqn:E.
  - exists (cells (pdata p)), (pstep_x p), (pstep_y p). apply C84_plux. eauto.
  - exfalso. destruct plux_meets as (F & _). rewrite E in F. discriminate.
Qed.
