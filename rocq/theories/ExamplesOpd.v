(** Concrete OPD files. *)
From Coq Require Import String Ascii ZArith Lia Bool.
From Coq Require Import List.
From Flocq Require Import IEEE754.BinarySingleNaN IEEE754.Binary IEEE754.Bits.
From Verif Require Import Base ModelBytes ModelSur ModelFormats ModelReaders ModelOpd SpecReaders SpecOpd ProofBytes ProofReaders PropsReaders PropsMagic ExamplesReaders PropsOpd.
Import ListNotations.
Local Open Scope Z_scope.

(** a directory entry *)
Definition dirent (nm : string) (t sz : Z) : bytes := str nm ++ zeros (16 - length (str nm)) ++ le 2 t ++ le 4 (sz mod 2 ^ 32) ++ [0; 0].
Lemma distinct_check en b : forallb (fun x => forallb (fun y => negb (Nat.leb 1 x && Nat.ltb x y) || negb (zs_eqb (entry_name en b x) (entry_name en b y))) (seq 0 (entries b))) (seq 0 (entries b)) = true ->
  names_distinct en b.
Proof.
  intros H j k Hj Hk E. rewrite forallb_forall in H. specialize (H j ltac:(apply in_seq; lia)). rewrite forallb_forall in H. specialize (H k ltac:(apply in_seq; lia)).
  rewrite E, zs_eqb_refl in H. rewrite (proj2 (Nat.leb_le 1 j)), (proj2 (Nat.ltb_lt j k)) in H by lia. discriminate.
Qed.
(** 2 columns of 3 points, wavelength 500 nm, mult 2, pixels of 1/512 mm, an image of one pixel, a title *)
Definition opd_file : bytes :=
  [1; 0] ++ dirent "Directory" 1 168 ++ dirent "RAW_DATA" 3 18 ++ dirent "Wavelength" 7 4 ++ dirent "Mult" 6 2 ++ dirent "Pixel_size" 8 8 ++ dirent "Title" 5 3 ++ dirent "Image" 3 7 ++
  (le 2 2 ++ le 2 3 ++ le 2 2 ++ [1; 0] ++ [2; 0] ++ [3; 0] ++ [4; 0] ++ [255; 127] ++ [255; 255]) ++ single 500 0 ++ [2; 0] ++ double 1 (-9) ++ [65; 66; 0] ++
  (le 2 1 ++ le 2 1 ++ le 2 1 ++ [200]).
Definition bito (r : res (raw * list (string * list (list bytes)))) := rmap (fun '(s, l) => (shown s, l)) r.
Definition quarter (z : Z) : Z := bits_of_b64 (fmul (f64_of_Z z) (fdiv (fmul (f64_make 500 0) (pow10 (-3))) (f64_of_Z 2))).
Example opd_example : is_file opd_file /\ names_distinct Utf8 opd_file /\
  bito (read_opd any_date Utf8 true (opened opd_file)) =
    Ok ([[quarter 3; quarter (-1)]; [quarter 2; bits_of_b64 nan64]; [quarter 1; quarter 4]], bits_of_b64 (fmul (f64_make 1 (-9)) (pow10 3)), bits_of_b64 (fmul (fmul (f64_make 1 (-9)) (pow10 3)) (f64_of_Z 1)),
        [("Grayscale"%string, [[[200]]])]) /\
  is_ok (read_opd any_date Utf8 false (opened (firstn (170 + 17) opd_file))) = false.
Proof.
  split; [apply bytes_ok; vm_compute; reflexivity|]. split; [|split; vm_compute; reflexivity].
  apply distinct_check. vm_compute. reflexivity.
Qed.
(** Two blocks of the same name: the second replaces the first and the blocks behind them are looked for too far to the front.  The
    file states 1 column of 2 points, the surface read has 2 columns of 1 point. *)
Definition dup_file : bytes :=
  [1; 0] ++ dirent "Directory" 1 96 ++ dirent "Note" 5 2 ++ dirent "Note" 5 2 ++ dirent "RAW_DATA" 3 10 ++
  [65; 65] ++ [2; 0] ++ (le 2 1 ++ le 2 2 ++ le 2 2 ++ [9; 0] ++ [8; 0]).
Theorem C74_opd_duplicate_refuted : exists (b : bytes) s, is_file b /\ read_opd any_date Utf8 false (opened b) = Ok (s, []) /\
  entries b = 4%nat /\ entry_name Utf8 b 3 = str "RAW_DATA" /\ entry_offset b 3 + entry_size b 3 = Z.of_nat (length b) /\
  u16 b (Z.to_nat (entry_offset b 3) + 2) = 2 /\ length (rdata s) = 1%nat.
Proof.
  exists dup_file.
  assert (X : rmap (fun '(s, l) => (length (rdata s), l)) (read_opd any_date Utf8 false (opened dup_file)) = Ok (1%nat, [])) by (vm_compute; reflexivity).
  destruct (read_opd any_date Utf8 false (opened dup_file)) as [[s l]|]; [|discriminate]. cbn [rmap] in X. apply ok_inj in X.
  pose proof (f_equal fst X) as L. pose proof (f_equal snd X) as Hl. cbn [fst snd] in L, Hl. subst l.
  exists s. split; [apply bytes_ok; vm_compute; reflexivity|]. split; [reflexivity|].
  split; [vm_compute; reflexivity|]. split; [vm_compute; reflexivity|]. split; [vm_compute; reflexivity|]. split; [vm_compute; reflexivity|]. exact L.
Qed.
