(** What a FITS file of a height map says (C90): cards of 80 characters "KEY = value / remark" in blocks of 2880 bytes, END, then image
    extensions, each a header block and big-endian numbers row by row, padded to whole blocks. *)
From Coq Require Import String ZArith List Bool.
From Flocq Require Import IEEE754.Binary IEEE754.Bits.
From Verif Require Import Base ModelBytes ModelSur ModelFits SpecReaders.
Import ListNotations.
Local Open Scope Z_scope.
Local Open Scope list_scope.

(** white space of str.strip below 128 *)
Definition white (c : Z) : Prop := c = 32 \/ 9 <= c <= 13 \/ 28 <= c <= 31.
Definition trimmed (s : pystr) : Prop := (forall c, hd_error s = Some c -> ~ white c) /\ (forall c, hd_error (rev s) = Some c -> ~ white c).
Definition begins (p s : pystr) : Prop := exists t, s = p ++ t.
Definition spaces (n : nat) : pystr := repeat 32 n.

Inductive card_line :=
| Entry (hierarch : bool) (key value : pystr) (g1 g2 g3 : nat) (remark : option pystr)
| Remark (t : pystr)
| Empty.
Definition line_text (l : card_line) : pystr :=
  match l with
  | Entry h k v g1 g2 g3 r => (if h then str "HIERARCH " else []) ++ k ++ spaces g1 ++ [61] ++ spaces g2 ++ v ++ spaces g3 ++ match r with Some t => 47 :: t | None => [] end
  | Remark t => str "COMMENT" ++ t
  | Empty => []
  end.
Definition plain_text (s : pystr) : Prop := trimmed s /\ ~ In 61 s /\ ~ In 47 s.
Definition good_line (l : card_line) : Prop :=
  (length (line_text l) <= 80)%nat /\ Forall (fun c => 0 <= c < 128) (line_text l) /\
  match l with
  | Entry h k v _ _ _ _ => k <> [] /\ plain_text k /\ plain_text v /\ (if h then ~ In 32 k else ~ begins (str "COMMENT") k /\ ~ begins (str "HIERARCH") k)
  | _ => True
  end.
(** the value text of a key: that of its last card *)
Fixpoint text_of (k : pystr) (ls : list card_line) : option pystr :=
  match ls with
  | [] => None
  | l :: ls' => match text_of k ls' with
                | Some v => Some v
                | None => match l with Entry _ k' v _ _ _ _ => if zs_eqb k k' then Some v else None | _ => None end
                end
  end.
Definition lines_text (ls : list card_line) : pystr := concat (map (fun l => ljust 80 (line_text l)) ls).
(** a block of 36 cards, and the last block of a header *)
Definition full_block (ls : list card_line) : bytes := lines_text ls.
Definition last_block (ls : list card_line) : bytes := ljust 2880 (lines_text ls ++ ljust 80 (str "END")).
Definition good_full (ls : list card_line) : Prop := length ls = 36%nat /\ Forall good_line ls.
Definition good_last (ls : list card_line) : Prop := (length ls <= 35)%nat /\ Forall good_line ls.

Section Fits.
Variable float_of : pystr -> res f64.
(** the value of a header entry: an integer, a floating-point number or a text *)
Definition says (ls : list card_line) (k : string) (v : hval) : Prop := exists t, text_of (str k) ls = Some t /\ convert_dtype float_of t = v.

Record image_ext := { i_lines : list card_line; i_name : pystr; i_bitpix : Z; i_size : nat; i_n1 : nat; i_n2 : nat; i_data : bytes }.
Record good_ext (x : image_ext) : Prop := {
  gx_lines : good_last (i_lines x);
  gx_start : exists h v a b c r ls, i_lines x = Entry h (str "XTENSION") v a b c r :: ls /\ h = false;
  gx_naxis : says (i_lines x) "NAXIS" (HInt 2);
  gx_n1 : says (i_lines x) "NAXIS1" (HInt (Z.of_nat (i_n1 x)));
  gx_n2 : says (i_lines x) "NAXIS2" (HInt (Z.of_nat (i_n2 x)));
  gx_bitpix : says (i_lines x) "BITPIX" (HInt (i_bitpix x));
  gx_name : says (i_lines x) "EXTNAME" (HStr (i_name x));
  gx_size : bitpix_size (i_bitpix x) = Some (i_size x);
  gx_data : length (i_data x) = (i_n1 x * i_n2 x * i_size x)%nat }.
(** the number in row i and column j *)
Definition number (x : image_ext) (i j : nat) : f64 :=
  let o := ((i * i_n1 x + j) * i_size x)%nat in
  let v := uint_be (i_size x) (i_data x) o in
  match i_bitpix x with
  | 8 => f64_of_Z v
  | 16 => f64_of_Z (two_compl 16 v)
  | 32 => f64_of_Z (two_compl 32 v)
  | 64 => f64_of_Z (two_compl 64 v)
  | -32 => f64_of_f32 (b32_of_bits v)
  | _ => b64_of_bits v
  end.
Definition pad (n : nat) : nat := ((2880 - n mod 2880) mod 2880)%nat.
Definition ext_text (x : image_ext) : bytes := last_block (i_lines x) ++ i_data x ++ repeat 0 (pad (length (i_data x))).

Record fits_file := { p_full : list (list card_line); p_last : list card_line; p_exts : list image_ext }.
Definition cards_of (f : fits_file) : list card_line := concat (p_full f) ++ p_last f.
Definition file_of (f : fits_file) : bytes := concat (map full_block (p_full f)) ++ last_block (p_last f) ++ concat (map ext_text (p_exts f)).
Record good_file (f : fits_file) : Prop := {
  gf_full : Forall good_full (p_full f);
  gf_last : good_last (p_last f);
  gf_start : exists v a b c r ls, cards_of f = Entry false (str "SIMPLE") v a b c r :: ls;
  gf_exts : Forall good_ext (p_exts f);
  gf_names : NoDup (map i_name (p_exts f));
  (* no extension whose data end at a block boundary, cf. C56_skips_refuted *)
  gf_pad : forall x, In x (p_exts f) -> (length (i_data x) mod 2880 <> 0)%nat }.
End Fits.
