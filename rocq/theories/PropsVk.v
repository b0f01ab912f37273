(** C74, C75, C76 for Keyence VK4 files (surfalize/file/vk.py). *)
From Coq Require Import String Ascii ZArith Lia Bool.
From Coq Require Import List.
From Flocq Require Import IEEE754.BinarySingleNaN IEEE754.Binary IEEE754.Bits.
From Verif Require Import Base ModelBytes ModelSur ModelFormats ModelReaders ModelVk SpecReaders ProofBytes ProofReaders PropsMagic PropsLayout PropsReaders.
Import ListNotations.
Local Open Scope Z_scope.

Lemma values_ok_reserved en b n : forall l p, values_ok en b p (l ++ [Reserved n]) = values_ok en b p l.
Proof. induction l as [|e l IH]; intros p; [reflexivity|]. destruct e as [k|k [f|q|f rd wr]]; cbn [app values_ok]; rewrite ?IH; reflexivity. Qed.

(** *** one block of heights *)
Definition vk_bytes (bd : Z) : nat := Z.to_nat (bd / 8).
Definition vk_block (b : bytes) (o : nat) : Prop :=
  (o + 28 <= length b)%nat /\ (u32 b (o + 8) = 16 \/ u32 b (o + 8) = 32) /\ 8 * u32 b (o + 16) = u32 b o * u32 b (o + 4) * u32 b (o + 8) /\
  (Z.to_nat (u32 b (o + 4)) * Z.to_nat (u32 b o) <> 0 ->
   o + 796 + Z.to_nat (u32 b (o + 4)) * Z.to_nat (u32 b o) * vk_bytes (u32 b (o + 8)) <= length b)%nat.
Definition vk_codes (b : bytes) (o : nat) : list (list Z) :=
  let w := Z.to_nat (u32 b o) in let k := vk_bytes (u32 b (o + 8)) in
  grid (Z.to_nat (u32 b (o + 4))) w (fun i j => uint k b (o + 796 + (i * w + j) * k)).
Lemma vk_itemsize_iff bd k : vk_itemsize bd = Ok k <-> (bd = 16 \/ bd = 32) /\ k = vk_bytes bd.
Proof.
  unfold vk_itemsize, vk_bytes. destruct (Z.eqb_spec bd 16) as [->|N1]; [|destruct (Z.eqb_spec bd 32) as [->|N2]].
  - split; [intros H; apply ok_inj in H; subst k; auto|intros [_ ->]; reflexivity].
  - split; [intros H; apply ok_inj in H; subst k; auto|intros [_ ->]; reflexivity].
  - split; [discriminate|lia].
Qed.
Lemma vk_height_iff off b p m : is_file b ->
  (vk_read_height off {| contents := b; pos := p |} = Ok m <-> vk_block b (Z.to_nat off) /\ m = vk_codes b (Z.to_nat off)).
Proof.
  intros Hf. unfold vk_read_height, fseek. cbn [contents]. set (o := Z.to_nat off).
  pose proof (u32_nonneg b o Hf) as N1. pose proof (u32_nonneg b (o + 4) Hf) as N2.
  split.
  - intros H. apply rbind_ok in H as ([t h1] & Hl & H). layout_inv Hl V Et Eh. subst t h1.
    pose proof (located_in _ _ _ _ "palette_range_max" 24%nat fmt_I V eq_refl) as L. change (calcsize fmt_I) with 4%nat in L.
    rewrite (hint_u _ _ _ _ "width" 0%nat 4%nat V eq_refl), (hint_u _ _ _ _ "height" 4%nat 4%nat V eq_refl),
      (hint_u _ _ _ _ "data_byte_size" 16%nat 4%nat V eq_refl), (hint_u _ _ _ _ "bit_depth" 8%nat 4%nat V eq_refl) in H. cbn [rbind] in H.
    change (lsize vk_height) with 796%nat in H. rewrite Nat.add_0_r in H.
    destruct (Z.eqb_spec (8 * uint 4 b (o + 16)) (uint 4 b o * uint 4 b (o + 4) * uint 4 b (o + 8))) as [Q|Q]; [|discriminate]. cbn [negb] in H.
    apply rbind_ok in H as (k & Hk & H). apply vk_itemsize_iff in Hk as [B ->]. apply rbind_ok in H as ([its h2] & Hr & Hs).
    assert (K : (0 < vk_bytes (uint 4 b (o + 8)))%nat) by (destruct B as [-> | ->]; cbv; lia).
    destruct (table_read _ 0 _ (uint 4 b (o + 4)) (uint 4 b o) b _ its h2 m K N2 N1 Hr Hs) as (T1 & -> & _).
    assert (C : (Z.to_nat (u32 b (o + 4)) * Z.to_nat (u32 b o) <> 0 ->
       o + 796 + Z.to_nat (u32 b (o + 4)) * Z.to_nat (u32 b o) * vk_bytes (u32 b (o + 8)) <= length b)%nat).
    { intros E. unfold u32 in *. destruct T1 as [T1|T1]; [exfalso; apply E; nia|]. exact T1. }
    split; [repeat split; auto; lia|]. unfold vk_codes, u32. apply grid_ext'. intros i j Hi Hj. unfold item_u. apply unle_slice.
    apply (item_in _ (Z.to_nat (uint 4 b (o + 4)))); auto. apply C. unfold u32. nia.
  - intros [(L & B & Q & C) ->].
    assert (V : values_ok Utf8 b o vk_height = true).
    { change vk_height with (firstn 7 vk_height ++ [Reserved 768])%list. rewrite values_ok_reserved. apply numeric_ok; [is_numeric|].
      change (lsize (firstn 7 vk_height)) with 28%nat. lia. }
    rewrite (proj1 (read_layout_values Utf8 vk_height b o ltac:(is_sized) ltac:(is_distinct)) V). cbn [rbind].
    rewrite (hint_u _ _ _ _ "width" 0%nat 4%nat V eq_refl), (hint_u _ _ _ _ "height" 4%nat 4%nat V eq_refl),
      (hint_u _ _ _ _ "data_byte_size" 16%nat 4%nat V eq_refl), (hint_u _ _ _ _ "bit_depth" 8%nat 4%nat V eq_refl). cbn [rbind].
    change (lsize vk_height) with 796%nat. rewrite Nat.add_0_r. fold (u32 b o) (u32 b (o + 4)) (u32 b (o + 8)) (u32 b (o + 16)).
    rewrite Q, Z.eqb_refl. cbn [negb]. rewrite (proj2 (vk_itemsize_iff (u32 b (o + 8)) (vk_bytes (u32 b (o + 8))))) by auto. cbn [rbind].
    assert (K : (0 < vk_bytes (u32 b (o + 8)))%nat) by (destruct B as [-> | ->]; cbv; lia).
    destruct (Nat.eq_dec (Z.to_nat (u32 b (o + 4)) * Z.to_nat (u32 b o)) 0) as [E0|E0].
    + assert (Ez : u32 b o * u32 b (o + 4) = 0) by nia. rewrite Ez, read_items_0 by exact K. cbn [rbind map].
      rewrite (reshape_ok 0) by (cbn [length]; lia). f_equal. unfold vk_codes. apply grid_ext'. intros i j Hi Hj. nia.
    + destruct (table_read_ok item_u (vk_bytes (u32 b (o + 8))) (u32 b (o + 4)) (u32 b o) b (o + 796) K N2 N1 (C E0)) as (its & R1 & R2).
      rewrite R1. cbn [rbind]. rewrite R2. f_equal. unfold vk_codes. apply grid_ext'. intros i j Hi Hj. unfold item_u. apply unle_slice.
      apply (item_in _ (Z.to_nat (u32 b (o + 4)))); auto.
Qed.
(** *** one colour image *)
Lemma vk_rgb_inv off b p img : is_file b -> vk_read_rgb off {| contents := b; pos := p |} = Ok img ->
  let o := Z.to_nat off in let w := Z.to_nat (u32 b o) in let h := Z.to_nat (u32 b (o + 4)) in
  8 * u32 b (o + 16) = u32 b o * u32 b (o + 4) * u32 b (o + 8) /\ (o + 20 <= length b)%nat /\
  (h * w <> 0 -> o + 20 + h * w * 3 <= length b)%nat /\
  table_is img h w (fun i j px => px = map (fun c => byte b (o + 20 + (i * w + j) * 3 + c)) [2; 1; 0]%nat).
Proof.
  intros Hf H o w h. pose proof (u32_nonneg b o Hf) as N1. pose proof (u32_nonneg b (o + 4) Hf) as N2.
  unfold vk_read_rgb, fseek in H. cbn [contents] in H. fold o in H. apply rbind_ok in H as ([t h1] & Hl & H). layout_inv Hl V Et Eh. subst t h1.
  pose proof (located_in _ _ _ _ "data_byte_size" 16%nat fmt_I V eq_refl) as L. change (calcsize fmt_I) with 4%nat in L.
  rewrite (hint_u _ _ _ _ "width" 0%nat 4%nat V eq_refl), (hint_u _ _ _ _ "height" 4%nat 4%nat V eq_refl),
    (hint_u _ _ _ _ "data_byte_size" 16%nat 4%nat V eq_refl), (hint_u _ _ _ _ "bit_depth" 8%nat 4%nat V eq_refl) in H. cbn [rbind] in H.
  change (lsize vk_image) with 20%nat in H. rewrite Nat.add_0_r in H. fold (u32 b o) (u32 b (o + 4)) (u32 b (o + 8)) (u32 b (o + 16)) in H.
  destruct (Z.eqb_spec (24 * u32 b (o + 16)) (u32 b o * u32 b (o + 4) * 3 * u32 b (o + 8))) as [Q|Q]; [|discriminate]. cbn [negb] in H.
  apply rbind_ok in H as ([its h2] & Hr & H). apply rmap_ok in H as (im & Hi & ->).
  apply (reshape3_inv 0) in Hi as [Ln Ei]. rewrite map_length in Ln. fold h w in Ln, Ei.
  assert (Ez : Z.to_nat (u32 b o * u32 b (o + 4) * 3) = (h * w * 3)%nat) by (unfold h, w; nia).
  apply bytes_read in Hr as [Hl Hb]; [|nia|rewrite Ez; exact Ln].
  split; [nia|]. split; [lia|]. split; [rewrite Ez in Hl; intros E; destruct Hl as [Hl|Hl]; [exact Hl|exfalso; apply E; unfold h, w; nia]|].
  rewrite Ei, grid_map. apply grid_is. intros i j Hi Hj. cbn [seq map rev app].
  assert (Kb : (i * w + j + 1 <= h * w)%nat) by nia. rewrite !Hb by (rewrite Ez; lia). rewrite !Nat.add_assoc. reflexivity.
Qed.

(** *** the strings *)
Lemma vk_string_inv en b p h' : vk_read_string en {| contents := b; pos := p |} = Ok h' ->
  (p + 4 <= length b)%nat /\ is_ok (decode en (slice (p + 4) (2 * Z.to_nat (u32 b p)) b)) = true /\
  h' = {| contents := b; pos := p + 4 + length (slice (p + 4) (2 * Z.to_nat (u32 b p)) b) |}.
Proof.
  unfold vk_read_string. rewrite fread_slice. intros H. apply rbind_ok in H as (v & Hv & H).
  pose proof (unpack_length _ _ _ Hv) as L. change (calcsize fmt_I) with 4%nat in L. assert (Lb : (p + 4 <= length b)%nat) by (rewrite slice_length in L; lia).
  unfold unpack, fmt_I in Hv. cbn [calcsize] in Hv. rewrite L in Hv. cbn [Nat.eqb] in Hv. apply ok_inj in Hv. subst v. rewrite L, fread_slice in H.
  rewrite unle_slice in H by exact Lb. fold (u32 b p) in H. replace (Z.to_nat (u32 b p * 2)) with (2 * Z.to_nat (u32 b p))%nat in H by lia.
  apply rmap_ok in H as (s & Hs & ->). rewrite Hs. auto.
Qed.
Lemma vk_string_ok en b p s : (p + 4 <= length b)%nat -> decode en (slice (p + 4) (2 * Z.to_nat (u32 b p)) b) = Ok s ->
  vk_read_string en {| contents := b; pos := p |} = Ok {| contents := b; pos := p + 4 + length (slice (p + 4) (2 * Z.to_nat (u32 b p)) b) |}.
Proof.
  intros L Hs. unfold vk_read_string. rewrite fread_slice. unfold unpack, fmt_I. cbn [calcsize]. rewrite slice_len by exact L. cbn [Nat.eqb rbind].
  rewrite fread_slice, unle_slice by exact L. fold (u32 b p). replace (Z.to_nat (u32 b p * 2)) with (2 * Z.to_nat (u32 b p))%nat by lia.
  rewrite Hs. reflexivity.
Qed.
Definition vk_strings (en : encoding) (b : bytes) : Prop := exists h, vk_read_strings en (u32 b 76) (opened b) = Ok h.
Definition vk_stamp (b : bytes) : bool :=
  let m := Z.to_nat (u32 b 12) in
  datetime_ok (u32 b (m + 4)) (u32 b (m + 8)) (u32 b (m + 12)) (u32 b (m + 16)) (u32 b (m + 20)) (u32 b (m + 24)).
Definition vk_complete (en : encoding) (b : bytes) : Prop :=
  (80 <= length b)%nat /\ (Z.to_nat (u32 b 12) + 304 <= length b)%nat /\ vk_block b (Z.to_nat (u32 b 36)) /\ vk_strings en b /\ vk_stamp b = true.
Definition vk_surface (b : bytes) : raw :=
  let m := Z.to_nat (u32 b 12) in
  {| rdata := map (map (fun v => fmul (f64_of_Z v) (fmul (pow10 (-6)) (f64_of_Z (u32 b (m + 176)))))) (vk_codes b (Z.to_nat (u32 b 36)));
     rstep_x := fmul (f64_of_Z (u32 b (m + 168))) (pow10 (-6)); rstep_y := fmul (f64_of_Z (u32 b (m + 172))) (pow10 (-6)) |}.
Definition vk_layers (b : bytes) (l : image_layers) : Prop :=
  exists rgb lrgb, vk_read_rgb (u32 b 16) (opened b) = Ok rgb /\ vk_read_rgb (u32 b 20) (opened b) = Ok lrgb /\ vk_block b (Z.to_nat (u32 b 24)) /\
    l = [("RGB"%string, rgb); ("Laser+RGB"%string, lrgb); ("Laser"%string, map (map (fun v => [v])) (vk_codes b (Z.to_nat (u32 b 24))))].
Lemma vk4_iff en (im : bool) b s l : is_file b ->
  (read_vk4 en im (opened b) = Ok (s, l) <-> vk_complete en b /\ s = vk_surface b /\ (if im then vk_layers b l else l = [])).
Proof.
  intros Hf. unfold read_vk4, opened. rewrite fread_slice. split.
  - intros H. apply rbind_ok in H as ([o h2] & Hl & H). layout_inv Hl V1 Eo Eh.
    assert (L1 : (12 <= length b)%nat).
    { pose proof (located_in _ _ _ _ "meas_conds" 0%nat fmt_I V1 eq_refl) as L. rewrite slice_length in L. change (calcsize fmt_I) with 4%nat in L. lia. }
    assert (P : (0 + length (slice 0 12 b) = 12)%nat) by (rewrite slice_len; lia). rewrite P in *. clear P. subst o h2.
    pose proof (located_in _ _ _ _ "string_data" 64%nat fmt_I V1 eq_refl) as L2. change (12 + 64 + calcsize fmt_I)%nat with 80%nat in L2.
    rewrite (hint_u _ _ _ _ "meas_conds" 0%nat 4%nat V1 eq_refl) in H. cbn [rbind] in H. unfold fseek in H. cbn [contents] in H.
    change (12 + 0)%nat with 12%nat in H. fold (u32 b 12) in H. set (m := Z.to_nat (u32 b 12)) in *.
    apply rbind_ok in H as ([c h3] & Hl & H). layout_inv Hl V2 Ec Eh. subst c h3.
    pose proof (located_in _ _ _ _ "height_effective_bit_depth" 300%nat fmt_I V2 eq_refl) as L3. change (calcsize fmt_I) with 4%nat in L3.
    apply rbind_ok in H as (ly & Hi & H).
    rewrite (hint_u _ _ _ _ "height" 24%nat 4%nat V1 eq_refl) in H. cbn [rbind] in H. change (12 + 24)%nat with 36%nat in H. fold (u32 b 36) in H.
    apply rbind_ok in H as (data & Hd & H). apply vk_height_iff in Hd as [Hblock ->]; [|exact Hf].
    rewrite (hint_u _ _ _ _ "string_data" 64%nat 4%nat V1 eq_refl) in H. cbn [rbind] in H. change (12 + 64)%nat with 76%nat in H. fold (u32 b 76) in H.
    apply rbind_ok in H as (h4 & Hst & H).
    rewrite (hint_u _ _ _ _ "z_length_per_digit" 176%nat 4%nat V2 eq_refl), (hint_u _ _ _ _ "x_length_per_pixel" 168%nat 4%nat V2 eq_refl), (hint_u _ _ _ _ "y_length_per_pixel" 172%nat 4%nat V2 eq_refl),
      (hint_u _ _ _ _ "year" 4%nat 4%nat V2 eq_refl), (hint_u _ _ _ _ "month" 8%nat 4%nat V2 eq_refl), (hint_u _ _ _ _ "day" 12%nat 4%nat V2 eq_refl),
      (hint_u _ _ _ _ "hour" 16%nat 4%nat V2 eq_refl), (hint_u _ _ _ _ "minute" 20%nat 4%nat V2 eq_refl), (hint_u _ _ _ _ "second" 24%nat 4%nat V2 eq_refl) in H.
    cbn [rbind] in H. change (datetime_ok _ _ _ _ _ _) with (vk_stamp b) in H. destruct (vk_stamp b) eqn:St; [|discriminate]. cbn [negb] in H.
    apply ok_inj in H. pose proof (f_equal fst H) as Es. pose proof (f_equal snd H) as El. cbn [fst snd] in Es, El. subst s ly. clear H.
    split; [|split].
    + split; [exact L2|]. split; [fold m; lia|]. split; [exact Hblock|]. split; [|exact St]. exists h4. exact Hst.
    + reflexivity.
    + destruct im; [|apply ok_inj in Hi; auto].
      rewrite (hint_u _ _ _ _ "color_peak" 4%nat 4%nat V1 eq_refl) in Hi. cbn [rbind] in Hi. apply rbind_ok in Hi as (rgb & Hr1 & Hi).
      rewrite (hint_u _ _ _ _ "color_light" 8%nat 4%nat V1 eq_refl) in Hi. cbn [rbind] in Hi. apply rbind_ok in Hi as (lrgb & Hr2 & Hi).
      rewrite (hint_u _ _ _ _ "light" 12%nat 4%nat V1 eq_refl) in Hi. cbn [rbind] in Hi. apply rbind_ok in Hi as (laser & Hr3 & Hi).
      apply vk_height_iff in Hr3 as [Hb3 ->]; [|exact Hf]. apply ok_inj in Hi.
      exists rgb, lrgb. split; [exact Hr1|]. split; [exact Hr2|]. split; [exact Hb3|]. rewrite <- Hi. reflexivity.
  - intros ((L2 & L3 & Hblock & (h4 & Hst) & St) & -> & Hi).
    rewrite slice_len by lia. change (0 + 12)%nat with 12%nat.
    assert (V1 : values_ok Utf8 b 12 vk_offsets = true).
    { apply numeric_ok; [is_numeric|]. change (lsize vk_offsets) with 68%nat. lia. }
    rewrite (proj1 (read_layout_values Utf8 vk_offsets b 12 ltac:(is_sized) ltac:(is_distinct)) V1). cbn [rbind].
    rewrite (hint_u _ _ _ _ "meas_conds" 0%nat 4%nat V1 eq_refl). cbn [rbind]. unfold fseek. cbn [contents].
    change (12 + 0)%nat with 12%nat. fold (u32 b 12). set (m := Z.to_nat (u32 b 12)) in *.
    assert (V2 : values_ok Utf8 b m vk_conditions = true).
    { apply numeric_ok; [is_numeric|]. change (lsize vk_conditions) with 304%nat. lia. }
    rewrite (proj1 (read_layout_values Utf8 vk_conditions b m ltac:(is_sized) ltac:(is_distinct)) V2). cbn [rbind].
    assert (I : (if im then
        rbind (hint (values Utf8 b 12 vk_offsets) "color_peak") (fun cp => rbind (vk_read_rgb cp {| contents := b; pos := m + lsize vk_conditions |}) (fun rgb =>
        rbind (hint (values Utf8 b 12 vk_offsets) "color_light") (fun cl => rbind (vk_read_rgb cl {| contents := b; pos := m + lsize vk_conditions |}) (fun lrgb =>
        rbind (hint (values Utf8 b 12 vk_offsets) "light") (fun li => rbind (vk_read_height li {| contents := b; pos := m + lsize vk_conditions |}) (fun laser =>
        Ok [("RGB"%string, rgb); ("Laser+RGB"%string, lrgb); ("Laser"%string, map (map (fun v => [v])) laser)]))))))
        else Ok []) = Ok l).
    { destruct im; [|subst l; reflexivity]. destruct Hi as (rgb & lrgb & H1 & H2 & H3 & ->).
      rewrite (hint_u _ _ _ _ "color_peak" 4%nat 4%nat V1 eq_refl). cbn [rbind].
      change (vk_read_rgb (uint 4 b (12 + 4)) _) with (vk_read_rgb (u32 b 16) (opened b)). rewrite H1. cbn [rbind].
      rewrite (hint_u _ _ _ _ "color_light" 8%nat 4%nat V1 eq_refl). cbn [rbind].
      change (vk_read_rgb (uint 4 b (12 + 8)) _) with (vk_read_rgb (u32 b 20) (opened b)). rewrite H2. cbn [rbind].
      rewrite (hint_u _ _ _ _ "light" 12%nat 4%nat V1 eq_refl). cbn [rbind].
      rewrite (proj2 (vk_height_iff (uint 4 b (12 + 12)) b _ (vk_codes b (Z.to_nat (u32 b 24))) Hf)) by (split; [exact H3|reflexivity]).
      reflexivity. }
    rewrite I. cbn [rbind]. clear I.
    rewrite (hint_u _ _ _ _ "height" 24%nat 4%nat V1 eq_refl). cbn [rbind].
    rewrite (proj2 (vk_height_iff (uint 4 b (12 + 24)) b _ (vk_codes b (Z.to_nat (u32 b 36))) Hf)) by (split; [exact Hblock|reflexivity]). cbn [rbind].
    rewrite (hint_u _ _ _ _ "string_data" 64%nat 4%nat V1 eq_refl). cbn [rbind].
    change (vk_read_strings en (uint 4 b (12 + 64)) _) with (vk_read_strings en (u32 b 76) (opened b)). rewrite Hst. cbn [rbind].
    rewrite (hint_u _ _ _ _ "z_length_per_digit" 176%nat 4%nat V2 eq_refl), (hint_u _ _ _ _ "x_length_per_pixel" 168%nat 4%nat V2 eq_refl), (hint_u _ _ _ _ "y_length_per_pixel" 172%nat 4%nat V2 eq_refl),
      (hint_u _ _ _ _ "year" 4%nat 4%nat V2 eq_refl), (hint_u _ _ _ _ "month" 8%nat 4%nat V2 eq_refl), (hint_u _ _ _ _ "day" 12%nat 4%nat V2 eq_refl),
      (hint_u _ _ _ _ "hour" 16%nat 4%nat V2 eq_refl), (hint_u _ _ _ _ "minute" 20%nat 4%nat V2 eq_refl), (hint_u _ _ _ _ "second" 24%nat 4%nat V2 eq_refl).
    cbn [rbind]. change (datetime_ok _ _ _ _ _ _) with (vk_stamp b). rewrite St. reflexivity.
Qed.

(** C74: positions of the blocks are given by the offset table at byte 12; w x h codes of 2 or 4 bytes behind a 796-byte block
    header; picometres. *)
Theorem C74_vk4 : forall en im (b : bytes) s l, is_file b -> read_vk4 en im (opened b) = Ok (s, l) ->
  let m := Z.to_nat (u32 b 12) in let o := Z.to_nat (u32 b 36) in
  let w := Z.to_nat (u32 b o) in let h := Z.to_nat (u32 b (o + 4)) in let k := Z.to_nat (u32 b (o + 8) / 8) in
  (u32 b (o + 8) = 16 \/ u32 b (o + 8) = 32) /\ u32 b (o + 16) = Z.of_nat (h * w * k) /\
  (80 <= length b)%nat /\ (m + 304 <= length b)%nat /\ (h * w <> 0 -> o + 796 + h * w * k <= length b)%nat /\
  table_is (rdata s) h w (fun i j x =>
    x = fmul (f64_of_Z (uint k b (o + 796 + (i * w + j) * k))) (fmul (pow10 (-6)) (f64_of_Z (u32 b (m + 176))))) /\
  rstep_x s = fmul (f64_of_Z (u32 b (m + 168))) (pow10 (-6)) /\ rstep_y s = fmul (f64_of_Z (u32 b (m + 172))) (pow10 (-6)).
Proof.
  intros en im b s l Hf H m o w h k. apply vk4_iff in H as ((L1 & L2 & (L3 & B & Q & C) & _) & -> & _); [|exact Hf]. fold o in L3, B, Q, C. fold w h in C.
  pose proof (u32_nonneg b o Hf) as N1. pose proof (u32_nonneg b (o + 4) Hf) as N2.
  split; [exact B|]. split.
  { unfold k, h, w. rewrite !Nat2Z.inj_mul, !Z2Nat.id by (try lia; apply Z.div_pos; lia). destruct B as [B|B]; rewrite B in *.
    - change (16 / 8) with 2. lia.
    - change (32 / 8) with 4. lia. }
  split; [exact L1|]. split; [exact L2|]. split; [exact C|]. split; [|split; reflexivity].
  unfold vk_surface, vk_codes. cbn [rdata]. rewrite grid_map. apply grid_is. reflexivity.
Qed.
(** The time of the measurement in the file is a date of the Gregorian calendar. *)
Definition leap_year (y : Z) : Prop := ((4 | y) /\ ~ (100 | y)) \/ (400 | y).
Definition long_months : list Z := [1; 3; 5; 7; 8; 10; 12].
Definition is_time (y mo d h mi s : Z) : Prop :=
  1 <= y <= 9999 /\ 1 <= mo <= 12 /\
  (1 <= d <= 28 \/ (d = 29 /\ (mo <> 2 \/ leap_year y)) \/ (d = 30 /\ mo <> 2) \/ (d = 31 /\ In mo long_months)) /\
  0 <= h < 24 /\ 0 <= mi < 60 /\ 0 <= s < 60.
Lemma leap_spec y : leap y = true <-> leap_year y.
Proof.
  unfold leap, leap_year. rewrite andb_true_iff, orb_true_iff, negb_true_iff, !Z.eqb_eq, Z.eqb_neq.
  rewrite <- !Z.mod_divide by lia. split.
  - intros [A [B|B]]; [left; auto|right; auto].
  - intros [[A B]|B]; [auto|]. split; [|auto]. apply Z.mod_divide in B as [k ->]; [|lia].
    replace (k * 400) with (k * 100 * 4) by ring. apply Z.mod_mul. lia.
Qed.
Lemma time_spec y mo d h mi s : datetime_ok y mo d h mi s = true <-> is_time y mo d h mi s.
Proof.
  unfold datetime_ok, is_time. rewrite !andb_true_iff, !Z.leb_le, !Z.ltb_lt.
  assert (M : 1 <= mo <= 12 -> (1 <= d /\ d <= month_days y mo <->
    (1 <= d <= 28 \/ (d = 29 /\ (mo <> 2 \/ leap_year y)) \/ (d = 30 /\ mo <> 2) \/ (d = 31 /\ In mo long_months)))).
  { intros Hm. assert (C : mo = 1 \/ mo = 2 \/ mo = 3 \/ mo = 4 \/ mo = 5 \/ mo = 6 \/ mo = 7 \/ mo = 8 \/ mo = 9 \/ mo = 10 \/ mo = 11 \/ mo = 12) by lia.
    rewrite <- (leap_spec y). unfold month_days, long_months. cbn [In].
    repeat (destruct C as [->|C]; [cbn [Z.eqb Pos.eqb orb]; destruct (leap y); intuition (lia || discriminate)|]).
    subst mo. cbn [Z.eqb Pos.eqb orb]. destruct (leap y); intuition (lia || discriminate). }
  split.
  - intros H. decompose [and] H. assert (Hm : 1 <= mo <= 12) by lia. repeat split; try assumption. apply M; auto.
  - intros (A & B & C & D & E' & F). apply M in C; [|exact B]. repeat split; try apply A; try apply B; try apply C; try apply D; try apply E'; apply F.
Qed.
Theorem C74_vk4_time : forall en im (b : bytes) s l, is_file b -> read_vk4 en im (opened b) = Ok (s, l) ->
  let m := Z.to_nat (u32 b 12) in
  is_time (u32 b (m + 4)) (u32 b (m + 8)) (u32 b (m + 12)) (u32 b (m + 16)) (u32 b (m + 20)) (u32 b (m + 24)).
Proof. intros en im b s l Hf H m. apply vk4_iff in H as ((_ & _ & _ & _ & St) & _); [|exact Hf]. apply time_spec. exact St. Qed.
Theorem C74_vk4_reads : forall en (b : bytes), is_file b ->
  let m := Z.to_nat (u32 b 12) in let o := Z.to_nat (u32 b 36) in let t := Z.to_nat (u32 b 76) in
  let w := Z.to_nat (u32 b o) in let h := Z.to_nat (u32 b (o + 4)) in let k := Z.to_nat (u32 b (o + 8) / 8) in
  let n1 := (2 * Z.to_nat (u32 b t))%nat in let n2 := (2 * Z.to_nat (u32 b (t + 4 + n1)))%nat in
  (80 <= length b)%nat -> (m + 304 <= length b)%nat -> (u32 b (o + 8) = 16 \/ u32 b (o + 8) = 32) -> u32 b (o + 16) = Z.of_nat (h * w * k) ->
  (o + 796 + h * w * k <= length b)%nat -> (t + 4 + n1 + 4 + n2 <= length b)%nat ->
  is_ok (decode en (firstn n1 (skipn (t + 4) b))) = true -> is_ok (decode en (firstn n2 (skipn (t + 4 + n1 + 4) b))) = true ->
  is_time (u32 b (m + 4)) (u32 b (m + 8)) (u32 b (m + 12)) (u32 b (m + 16)) (u32 b (m + 20)) (u32 b (m + 24)) ->
  exists s, read_vk4 en false (opened b) = Ok (s, []).
Proof.
  intros en b Hf m o t w h k n1 n2 L1 L2 B Q C T D1 D2 St. apply time_spec in St. exists (vk_surface b). apply vk4_iff; [exact Hf|]. split; [|auto].
  pose proof (u32_nonneg b o Hf) as N1. pose proof (u32_nonneg b (o + 4) Hf) as N2.
  split; [exact L1|]. split; [exact L2|]. split; [|split; [|exact St]].
  - split; [fold o; lia|]. split; [exact B|]. split; [|intros _; exact C]. fold o. rewrite Q. unfold k, h, w.
    rewrite !Nat2Z.inj_mul, !Z2Nat.id by (try lia; apply Z.div_pos; lia). destruct B as [B|B]; rewrite B; [change (16 / 8) with 2|change (32 / 8) with 4]; lia.
  - destruct (decode en (firstn n1 _)) as [s1|] eqn:E1; [|discriminate]. destruct (decode en (firstn n2 _)) as [s2|] eqn:E2; [|discriminate].
    assert (Ln : length (slice (t + 4) n1 b) = n1) by (apply slice_len; lia).
    unfold vk_strings, vk_read_strings, fseek, opened. cbn [contents]. fold t. eexists.
    rewrite (vk_string_ok en b t s1) by (auto; lia). cbn [rbind]. fold n1. rewrite Ln.
    apply (vk_string_ok en b (t + 4 + n1) s2); [lia|exact E2].
Qed.
(** C75: a cut that removes any byte of the offset table, the measurement conditions or the heights is detected *)
Theorem C75_vk4_cut : forall en im im' (b : bytes) s l k, is_file b -> read_vk4 en im (opened b) = Ok (s, l) ->
  let m := Z.to_nat (u32 b 12) in let o := Z.to_nat (u32 b 36) in
  let n := (Z.to_nat (u32 b (o + 4)) * Z.to_nat (u32 b o))%nat in
  (k < 80 \/ k < m + 304 \/ k < o + 28 \/ (n <> 0 /\ k < o + 796 + n * Z.to_nat (u32 b (o + 8) / 8)))%nat ->
  is_ok (read_vk4 en im' (opened (firstn k b))) = false.
Proof.
  intros en im im' b s l k Hf H m o n Hk. apply vk4_iff in H as ((L1 & L2 & (L3 & B & Q & C) & _) & _ & _); [|exact Hf].
  fold m in L2. fold o in L3, B, Q, C. fold n in C.
  assert (Kl : (k <= length b)%nat).
  { destruct Hk as [Hk|[Hk|[Hk|[Hn Hk]]]]; [clear - Hk L1; lia|clear - Hk L2; lia|clear - Hk L3; lia|].
    specialize (C Hn). unfold vk_bytes in C. clear - Hk C. lia. }
  destruct (read_vk4 en im' (opened (firstn k b))) as [[s' l']|ex] eqn:E; [exfalso|reflexivity].
  apply vk4_iff in E as ((L1' & L2' & (L3' & _ & _ & C') & _) & _ & _); [|apply is_file_firstn; exact Hf].
  rewrite firstn_length in L1', L2', L3', C'. assert (K : (80 <= k)%nat) by (clear - L1'; lia).
  rewrite (u32_firstn k b 12) in L2' by (clear - K Kl; lia). rewrite (u32_firstn k b 36) in L3', C' by (clear - K Kl; lia).
  fold m in L2'. fold o in L3', C'.
  assert (K2 : (o + 28 <= k)%nat) by (clear - L3'; lia).
  rewrite (u32_firstn k b o), (u32_firstn k b (o + 4)), (u32_firstn k b (o + 8)) in C' by (clear - K2 Kl; lia). fold n in C'.
  destruct Hk as [Hk|[Hk|[Hk|[Hn Hk]]]]; [clear - Hk L1'; lia|clear - Hk L2'; lia|clear - Hk L3'; lia|].
  specialize (C' Hn). unfold vk_bytes in C'. clear - Hk C'. lia.
Qed.
Lemma u32_app b t o : (o + 4 <= length b)%nat -> u32 (b ++ t) o = u32 b o.
Proof. intros H. apply uint_app. exact H. Qed.
Theorem C75_vk4_trailing : forall en (b e : bytes) s, is_file (b ++ e) -> read_vk4 en false (opened b) = Ok (s, []) ->
  (let t := Z.to_nat (u32 b 76) in let n1 := (2 * Z.to_nat (u32 b t))%nat in
   t + 4 + n1 + 4 + 2 * Z.to_nat (u32 b (t + 4 + n1)) <= length b)%nat ->
  read_vk4 en false (opened (b ++ e)) = Ok (s, []).
Proof.
  intros en b e s Hf H T. assert (Hb : is_file b) by (apply Forall_app in Hf; apply Hf). cbv zeta in T.
  apply vk4_iff in H as ((L1 & L2 & (L3 & B & Q & C) & (h & St) & D) & -> & _); [|exact Hb]. apply vk4_iff; [exact Hf|].
  unfold vk_complete, vk_surface, vk_block, vk_strings, vk_stamp. rewrite (u32_app b e 12), (u32_app b e 36), (u32_app b e 76) by lia.
  set (m := Z.to_nat (u32 b 12)) in *. set (o := Z.to_nat (u32 b 36)) in *. set (t := Z.to_nat (u32 b 76)) in *.
  rewrite app_length, !(u32_app b e (m + 4)), !(u32_app b e (m + 8)), !(u32_app b e (m + 12)), !(u32_app b e (m + 16)), !(u32_app b e (m + 20)),
    !(u32_app b e (m + 24)), !(u32_app b e (m + 168)), !(u32_app b e (m + 172)), !(u32_app b e (m + 176)),
    !(u32_app b e o), !(u32_app b e (o + 4)), !(u32_app b e (o + 8)), !(u32_app b e (o + 16)) by lia.
  split; [|split; [|reflexivity]].
  - split; [lia|]. split; [lia|]. split; [|split; [|exact D]].
    + split; [lia|]. split; [exact B|]. split; [exact Q|]. intros E. specialize (C E). lia.
    + unfold vk_read_strings, fseek, opened in *. cbn [contents] in *. fold t in St |- *.
      apply rbind_ok in St as (h1 & S1 & S2). apply vk_string_inv in S1 as (_ & S1 & ->). rewrite slice_len in S2 by lia.
      apply vk_string_inv in S2 as (_ & S2 & _).
      set (n1 := (2 * Z.to_nat (u32 b t))%nat) in *. set (n2 := (2 * Z.to_nat (u32 b (t + 4 + n1)))%nat) in *.
      destruct (decode en (slice (t + 4) n1 b)) as [s1|] eqn:E1; [|discriminate]. destruct (decode en (slice (t + 4 + n1 + 4) n2 b)) as [s2|] eqn:E2; [|discriminate].
      eexists. rewrite (vk_string_ok en (b ++ e) t s1).
      * cbn [rbind]. rewrite u32_app by lia. fold n1. rewrite slice_len by (rewrite app_length; lia).
        apply (vk_string_ok en (b ++ e) (t + 4 + n1) s2); [rewrite app_length; lia|].
        rewrite u32_app by lia. fold n2. rewrite slice_app by lia. exact E2.
      * rewrite app_length. lia.
      * rewrite u32_app by lia. fold n1. rewrite slice_app by lia. exact E1.
  - unfold vk_codes. rewrite !(u32_app b e o), !(u32_app b e (o + 4)), !(u32_app b e (o + 8)) by lia. rewrite !grid_map. f_equal. apply grid_ext'. intros i j Hi Hj. do 2 f_equal.
    symmetry. apply uint_app. apply (item_in _ (Z.to_nat (u32 b (o + 4)))); auto. apply C. nia.
Qed.
(** C76: three image layers; the colour bytes are stored in reverse order *)
Theorem C76_vk4 : forall en (b : bytes) s l, is_file b -> read_vk4 en true (opened b) = Ok (s, l) ->
  read_vk4 en false (opened b) = Ok (s, []) /\
  let colour o img := table_is img (Z.to_nat (u32 b (o + 4))) (Z.to_nat (u32 b o)) (fun i j px =>
    px = map (fun c => byte b (o + 20 + (i * Z.to_nat (u32 b o) + j) * 3 + c)) [2; 1; 0]%nat) in
  let laser o img := table_is img (Z.to_nat (u32 b (o + 4))) (Z.to_nat (u32 b o)) (fun i j px =>
    let k := Z.to_nat (u32 b (o + 8) / 8) in px = [uint k b (o + 796 + (i * Z.to_nat (u32 b o) + j) * k)]) in
  exists rgb lrgb las, l = [("RGB"%string, rgb); ("Laser+RGB"%string, lrgb); ("Laser"%string, las)] /\
    colour (Z.to_nat (u32 b 16)) rgb /\ colour (Z.to_nat (u32 b 20)) lrgb /\ laser (Z.to_nat (u32 b 24)) las.
Proof.
  intros en b s l Hf H. apply vk4_iff in H as (C & -> & (rgb & lrgb & R1 & R2 & R3 & ->)); [|exact Hf].
  split; [apply vk4_iff; auto|]. intros colour laser. apply vk_rgb_inv in R1 as (_ & _ & _ & R1); [|exact Hf].
  apply vk_rgb_inv in R2 as (_ & _ & _ & R2); [|exact Hf].
  exists rgb, lrgb. eexists. split; [reflexivity|]. split; [exact R1|]. split; [exact R2|].
  unfold laser, vk_codes. rewrite grid_map. apply grid_is. reflexivity.
Qed.
