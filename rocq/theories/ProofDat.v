(** C78: MetroPro files (surfalize/file/dat.py). *)
From Coq Require Import String Ascii ZArith Lia Bool.
From Coq Require Import List.
From Flocq Require Import IEEE754.BinarySingleNaN IEEE754.Binary IEEE754.Bits.
From Verif Require Import Base ModelBytes ModelSur ModelFormats ModelReaders ModelDat SpecReaders SpecDat ProofBytes ProofReaders PropsMagic PropsLayout PropsReaders PropsVk.
Import ListNotations.
Local Open Scope Z_scope.

(** *** big-endian numbers *)
Lemma unle_rev_slice n : forall b o, (o + n <= length b)%nat -> unle (rev (slice o n b)) = uint_be n b o.
Proof.
  induction n as [|n IH]; intros b o H; [reflexivity|].
  assert (E : slice o (S n) b = (slice o n b ++ [byte b (o + n)])%list).
  { unfold slice. rewrite <- (firstn_skipn n (firstn (S n) (skipn o b))). rewrite firstn_firstn. replace (Nat.min n (S n)) with n by lia. f_equal.
    rewrite skipn_firstn_comm. replace (S n - n)%nat with 1%nat by lia. rewrite PropsFits.skipn_skipn. rewrite (skipn_cons_nth 0) by lia. cbn [firstn]. unfold byte. repeat f_equal; lia. }
  rewrite E, rev_app_distr. cbn [rev app unle uint_be]. rewrite IH by lia. lia.
Qed.
Lemma uint_be_range n : forall b o, is_file b -> 0 <= uint_be n b o < 256 ^ Z.of_nat n.
Proof.
  induction n as [|n IH]; intros b o H; [cbn; lia|]. cbn [uint_be]. rewrite Nat2Z.inj_succ, Z.pow_succ_r by lia. pose proof (IH b o H) as I.
  assert (0 <= byte b (o + n) < 256).
  { unfold byte. destruct (Nat.lt_ge_cases (o + n) (length b)) as [L|L]; [|rewrite nth_overflow by lia; lia]. unfold is_file in H. rewrite Forall_forall in H. apply H. apply nth_In. exact L. }
  lia.
Qed.
Lemma uint_be_app n : forall o a c, (o + n <= length a)%nat -> uint_be n (a ++ c) o = uint_be n a o.
Proof. induction n as [|n IH]; intros o a c H; cbn [uint_be]; [reflexivity|]. rewrite IH by lia. unfold byte. rewrite app_nth1 by lia. reflexivity. Qed.
Lemma to_signed_compl n v : (n = 2 \/ n = 4)%nat -> to_signed n v = two_compl (8 * Z.of_nat n) v.
Proof. intros [-> | ->]; reflexivity. Qed.
(** *** fields read by conversion *)
Fixpoint locate_c (l : list entry) (name : string) : option (nat * fmt * (pyval -> res pyval)) :=
  match l with
  | [] => None
  | Reserved n :: l' => option_map (fun '(o, f, r) => (n + o, f, r)%nat) (locate_c l' name)
  | Entry k (Fixed f) :: l' => if String.eqb name k then None else option_map (fun '(o, g, r) => (calcsize f + o, g, r)%nat) (locate_c l' name)
  | Entry k (Convert f rd _) :: l' => if String.eqb name k then Some (0%nat, f, rd) else option_map (fun '(o, g, r) => (calcsize f + o, g, r)%nat) (locate_c l' name)
  | Entry k (FromPrev _) :: l' => None
  end.
Lemma locate_c_spec en b name : forall l p o f rd, locate_c l name = Some (o, f, rd) ->
  dget (values en b p l) name = Some (conv_val rd (raw_field f (slice (p + o) (calcsize f) b))) /\
  (values_ok en b p l = true -> (p + o + calcsize f <= length b)%nat).
Proof.
  induction l as [|e l IH]; intros p o f rd H; [discriminate|].
  destruct e as [n|k [g|prev|g rd' wr]]; cbn [locate_c values values_ok dget] in *; try discriminate.
  - destruct (locate_c l name) as [[[o' f'] r']|]; [|discriminate]. cbn in H. injection H as <- <- <-.
    destruct (IH (p + n)%nat o' f' r' eq_refl) as [I1 I2]. rewrite Nat.add_assoc. auto.
  - destruct (String.eqb name k); [discriminate|].
    destruct (locate_c l name) as [[[o' f'] r']|]; [|discriminate]. cbn in H. injection H as <- <- <-.
    destruct (IH (p + calcsize g)%nat o' f' r' eq_refl) as [I1 I2]. rewrite Nat.add_assoc. split; [exact I1|].
    intros V. apply andb_prop in V as [_ V]. auto.
  - destruct (String.eqb name k).
    + injection H as <- <- <-. rewrite Nat.add_0_r. split; [reflexivity|]. intros V.
      apply andb_prop in V as [V _]. apply andb_prop in V as [V _]. apply Nat.leb_le in V. exact V.
    + destruct (locate_c l name) as [[[o' f'] r']|]; [|discriminate]. cbn in H. injection H as <- <- <-.
      destruct (IH (p + calcsize g)%nat o' f' r' eq_refl) as [I1 I2]. rewrite Nat.add_assoc. split; [exact I1|].
      intros V. apply andb_prop in V as [_ V]. auto.
Qed.
Section fields.
Variables (en : encoding) (b : bytes) (p : nat) (l : list entry) (name : string) (o : nat).
Hypothesis V : values_ok en b p l = true.
Lemma in_c f rd : locate_c l name = Some (o, f, rd) -> (p + o + calcsize f <= length b)%nat.
Proof. intros H. apply (proj2 (locate_c_spec en b name l p o f rd H)). exact V. Qed.
Lemma hint_be_u n : locate_c l name = Some (o, FStr n, conv (fun c => VInt (as_int true false n c))) -> hint (values en b p l) name = Ok (uint_be n b (p + o)).
Proof.
  intros H. pose proof (in_c _ _ H) as L. destruct (locate_c_spec en b name l p o _ _ H) as [D _]. cbn [calcsize] in *.
  unfold hint, dkey. rewrite D. unfold conv_val, conv, raw_field. cbn [rbind]. unfold as_int, endian. rewrite unle_rev_slice by exact L. reflexivity.
Qed.
Lemma hint_be_s n : (n = 2 \/ n = 4)%nat -> locate_c l name = Some (o, FStr n, conv (fun c => VInt (as_int true true n c))) ->
  hint (values en b p l) name = Ok (two_compl (8 * Z.of_nat n) (uint_be n b (p + o))).
Proof.
  intros N H. pose proof (in_c _ _ H) as L. destruct (locate_c_spec en b name l p o _ _ H) as [D _]. cbn [calcsize] in *.
  unfold hint, dkey. rewrite D. unfold conv_val, conv, raw_field. cbn [rbind]. unfold as_int, endian. rewrite unle_rev_slice by exact L. rewrite to_signed_compl by exact N. reflexivity.
Qed.
Lemma hflt_be : locate_c l name = Some (o, FStr 4, conv (fun c => VFloat (as_f32 true (firstn 4 c)))) -> hflt (values en b p l) name = Ok (Single b (p + o)).
Proof.
  intros H. pose proof (in_c _ _ H) as L. destruct (locate_c_spec en b name l p o _ _ H) as [D _]. cbn [calcsize] in *.
  unfold hflt, dkey. rewrite D. unfold conv_val, conv, raw_field. cbn [rbind]. unfold as_f32, endian.
  change (firstn 4 (slice (p + o) 4 b)) with (slice 0 4 (slice (p + o) 4 b)). rewrite slice_slice, Nat.add_0_r by lia. rewrite unle_rev_slice by exact L. reflexivity.
Qed.
End fields.
(** which files have a readable layout *)
Fixpoint text_fields (p : nat) (l : list entry) : list (nat * nat) :=
  match l with
  | [] => []
  | Reserved n :: l' => text_fields (p + n) l'
  | Entry _ (Fixed (FStr n)) :: l' => (p, n) :: text_fields (p + n) l'
  | Entry _ (Fixed f) :: l' => text_fields (p + calcsize f) l'
  | Entry _ (Convert f _ _) :: l' => text_fields (p + calcsize f) l'
  | Entry _ (FromPrev _) :: l' => text_fields p l'
  end.
Definition conv_ok (e : entry) : Prop := match e with Reserved _ => True | Entry _ (Fixed (FStr _)) => True | Entry _ (Convert (FStr n) rd _) => forall c, is_ok (rd (VBytes c)) = true | _ => False end.
Lemma values_ok_texts b : forall l p, Forall conv_ok l -> (p + lsize l <= length b)%nat -> readable b (text_fields p l) -> values_ok Utf8 b p l = true.
Proof.
  induction l as [|e l IH]; intros p H L R; [reflexivity|]. inversion H as [|? ? He Hl]; subst. rewrite lsize_cons in L.
  destruct e as [n|k [f|q|f rd wr]]; cbn [conv_ok values_ok esize text_fields] in *; try contradiction.
  - apply IH; [exact Hl|lia|exact R].
  - destruct f; try contradiction. cbn [calcsize] in *. inversion R as [|? ? R1 R2]; subst. rewrite IH by (auto; lia). rewrite (proj2 (Nat.leb_le _ _)) by lia.
    cbn [field_ok]. unfold slice. rewrite R1. reflexivity.
  - destruct f; try contradiction. cbn [calcsize raw_field] in *. rewrite IH by (auto; lia). rewrite (proj2 (Nat.leb_le _ _)) by lia. rewrite He. reflexivity.
Qed.
Lemma values_ok_app en b e : forall l p, values_ok en b p l = true -> values_ok en (b ++ e) p l = true.
Proof.
  induction l as [|x l IH]; intros p H; [reflexivity|]. destruct x as [n|k [f|q|f rd wr]]; cbn [values_ok] in *; try discriminate; auto.
  - apply andb_prop in H as [H H3]. apply andb_prop in H as [H1 H2]. apply Nat.leb_le in H1. rewrite IH by exact H3.
    rewrite slice_app by exact H1. rewrite H2, (proj2 (Nat.leb_le _ _)) by (rewrite app_length; lia). reflexivity.
  - apply andb_prop in H as [H H3]. apply andb_prop in H as [H1 H2]. apply Nat.leb_le in H1. rewrite IH by exact H3.
    rewrite slice_app by exact H1. rewrite H2, (proj2 (Nat.leb_le _ _)) by (rewrite app_length; lia). reflexivity.
Qed.
(** *** the file *)
Definition dat_surface (b : bytes) : raw :=
  {| rdata := map (map (dat_height (Single b 164) (Single b 168) (Single b 176) (dat_res (I16 b 218)))) (grid (cn_h b) (cn_w b) (fun i j => I32 b (dat_start b + (i * cn_w b + j) * 4)));
     rstep_x := fmul (Single b 184) (pow10 6); rstep_y := fmul (Single b 184) (pow10 6) |}.
Definition dat_header_ok (b : bytes) : Prop :=
  dat_kind b /\ values_ok Utf8 b 4 dat_header = true /\ (U16 b 4 = 3 -> values_ok Utf8 b 834 dat_header_3 = true) /\
  U16 b 52 * U16 b 54 * U16 b 56 * 2 = U32 b 60.
Definition dat_layers (b : bytes) (l : image_layers) : Prop :=
  exists h', dat_images (U16 b 52) (U16 b 54) (U16 b 56) (I16 b 58) {| contents := b; pos := dat_header_end b |} = Ok (l, h').
Definition dat_heights_ok (b : bytes) : Prop :=
  ((cn_h b * cn_w b <> 0 -> dat_start b + cn_h b * cn_w b * 4 <= length b)%nat) /\ (I16 b 218 = 1 \/ I16 b 218 = 2 \/ I16 b 218 = 3).
Lemma dat_kind_iff b : (4 <= length b)%nat -> existsb (zs_eqb (slice 0 4 b)) dat_magics && dat_valid (slice 0 4 b) (U16 b 4) (U32 b 6) = true <-> dat_kind b.
Proof.
  intros L. assert (E : slice 0 4 b = (firstn 3 b ++ [byte b 3])%list).
  { destruct b as [|a0 [|a1 [|a2 [|a3 b]]]]; cbn [length] in L; try lia. reflexivity. }
  assert (L3 : length (firstn 3 b) = 3%nat) by (rewrite firstn_length; lia).
  assert (Q : forall x, zs_eqb (slice 0 4 b) [136; 27; 3; x] = true <-> firstn 3 b = [136; 27; 3] /\ byte b 3 = x).
  { intros x. split.
    - intros H. apply zs_eqb_eq in H. rewrite E in H. change [136; 27; 3; x] with ([136; 27; 3] ++ [x])%list in H. apply app_inj_tail in H. exact H.
    - intros [H1 H2]. rewrite E, H1, H2. apply zs_eqb_refl. }
  unfold dat_kind, dat_valid, dat_magics. cbn [existsb]. rewrite !orb_false_r, !andb_true_iff, !orb_true_iff, !andb_true_iff, !Q, !Z.eqb_eq. intuition congruence.
Qed.
Lemma dat_resolution_iff k r : dat_resolution k = Ok r <-> (k = 1 \/ k = 2 \/ k = 3) /\ r = dat_res k.
Proof.
  unfold dat_resolution, dat_res. destruct (Z.eqb_spec k 1); [|destruct (Z.eqb_spec k 2); [|destruct (Z.eqb_spec k 3)]].
  1-3: split; [intros H; apply ok_inj in H; subst r; auto|intros [_ ->]; reflexivity].
  split; [discriminate|lia].
Qed.
Lemma dat_images_pos w hh k range b p l h : 0 <= w -> 0 <= hh -> 0 <= k -> 0 < w * hh * k -> dat_images w hh k range {| contents := b; pos := p |} = Ok (l, h) ->
  h = {| contents := b; pos := p + Z.to_nat (w * hh * k * 2) |} /\ (p + Z.to_nat (w * hh * k * 2) <= length b)%nat.
Proof.
  intros Hw Hh Hk Hp H. unfold dat_images in H. apply rbind_ok in H as ([its h1] & H1 & H). apply rbind_ok in H as (ly & H2 & H).
  destruct (existsb _ _); [discriminate|]. apply ok_inj in H. injection H as <- <-.
  assert (Ln : length its = Z.to_nat (w * hh * k)).
  { destruct (1 <? k) eqn:K.
    - apply rmap_ok in H2 as (m & H2 & _). apply (reshape3_inv 0) in H2 as [L _]. rewrite map_length in L. rewrite L. nia.
    - apply rmap_ok in H2 as (m & H2 & _). apply (reshape_inv 0) in H2 as [L _]. rewrite map_length in L. rewrite L. assert (k = 1) by nia. subst k. nia. }
  apply read_items_inv in H1 as [_ H1]; [|lia|lia]. destruct (H1 Ln) as (C & _ & ->).
  replace (Z.to_nat (w * hh * k * 2)) with (Z.to_nat (w * hh * k) * 2)%nat by lia. split; [reflexivity|lia].
Qed.
Lemma dat_locs : (lsize dat_header = 830 /\ lsize dat_header_3 = 3262)%nat. Proof. split; vm_compute; reflexivity. Qed.
Lemma dat_iff en im b s l : is_file b -> read_dat en im (opened b) = Ok (s, l) <->
  dat_header_ok b /\ dat_heights_ok b /\ s = dat_surface b /\ (if (0 <? U32 b 60) && im then dat_layers b l else l = []).
Proof.
  intros Hf. unfold read_dat, opened. rewrite fread_slice. unfold dat_header_ok.
  destruct (Nat.le_gt_cases 4 (length b)) as [L4|L4].
  2:{ assert (X : existsb (zs_eqb (slice 0 4 b)) dat_magics = false).
      { destruct (existsb _ _) eqn:E; [|reflexivity]. apply existsb_exists in E as (m & Hm & E). apply zs_eqb_eq in E. pose proof (slice_length 0 4 b) as SL. rewrite E in SL.
        unfold dat_magics in Hm. cbn [In] in Hm. destruct Hm as [<- |[<- |[<- |[]]]]; cbn [length] in SL; lia. }
      rewrite X. cbn [negb]. split; [discriminate|]. intros ((_ & V & _) & _). exfalso.
      pose proof (in_c Utf8 b 4 dat_header "header_format" 0 V _ _ eq_refl) as X'. cbn [calcsize] in X'. lia. }
  rewrite slice_len by lia. cbn [Nat.add].
  assert (Step : forall V : values_ok Utf8 b 4 dat_header = true, forall d, d = values Utf8 b 4 dat_header ->
    hint d "header_format" = Ok (U16 b 4) /\ hint d "header_size" = Ok (U32 b 6) /\ hint d "ac_width" = Ok (U16 b 52) /\ hint d "ac_height" = Ok (U16 b 54) /\
    hint d "ac_n_buckets" = Ok (U16 b 56) /\ hint d "ac_range" = Ok (I16 b 58) /\ hint d "ac_n_bytes" = Ok (U32 b 60) /\ hint d "cn_width" = Ok (U16 b 68) /\ hint d "cn_height" = Ok (U16 b 70) /\
    hflt d "intf_scale_factor" = Ok (Single b 164) /\ hflt d "wavelength_in" = Ok (Single b 168) /\ hflt d "obliquity_factor" = Ok (Single b 176) /\
    hint d "phase_res" = Ok (I16 b 218) /\ hflt d "lateral_res" = Ok (Single b 184)).
  { intros V d ->.
    split; [exact (hint_be_u Utf8 b 4 dat_header "header_format" 0 V 2 eq_refl)|]. split; [exact (hint_be_u Utf8 b 4 dat_header "header_size" 2 V 4 eq_refl)|].
    split; [exact (hint_be_u Utf8 b 4 dat_header "ac_width" 48 V 2 eq_refl)|]. split; [exact (hint_be_u Utf8 b 4 dat_header "ac_height" 50 V 2 eq_refl)|].
    split; [exact (hint_be_u Utf8 b 4 dat_header "ac_n_buckets" 52 V 2 eq_refl)|]. split; [exact (hint_be_s Utf8 b 4 dat_header "ac_range" 54 V 2 (or_introl eq_refl) eq_refl)|].
    split; [exact (hint_be_u Utf8 b 4 dat_header "ac_n_bytes" 56 V 4 eq_refl)|]. split; [exact (hint_be_u Utf8 b 4 dat_header "cn_width" 64 V 2 eq_refl)|].
    split; [exact (hint_be_u Utf8 b 4 dat_header "cn_height" 66 V 2 eq_refl)|]. split; [exact (hflt_be Utf8 b 4 dat_header "intf_scale_factor" 160 V eq_refl)|].
    split; [exact (hflt_be Utf8 b 4 dat_header "wavelength_in" 164 V eq_refl)|]. split; [exact (hflt_be Utf8 b 4 dat_header "obliquity_factor" 172 V eq_refl)|].
    split; [exact (hint_be_s Utf8 b 4 dat_header "phase_res" 214 V 2 (or_introl eq_refl) eq_refl)|]. exact (hflt_be Utf8 b 4 dat_header "lateral_res" 180 V eq_refl). }
  assert (S1 : Forall sized dat_header) by is_sized. assert (N1 : NoDup (names dat_header)) by is_distinct.
  assert (S3 : Forall sized dat_header_3) by is_sized. assert (N3 : NoDup (names dat_header_3)) by is_distinct.
  pose proof (proj1 (read_layout_values Utf8 dat_header b 4 S1 N1)) as RL. pose proof (proj1 (read_layout_values Utf8 dat_header_3 b 834 S3 N3)) as RL3.
  pose proof (fun d h => read_layout_inv Utf8 dat_header b 4 d h S1 N1) as RI. pose proof (fun d h => read_layout_inv Utf8 dat_header_3 b 834 d h S3 N3) as RI3.
  destruct dat_locs as [D1 D3]. rewrite D1 in RL. rewrite D3 in RL3. clear S1 N1 S3 N3.
  assert (RI' : forall d h, read_layout Utf8 dat_header {| contents := b; pos := 4 |} = Ok (d, h) -> values_ok Utf8 b 4 dat_header = true /\ d = values Utf8 b 4 dat_header /\ h = {| contents := b; pos := 834 |})
    by (intros d h Hr; apply RI in Hr as (Y1 & Y2 & Y3); rewrite D1 in Y3; auto).
  assert (RI3' : forall d h, read_layout Utf8 dat_header_3 {| contents := b; pos := 834 |} = Ok (d, h) -> values_ok Utf8 b 834 dat_header_3 = true /\ h = {| contents := b; pos := 4096 |})
    by (intros d h Hr; apply RI3 in Hr as (Y1 & _ & Y3); rewrite D3 in Y3; auto).
  change (4 + 830)%nat with 834%nat in RL. change (834 + 3262)%nat with 4096%nat in RL3. clear RI RI3 D1 D3.
  set (vs := values Utf8 b 4 dat_header) in *. set (vs3 := values Utf8 b 834 dat_header_3) in *. clearbody vs vs3.
  set (vok := values_ok Utf8 b 4 dat_header) in *. set (vok3 := values_ok Utf8 b 834 dat_header_3) in *. clearbody vok vok3.
  rewrite <- dat_kind_iff by exact L4.
  destruct (existsb (zs_eqb (slice 0 4 b)) dat_magics); cbn [negb andb].
  2:{ split; [discriminate|intros ((X & _) & _); discriminate]. }
  pose proof (uint_be_range 2 b 52 Hf) as B1. pose proof (uint_be_range 2 b 54 Hf) as B2. pose proof (uint_be_range 2 b 56 Hf) as B3. pose proof (uint_be_range 4 b 60 Hf) as B4.
  pose proof (uint_be_range 2 b 68 Hf) as B5. pose proof (uint_be_range 2 b 70 Hf) as B6.
  fold (U16 b 52) in B1. fold (U16 b 54) in B2. fold (U16 b 56) in B3. fold (U32 b 60) in B4. fold (U16 b 68) in B5. fold (U16 b 70) in B6.
  assert (Rest : forall h4, h4 = {| contents := b; pos := dat_start b |} -> forall ly,
    rbind (read_items 4 (U16 b 68 * U16 b 70) h4) (fun '(its, _) =>
    rbind (reshape (Z.to_nat (U16 b 70)) (Z.to_nat (U16 b 68)) (map (as_int true true 4) its)) (fun tab =>
    rbind (Ok (Single b 164)) (fun s =>
    rbind (Ok (Single b 168)) (fun wl =>
    rbind (Ok (Single b 176)) (fun ob =>
    rbind (Ok (I16 b 218)) (fun pr =>
    rbind (dat_resolution pr) (fun r =>
    rbind (Ok (Single b 184)) (fun lr =>
    let st := fmul lr (pow10 6) in
    Ok ({| rdata := map (map (dat_height s wl ob r)) tab; rstep_x := st; rstep_y := st |}, ly)))))))))
    = Ok (s, l) <-> dat_heights_ok b /\ s = dat_surface b /\ l = ly).
  { intros h4 -> ly. assert (G : forall p, grid (cn_h b) (cn_w b) (fun i j => as_int true true 4 (slice (p + (i * cn_w b + j) * 4) 4 b)) = grid (cn_h b) (cn_w b) (fun i j => I32 b (p + (i * cn_w b + j) * 4)) \/ (length b < p + cn_h b * cn_w b * 4 /\ cn_h b * cn_w b <> 0)%nat).
    { intros p. destruct (Nat.le_gt_cases (p + cn_h b * cn_w b * 4) (length b)) as [C|C].
      - left. apply grid_ext'. intros i j Hi Hj. pose proof (item_in 4 (cn_h b) (cn_w b) i j p b Hi Hj C) as X. unfold as_int, endian. rewrite unle_rev_slice by exact X. reflexivity.
      - destruct (Nat.eq_dec (cn_h b * cn_w b) 0) as [Z0|Z0]; [|right; auto]. left. apply grid_ext'. intros i j Hi Hj. nia. }
    unfold dat_heights_ok. cbn [rbind]. split.
    - intros H. apply rbind_ok in H as ([its h'] & H1 & H). apply rbind_ok in H as (tab & H2 & H).
      destruct (table_read (as_int true true 4) 0 4 (U16 b 70) (U16 b 68) b (dat_start b) _ _ _ ltac:(lia) ltac:(lia) ltac:(lia) H1 H2) as (C & -> & _).
      apply rbind_ok in H as (r & Hr & H). apply dat_resolution_iff in Hr as [Hr ->]. apply ok_inj in H. fold (cn_h b) (cn_w b) in *.
      assert (C' : (cn_h b * cn_w b <> 0 -> dat_start b + cn_h b * cn_w b * 4 <= length b)%nat) by (intros X; destruct C as [C|C]; [exfalso; apply X; unfold cn_h, cn_w; apply Z.eq_mul_0 in C as [C|C]; rewrite C; cbn; lia|exact C]).
      split; [split; [exact C'|exact Hr]|].
      destruct (G (dat_start b)) as [E|[E1 E2]]; [|exfalso; specialize (C' E2); lia]. rewrite E in H. split; [exact (eq_sym (f_equal fst H))|exact (eq_sym (f_equal snd H))].
    - intros ((C & Hr) & -> & ->). 
      destruct (Nat.eq_dec (cn_h b * cn_w b) 0) as [Z0|Z0].
      + assert (Zz : U16 b 68 * U16 b 70 = 0).
        { unfold cn_h, cn_w in Z0. apply Nat.eq_mul_0 in Z0 as [Z0|Z0]; [assert (X : U16 b 70 = 0) by lia|assert (X : U16 b 68 = 0) by lia]; rewrite X; lia. }
        rewrite Zz, read_items_0 by lia. cbn [rbind map].
        rewrite (reshape_ok 0) by (cbn [length]; fold (cn_h b) (cn_w b); lia). cbn [rbind].
        rewrite (proj2 (dat_resolution_iff _ _) (conj Hr eq_refl)). cbn [rbind]. unfold dat_surface. do 3 f_equal.
        fold (cn_h b) (cn_w b). f_equal. apply grid_ext'. intros i j Hi Hj. nia.
      + specialize (C Z0). destruct (table_read_ok (as_int true true 4) 4 (U16 b 70) (U16 b 68) b (dat_start b) ltac:(lia) ltac:(lia) ltac:(lia) C) as (its & R1 & R2).
        rewrite R1. cbn [rbind]. rewrite R2. cbn [rbind]. rewrite (proj2 (dat_resolution_iff _ _) (conj Hr eq_refl)). cbn [rbind]. fold (cn_h b) (cn_w b).
        destruct (G (dat_start b)) as [E|[E1 E2]]; [rewrite E; reflexivity|lia]. }
  split.
  - intros H. apply rbind_ok in H as ([d h2] & H1 & H). apply RI' in H1 as (V & Ed & Eh).
    destruct (Step V d Ed) as (F1 & F2 & F3 & F4 & F5 & F6 & F7 & F8 & F9 & F10 & F11 & F12 & F13 & F14). clear Step Ed RL.
    rewrite F1 in H. cbn [rbind] in H. rewrite F2 in H. cbn [rbind] in H. destruct (dat_valid _ _ _) eqn:DV; [|discriminate]. cbn [negb] in H.
    apply rbind_ok in H as (h3 & H3 & H).
    assert (E3 : h3 = {| contents := b; pos := dat_header_end b |} /\ (U16 b 4 = 3 -> vok3 = true)).
    { unfold dat_header_end. destruct (Z.eqb_spec (U16 b 4) 3) as [Q|Q].
      - apply rmap_ok in H3 as ([d3 h3'] & H3 & ->). subst h2. apply RI3' in H3 as [V3 ->]. split; [reflexivity|intros _; exact V3].
      - apply ok_inj in H3. subst. split; [reflexivity|contradiction]. }
    destruct E3 as [E3 V3].
    rewrite F3 in H. cbn [rbind] in H. rewrite F4 in H. cbn [rbind] in H. rewrite F5 in H. cbn [rbind] in H. rewrite F7 in H. cbn [rbind] in H. rewrite F6 in H. cbn [rbind] in H.
    destruct (Z.eqb_spec (U16 b 52 * U16 b 54 * U16 b 56 * 2) (U32 b 60)) as [Q|Q]; [|discriminate]. cbn [negb] in H.
    apply rbind_ok in H as ([ly h4] & H4 & H). subst h3.
    assert (E4 : h4 = {| contents := b; pos := dat_start b |} /\ (if (0 <? U32 b 60) && im then dat_layers b ly else ly = [])).
    { unfold dat_start, ac_bytes. destruct ((0 <? U32 b 60) && im) eqn:C.
      - apply andb_prop in C as [C _]. apply Z.ltb_lt in C. split; [|exists h4; exact H4]. apply dat_images_pos in H4 as [-> _]; try lia. rewrite Q. reflexivity.
      - apply ok_inj in H4. injection H4 as <- <-. split; [reflexivity|reflexivity]. }
    destruct E4 as [E4 HL].
    rewrite F8 in H. cbn [rbind] in H. rewrite F9 in H. cbn [rbind] in H. rewrite F10, F11, F12, F13, F14 in H.
    apply (Rest h4 E4 ly) in H as (HO & -> & ->). split; [|auto]. split; [reflexivity|]. split; [exact V|]. split; [exact V3|exact Q].
  - intros ((DV & V & V3 & Q) & HO & Es & HL). rewrite (RL V). cbn [rbind].
    destruct (Step V vs eq_refl) as (F1 & F2 & F3 & F4 & F5 & F6 & F7 & F8 & F9 & F10 & F11 & F12 & F13 & F14). clear Step RL.
    rewrite F1. cbn [rbind]. rewrite F2. cbn [rbind]. rewrite DV. cbn [negb].
    assert (E3 : (if U16 b 4 =? 3 then rmap snd (read_layout Utf8 dat_header_3 {| contents := b; pos := 834 |}) else Ok {| contents := b; pos := 834 |}) = Ok {| contents := b; pos := dat_header_end b |}).
    { unfold dat_header_end. destruct (Z.eqb_spec (U16 b 4) 3) as [Q3|Q3]; [|reflexivity]. rewrite (RL3 (V3 Q3)). reflexivity. }
    rewrite E3. cbn [rbind]. rewrite F3. cbn [rbind]. rewrite F4. cbn [rbind]. rewrite F5. cbn [rbind]. rewrite F7. cbn [rbind]. rewrite F6. cbn [rbind].
    rewrite (proj2 (Z.eqb_eq _ _) Q). cbn [negb].
    match goal with |- rbind ?q _ = _ => assert (E4 : q = Ok (l, {| contents := b; pos := dat_start b |})) end.
    { unfold dat_start, ac_bytes. destruct ((0 <? U32 b 60) && im) eqn:C.
      - apply andb_prop in C as [C _]. apply Z.ltb_lt in C. destruct HL as [h' HL]. rewrite HL. apply dat_images_pos in HL as [-> _]; try lia. rewrite Q. reflexivity.
      - subst l. reflexivity. }
    rewrite E4. cbn [rbind]. rewrite F8. cbn [rbind]. rewrite F9. cbn [rbind]. rewrite F10, F11, F12, F13, F14.
    apply (Rest _ eq_refl l). auto.
Qed.
