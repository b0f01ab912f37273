(** C78: MetroPro files (surfalize/file/dat.py). *)
From Coq Require Import String Ascii ZArith Lia Bool.
From Coq Require Import List.
From Flocq Require Import IEEE754.BinarySingleNaN IEEE754.Binary IEEE754.Bits.
From Verif Require Import Base ModelBytes ModelSur ModelFormats ModelReaders ModelDat SpecReaders SpecDat ProofBytes ProofReaders ProofDat PropsMagic PropsLayout PropsReaders PropsVk.
Import ListNotations.
Local Open Scope Z_scope.


(** C78: what is read is what the file says *)
Theorem C78_dat : forall en im (b : bytes) s l, is_file b -> read_dat en im (opened b) = Ok (s, l) ->
  dat_kind b /\ Z.of_nat (ac_w b * ac_h b * ac_k b * 2) = U32 b 60 /\ (cn_h b * cn_w b <> 0 -> dat_start b + cn_h b * cn_w b * 4 <= length b)%nat /\
  (I16 b 218 = 1 \/ I16 b 218 = 2 \/ I16 b 218 = 3) /\
  table_is (rdata s) (cn_h b) (cn_w b) (fun i j x =>
    let code := I32 b (dat_start b + (i * cn_w b + j) * 4) in
    (code < 2147483640 -> x = fmul (fdiv (fmul (fmul (fmul (f64_of_Z code) (Single b 164)) (Single b 168)) (Single b 176)) (f64_of_Z (dat_res (I16 b 218)))) (f64_of_Z 1000000)) /\
    (2147483640 <= code -> isnan x = true)) /\
  rstep_x s = fmul (Single b 184) (f64_of_Z 1000000) /\ rstep_y s = rstep_x s.
Proof.
  intros en im b s l Hf H. apply dat_iff in H as ((K & _ & _ & Q) & (C & R) & -> & _); [|exact Hf]. split; [exact K|].
  pose proof (uint_be_range 2 b 52 Hf) as B1. pose proof (uint_be_range 2 b 54 Hf) as B2. pose proof (uint_be_range 2 b 56 Hf) as B3. fold (U16 b 52) in B1. fold (U16 b 54) in B2. fold (U16 b 56) in B3.
  split; [unfold ac_w, ac_h, ac_k; rewrite !Nat2Z.inj_mul, !Z2Nat.id by lia; exact Q|]. split; [exact C|]. split; [exact R|].
  split; [|split; reflexivity]. unfold dat_surface. cbn [rdata]. rewrite grid_map. apply grid_is. intros i j Hi Hj. cbv zeta. unfold dat_height.
  set (code := I32 b _). split.
  - intros Hc. rewrite (proj2 (Z.leb_gt 2147483640 code)) by lia. reflexivity.
  - intros Hc. rewrite (proj2 (Z.leb_le 2147483640 code)) by lia. assert (N : forall x y, isnan x = true -> isnan (fmul x y) = true) by (intros [] [] X; try discriminate; reflexivity).
    assert (N' : forall x y, isnan x = true -> isnan (fdiv x y) = true) by (intros [] [] X; try discriminate; reflexivity).
    apply N, N', N, N, N. reflexivity.
Qed.
Theorem C78_dat_reads : forall en (b : bytes), is_file b -> dat_kind b -> (dat_header_end b <= length b)%nat ->
  readable b dat_texts -> (U16 b 4 = 3 -> readable b dat_texts_3) -> Z.of_nat (ac_w b * ac_h b * ac_k b * 2) = U32 b 60 ->
  (dat_start b + cn_h b * cn_w b * 4 <= length b)%nat -> (I16 b 218 = 1 \/ I16 b 218 = 2 \/ I16 b 218 = 3) ->
  exists s, read_dat en false (opened b) = Ok (s, []).
Proof.
  intros en b Hf K L T1 T3 Q C R. exists (dat_surface b). apply dat_iff; [exact Hf|]. rewrite andb_false_r.
  assert (Tx : text_fields 4 dat_header = dat_texts) by (vm_compute; reflexivity). assert (Tx3 : text_fields 834 dat_header_3 = dat_texts_3) by (vm_compute; reflexivity).
  destruct dat_locs as [D1 D3].
  assert (CI : forall be sg n nm, conv_ok (I be sg n nm)) by (intros; cbn; intros; reflexivity). assert (CF : forall be nm n, conv_ok (F be nm n)) by (intros; cbn [conv_ok F]; intros; reflexivity).
  assert (CT : forall nm n, conv_ok (T nm n)) by (intros; exact Logic.I). assert (CR : forall n, conv_ok (Reserved n)) by (intros; exact Logic.I).
  assert (C1 : Forall conv_ok dat_header) by (unfold dat_header; repeat (constructor; [first [apply CI|apply CF|apply CT|apply CR]|]); constructor).
  assert (C3 : Forall conv_ok dat_header_3) by (unfold dat_header_3; repeat (constructor; [first [apply CI|apply CF|apply CT|apply CR]|]); constructor).
  pose proof (uint_be_range 2 b 52 Hf) as B1. pose proof (uint_be_range 2 b 54 Hf) as B2. pose proof (uint_be_range 2 b 56 Hf) as B3. fold (U16 b 52) in B1. fold (U16 b 54) in B2. fold (U16 b 56) in B3.
  split; [|split; [split; [intros _; exact C|exact R]|auto]]. split; [exact K|]. split; [|split].
  - apply values_ok_texts; [exact C1|rewrite D1; unfold dat_header_end in L; destruct (U16 b 4 =? 3); clear - L; lia|rewrite Tx; exact T1].
  - intros E. apply values_ok_texts; [exact C3|rewrite D3; unfold dat_header_end in L; rewrite E in L; cbn [Z.eqb Pos.eqb] in L; clear - L; lia|rewrite Tx3; auto].
  - rewrite <- Q. unfold ac_w, ac_h, ac_k. rewrite !Nat2Z.inj_mul, !Z2Nat.id by lia. reflexivity.
Qed.
(** the fields of a prefix that has them are those of the file *)
Lemma dat_fields b e : values_ok Utf8 b 4 dat_header = true ->
  (826 <= length b)%nat /\ forall o n, (o + n <= 826)%nat -> uint_be n (b ++ e) o = uint_be n b o.
Proof.
  intros V. assert (L : (826 <= length b)%nat).
  { pose proof (in_c Utf8 b 4 dat_header "ftpsi_res_factor" 818 V (FStr 4) (conv (fun c => VInt (as_int false true 4 c))) eq_refl) as X. cbn [calcsize] in X. lia. }
  split; [exact L|]. intros o n H. apply uint_be_app. lia.
Qed.
Lemma dat_same b e : values_ok Utf8 b 4 dat_header = true -> 
  U16 (b ++ e) 4 = U16 b 4 /\ U32 (b ++ e) 6 = U32 b 6 /\ U16 (b ++ e) 52 = U16 b 52 /\ U16 (b ++ e) 54 = U16 b 54 /\ U16 (b ++ e) 56 = U16 b 56 /\ I16 (b ++ e) 58 = I16 b 58 /\ U32 (b ++ e) 60 = U32 b 60 /\
  dat_start (b ++ e) = dat_start b /\ cn_w (b ++ e) = cn_w b /\ cn_h (b ++ e) = cn_h b /\ I16 (b ++ e) 218 = I16 b 218 /\
  Single (b ++ e) 164 = Single b 164 /\ Single (b ++ e) 168 = Single b 168 /\ Single (b ++ e) 176 = Single b 176 /\ Single (b ++ e) 184 = Single b 184 /\ dat_header_end (b ++ e) = dat_header_end b.
Proof.
  intros V. destruct (dat_fields b e V) as [L U]. unfold dat_start, dat_header_end, cn_w, cn_h, ac_bytes, U16, U32, I16, Single. rewrite !U by (apply Nat.leb_le; reflexivity). repeat split.
Qed.
Theorem C78_dat_cut : forall en im im' (b : bytes) s l k, is_file b -> read_dat en im (opened b) = Ok (s, l) ->
  (cn_h b * cn_w b <> 0)%nat -> (k < dat_start b + cn_h b * cn_w b * 4)%nat -> is_ok (read_dat en im' (opened (firstn k b))) = false.
Proof.
  intros en im im' b s l k Hf H Hn Hk. apply dat_iff in H as ((K & V & _ & Q) & (C & R) & _); [|exact Hf].
  destruct (read_dat en im' (opened (firstn k b))) as [[s' l']|ex] eqn:E; [exfalso|reflexivity].
  apply dat_iff in E as ((_ & V' & _ & _) & (C' & _) & _); [|apply is_file_firstn; exact Hf].
  pose proof (dat_same (firstn k b) (skipn k b) V') as X. rewrite firstn_skipn in X. destruct X as (_ & _ & _ & _ & _ & _ & _ & E1 & E2 & E3 & _).
  rewrite <- E1, <- E2, <- E3 in C'. specialize (C' Hn). rewrite firstn_length in C'. clear - C' Hk. lia.
Qed.
Theorem C78_dat_trailing : forall en (b e : bytes) s, is_file (b ++ e) -> read_dat en false (opened b) = Ok (s, []) ->
  read_dat en false (opened (b ++ e)) = Ok (s, []).
Proof.
  intros en b e s Hf H. assert (Hb : is_file b) by (apply Forall_app in Hf; apply Hf).
  apply dat_iff in H as ((K & V & V3 & Q) & (C & R) & -> & _); [|exact Hb]. apply dat_iff; [exact Hf|]. rewrite andb_false_r.
  destruct (dat_fields b e V) as [L _].
  destruct (dat_same b e V) as (F1 & F2 & F3 & F4 & F5 & F6 & F7 & F8 & F9 & F10 & F11 & F12 & F13 & F14 & F15 & F16).
  split; [|split; [|split; [|reflexivity]]].
  - split.
    + unfold dat_kind in *. rewrite F1, F2. replace (firstn 3 (b ++ e)) with (firstn 3 b); [replace (byte (b ++ e) 3) with (byte b 3); [exact K|]|].
      * unfold byte. rewrite app_nth1; [reflexivity|]. clear - L. lia.
      * rewrite firstn_app. replace (3 - length b)%nat with 0%nat by (clear - L; lia). cbn [firstn]. rewrite app_nil_r. reflexivity.
    + split; [apply values_ok_app; exact V|]. split; [rewrite F1; intros X; apply values_ok_app; auto|]. rewrite F3, F4, F5, F7. exact Q.
  - unfold dat_heights_ok. rewrite F8, F9, F10, F11, app_length. split; [intros X; specialize (C X); clear - C; lia|exact R].
  - unfold dat_surface. rewrite F8, F9, F10, F11, F12, F13, F14, F15. f_equal. f_equal. apply grid_ext'. intros i j Hi Hj. unfold I32. rewrite uint_be_app; [reflexivity|].
    apply (item_in 4 (cn_h b) (cn_w b)); auto. apply C. clear - Hi Hj. nia.
Qed.
(** image layers *)
Definition intensity (b : bytes) (c i j : nat) : Z := U16 b (dat_header_end b + ((i * ac_w b + j) * ac_k b + c) * 2).
Lemma ac_pos b : is_file b -> dat_header_ok b -> 0 < U32 b 60 -> (0 < ac_w b /\ 0 < ac_h b /\ 0 < ac_k b)%nat /\ ac_bytes b = (ac_h b * ac_w b * ac_k b * 2)%nat.
Proof.
  intros Hf (_ & _ & _ & Q) P. pose proof (uint_be_range 2 b 52 Hf) as B1. pose proof (uint_be_range 2 b 54 Hf) as B2. pose proof (uint_be_range 2 b 56 Hf) as B3.
  fold (U16 b 52) in B1. fold (U16 b 54) in B2. fold (U16 b 56) in B3. unfold ac_w, ac_h, ac_k, ac_bytes. rewrite <- Q in *.
  assert (0 < U16 b 52 /\ 0 < U16 b 54 /\ 0 < U16 b 56) by (destruct B1 as [B1 _], B2 as [B2 _], B3 as [B3 _]; clear - P B1 B2 B3; nia).
  split; [lia|]. rewrite !Z2Nat.inj_mul by lia. change (Z.to_nat 2) with 2%nat. lia.
Qed.
Lemma dat_items b : is_file b -> forall its h, read_items 2 (U16 b 52 * U16 b 54 * U16 b 56) {| contents := b; pos := dat_header_end b |} = Ok (its, h) -> length its = (ac_h b * ac_w b * ac_k b)%nat ->
  forall i j c, (i < ac_h b)%nat -> (j < ac_w b)%nat -> (c < ac_k b)%nat -> nth ((i * ac_w b + j) * ac_k b + c) (map (as_int true false 2) its) 0 = intensity b c i j.
Proof.
  intros Hf its h H Ln i j c Hi Hj Hc. pose proof (uint_be_range 2 b 52 Hf) as B1. pose proof (uint_be_range 2 b 54 Hf) as B2. pose proof (uint_be_range 2 b 56 Hf) as B3.
  fold (U16 b 52) in B1. fold (U16 b 54) in B2. fold (U16 b 56) in B3.
  assert (En : Z.to_nat (U16 b 52 * U16 b 54 * U16 b 56) = (ac_h b * ac_w b * ac_k b)%nat) by (unfold ac_h, ac_w, ac_k; rewrite !Z2Nat.inj_mul by lia; lia).
  apply read_items_inv in H as [_ H]; [|lia|lia]. rewrite En in H. destruct (H Ln) as (C & -> & _).
  assert (K : ((i * ac_w b + j) * ac_k b + c < ac_h b * ac_w b * ac_k b)%nat) by (assert (i * ac_w b + j + 1 <= ac_h b * ac_w b)%nat by nia; nia).
  rewrite (nth_indep _ 0 (as_int true false 2 [])) by (rewrite map_length, items_length; exact K). rewrite map_nth, items_nth by exact K.
  unfold as_int, endian, intensity, U16. rewrite unle_rev_slice; [reflexivity|]. destruct C as [C|C]; [|clear - C K; nia].
  exfalso. rewrite C in En. cbn in En. clear - En K. lia.
Qed.
Theorem C78_dat_images : forall en (b : bytes) s l, is_file b -> read_dat en true (opened b) = Ok (s, l) ->
  read_dat en false (opened b) = Ok (s, []) /\
  (U32 b 60 = 0 -> l = []) /\
  (0 < U32 b 60 -> ac_k b = 1%nat -> exists m, l = [("Intensity"%string, m)] /\ table_is m (ac_h b) (ac_w b) (fun i j px => px = [intensity b 0 i j])) /\
  (0 < U32 b 60 -> (1 < ac_k b)%nat -> length l = ac_k b /\ forall c, (c < ac_k b)%nat -> exists m,
     nth_error l c = Some (String.append "Intensity_" (digits c), m) /\ table_is m (ac_h b) (ac_w b) (fun i j px => px = [intensity b c i j])).
Proof.
  intros en b s l Hf H. apply dat_iff in H as (HO & HH & -> & HL); [|exact Hf]. split; [apply dat_iff; [exact Hf|]; rewrite andb_false_r; auto|].
  rewrite andb_true_r in HL. split; [intros E; rewrite E in HL; exact HL|].
  pose proof (uint_be_range 2 b 56 Hf) as B3. fold (U16 b 56) in B3.
  assert (G : 0 < U32 b 60 -> exists its h', read_items 2 (U16 b 52 * U16 b 54 * U16 b 56) {| contents := b; pos := dat_header_end b |} = Ok (its, h') /\
    (if 1 <? U16 b 56 then
           rmap (fun m => map (fun c => (String.append "Intensity_" (digits c), map (map (fun p => [nth c p 0])) m)) (seq 0 (ac_k b))) (reshape3 (ac_h b) (ac_w b) (ac_k b) (map (as_int true false 2) its))
         else rmap (fun m => [("Intensity"%string, map (map (fun v => [v])) m)]) (reshape (ac_h b) (ac_w b) (map (as_int true false 2) its))) = Ok l).
  { intros P. rewrite (proj2 (Z.ltb_lt 0 (U32 b 60))) in HL by exact P. destruct HL as [h' HL]. unfold dat_images in HL. apply rbind_ok in HL as ([its h1] & H1 & HL). apply rbind_ok in HL as (ly & H2 & HL).
    destruct (existsb _ _); [discriminate|]. apply ok_inj in HL. injection HL as <- <-. exists its, h1. auto. }
  split.
  - intros P K1. destruct (G P) as (its & h' & H1 & H2). assert (E1 : U16 b 56 = 1) by (unfold ac_k in K1; lia). rewrite E1 in H2. cbn [Z.ltb Z.compare Pos.compare Pos.compare_cont] in H2.
    apply rmap_ok in H2 as (m & H2 & ->). eexists. split; [reflexivity|]. apply (reshape_inv 0) in H2 as [Ln ->]. rewrite map_length in Ln. rewrite grid_map. apply grid_is.
    intros i j Hi Hj. f_equal. rewrite <- (dat_items b Hf its h' H1 ltac:(rewrite Ln, K1; lia) i j 0 Hi Hj ltac:(lia)). f_equal. rewrite K1. lia.
  - intros P K1. destruct (G P) as (its & h' & H1 & H2). rewrite (proj2 (Z.ltb_lt 1 (U16 b 56))) in H2 by (unfold ac_k in K1; lia).
    apply rmap_ok in H2 as (m & H2 & ->). rewrite map_length, seq_length. split; [reflexivity|]. intros c Hc. eexists. split; [rewrite nth_error_map_seq by exact Hc; reflexivity|].
    apply (reshape3_inv 0) in H2 as [Ln ->]. rewrite map_length in Ln. rewrite grid_map. apply grid_is. intros i j Hi Hj. f_equal.
    rewrite (nth_indep _ 0 (nth ((i * ac_w b + j) * ac_k b + 0) (map (as_int true false 2) its) 0)) by (rewrite map_length, seq_length; exact Hc).
    rewrite (map_nth (fun c => nth ((i * ac_w b + j) * ac_k b + c) (map (as_int true false 2) its) 0)), seq_nth by exact Hc. apply (dat_items b Hf its h' H1); auto.
Qed.
(** 65535 marks a pixel without intensity (INVALID_VALUE_INTENSITY); one such pixel makes the file unreadable with image layers *)
Theorem C78_dat_missing_pixel_refuted : forall en (b : bytes) s l i j c, is_file b -> read_dat en false (opened b) = Ok (s, l) -> 0 < U32 b 60 ->
  (dat_start b <= length b)%nat -> (i < ac_h b)%nat -> (j < ac_w b)%nat -> (c < ac_k b)%nat -> intensity b c i j = 65535 ->
  is_ok (read_dat en true (opened b)) = false.
Proof.
  intros en b s l i j c Hf H P L Hi Hj Hc Hp. destruct (read_dat en true (opened b)) as [[s' l']|] eqn:E; [exfalso|reflexivity].
  apply dat_iff in E as (HO & _ & _ & HL); [|exact Hf]. rewrite andb_true_r, (proj2 (Z.ltb_lt 0 (U32 b 60))) in HL by exact P. destruct HL as [h' HL].
  unfold dat_images in HL. apply rbind_ok in HL as ([its h1] & H1 & HL). apply rbind_ok in HL as (ly & H2 & HL).
  destruct (existsb _ _) eqn:X; [discriminate|]. clear HL.
  destruct (ac_pos b Hf HO P) as [Pos _]. pose proof (uint_be_range 2 b 56 Hf) as B3. fold (U16 b 56) in B3.
  assert (Ln : length its = (ac_h b * ac_w b * ac_k b)%nat).
  { destruct (1 <? U16 b 56) eqn:K.
    - apply rmap_ok in H2 as (m & H2 & _). apply (reshape3_inv 0) in H2 as [Ln _]. rewrite map_length in Ln. exact Ln.
    - apply rmap_ok in H2 as (m & H2 & _). apply (reshape_inv 0) in H2 as [Ln _]. rewrite map_length in Ln. rewrite Ln. fold (ac_h b) (ac_w b). apply Z.ltb_ge in K.
      assert (ac_k b = 1%nat) by (unfold ac_k in *; lia). rewrite H0. lia. }
  pose proof (dat_items b Hf its h1 H1 Ln i j c Hi Hj Hc) as N. rewrite Hp in N.
  assert (K : ((i * ac_w b + j) * ac_k b + c < length (map (as_int true false 2) its))%nat) by (rewrite map_length, Ln; assert (i * ac_w b + j + 1 <= ac_h b * ac_w b)%nat by nia; nia).
  pose proof (nth_In _ 0 K) as I0. rewrite N in I0.
  assert (Y : existsb (fun v => I16 b 58 <? v) (map (as_int true false 2) its) = true); [|congruence].
  apply existsb_exists. exists 65535. split; [exact I0|]. apply Z.ltb_lt. unfold I16, two_compl. pose proof (uint_be_range 2 b 58 Hf) as B. change (256 ^ Z.of_nat 2) with 65536 in B.
  change (2 ^ (16 - 1)) with 32768. change (2 ^ 16) with 65536. destruct (Z.ltb_spec (uint_be 2 b 58) 32768); lia.
Qed.
