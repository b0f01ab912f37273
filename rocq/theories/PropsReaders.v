(** C74, C75, C76: the instrument readers PLU, ZMG, OS3D and NMS.
    C74: whatever is returned is exactly what the bytes of the file say, at fixed offsets; and every complete file is read.
    C75: a file cut inside the header or the heights is rejected; bytes behind the heights do not matter.
    C76: asking for image layers does not change heights or steps; the image layers are the stored pixels. *)
From Coq Require Import String Ascii ZArith Lia Bool Reals Lra.
From Coq Require Import List.
From Flocq Require Import Core.Raux Core.Defs Core.Zaux IEEE754.BinarySingleNaN IEEE754.Binary IEEE754.Bits.
From Verif Require Import Base ModelBytes SpecBytes ProofBytes PropsLayout PropsMagic PropsFits ModelSur ModelFormats ModelReaders SpecReaders ProofReaders.
Import ListNotations.
Local Open Scope Z_scope.

(** [read_layout en l {b; p} = Ok r] gives the values *)
Ltac layout_inv H V Ed Eh :=
  match type of H with read_layout ?en ?l {| contents := ?b; pos := ?p |} = _ =>
    let S := fresh in let N := fresh in
    assert (S : Forall sized l) by is_sized; assert (N : NoDup (names l)) by is_distinct;
    apply (read_layout_inv en l b p _ _ S N) in H as (V & Ed & Eh); clear S N
  end.

(** ** PLU *)
(** a point that was not measured is stored as 1000001 *)
Definition plu_gap (v : f32) : Prop := Binary.is_finite 24 128 v = true /\ val32 v = 1000001%R.
Lemma plu_gap_spec v : feq_s v (f32_make 1000001 0) = true <-> plu_gap v.
Proof.
  assert (F : Binary.B2FF 24 128 (f32_make 1000001 0) = Binary.F754_finite false 16000016 (-4)) by (vm_compute; reflexivity).
  rewrite feq_s_iff by (vm_compute; reflexivity). unfold plu_gap.
  assert (E : val32 (f32_make 1000001 0) = 1000001%R).
  { unfold val32. rewrite <- Binary.FF2R_B2FF, F. cbn [Binary.FF2R]. unfold F2R. cbn. lra. }
  rewrite E. reflexivity.
Qed.
Definition plu_date_ok (pd : pystr -> res unit) (en : encoding) (b : bytes) : Prop :=
  exists s, decode en (firstn 128 b) = Ok s /\ pd (rstrip isnul s) = Ok tt.
(** the surface a PLU file describes *)
Definition plu_surface (b : bytes) : raw :=
  let ny := Z.to_nat (u32 b 388) in let nx := Z.to_nat (u32 b 392) in
  {| rdata := grid ny nx (fun i j => let v := f32_at b (500 + (i * nx + j) * 4) in f64_of_f32 (if feq_s v (f32_make 1000001 0) then nan32 else v));
     rstep_x := single_at b 404; rstep_y := single_at b 408 |}.
Definition plu_size (b : bytes) : nat := (500 + 4 * (Z.to_nat (u32 b 388) * Z.to_nat (u32 b 392)))%nat.

Lemma plu_inv pd en im b s l : is_file b -> read_plu pd en im (opened b) = Ok (s, l) ->
  plu_date_ok pd en b /\ (plu_size b <= length b)%nat /\ s = plu_surface b /\
  (if im then plu_image (u32 b 388) (u32 b 392) {| contents := b; pos := plu_size b |} = Ok l else l = []).
Proof.
  intros Hf H. unfold read_plu, opened in H. rewrite fread_slice in H.
  apply rbind_ok in H as (u & Hd & H). apply rbind_ok in Hd as (ds & Hd1 & Hd2). destruct u.
  apply rbind_ok in H as ([cal h2] & Hc & H). unfold fskip in Hc. cbn [contents pos] in Hc.
  layout_inv Hc V1 Ec Eh.
  assert (L1 : (128 <= length b)%nat).
  { pose proof (located_in _ _ _ _ "yres" 0%nat fmt_I V1 eq_refl) as L. rewrite slice_length in L. cbn in L. lia. }
  assert (P : (0 + length (slice 0 128 b) + (256 + 4) = 388)%nat) by (rewrite slice_len; lia).
  rewrite P in *. clear P. subst cal h2.
  apply rbind_ok in H as ([cfg h3] & Hc & H). layout_inv Hc V2 Ec Eh. clear Ec. subst h3.
  change (lsize plu_calibration) with 40%nat in *. change (lsize plu_config) with 72%nat in *.
  change (388 + 40)%nat with 428%nat in *. change (428 + 72)%nat with 500%nat in *.
  rewrite (hint_u _ _ _ _ "xres" 4%nat 4%nat V1 eq_refl) in H. cbn [rbind] in H.
  rewrite (hint_u _ _ _ _ "yres" 0%nat 4%nat V1 eq_refl) in H. cbn [rbind] in H.
  rewrite (hflt_32 _ _ _ _ "mppx" 16%nat V1 eq_refl), (hflt_32 _ _ _ _ "mppy" 20%nat V1 eq_refl) in H.
  change (388 + 4)%nat with 392%nat in H. change (388 + 0)%nat with 388%nat in H. change (388 + 16)%nat with 404%nat in H. change (388 + 20)%nat with 408%nat in H.
  apply rbind_ok in H as ([its h4] & Hr & H). apply rbind_ok in H as (ly & Hl & H). apply rbind_ok in H as (data & Hs & H).
  cbn [rbind] in H. injection H as Es El. subst ly.
  pose proof (located_in _ _ _ _ "factorio_delmacio" 68%nat fmt_I V2 eq_refl) as L2. change (428 + 68 + calcsize fmt_I)%nat with 500%nat in L2.
  destruct (table_read item_f32 nan32 4 (uint 4 b 388) (uint 4 b 392) b 500 its h4 data) as (T1 & T2 & T3); auto; try lia; try apply (uint_range 4 b _ Hf).
  assert (LL : (plu_size b <= length b)%nat).
  { unfold plu_size, u32. pose proof (uint_range 4 b 388 Hf). pose proof (uint_range 4 b 392 Hf). destruct T1 as [T1|T1]; [|lia].
    assert (Z.to_nat (uint 4 b 388) * Z.to_nat (uint 4 b 392) = 0)%nat by nia. lia. }
  split; [|split; [exact LL|split]].
  - exists ds. unfold slice in Hd1. cbn [skipn] in Hd1. auto.
  - subst s data. unfold plu_surface. rewrite grid_map. f_equal. apply grid_ext'. intros i j Hi Hj.
    unfold item_f32. rewrite unle_slice; [reflexivity|]. apply (item_in 4 (Z.to_nat (uint 4 b 388))); auto. unfold plu_size, u32 in LL. lia.
  - destruct im; [|apply ok_inj in Hl; auto]. subst h4. unfold plu_size. replace (4 * (Z.to_nat (u32 b 388) * Z.to_nat (u32 b 392)))%nat with (Z.to_nat (uint 4 b 388) * Z.to_nat (uint 4 b 392) * 4)%nat by (unfold u32; lia). exact Hl.
Qed.
Lemma plu_ok pd en b : is_file b -> plu_date_ok pd en b -> (plu_size b <= length b)%nat ->
  read_plu pd en false (opened b) = Ok (plu_surface b, []).
Proof.
  intros Hf (ds & Hd1 & Hd2) L. unfold read_plu, opened. rewrite fread_slice.
  assert (L5 : (500 <= length b)%nat) by (unfold plu_size in L; lia).
  change (slice 0 128 b) with (firstn 128 b). rewrite Hd1. cbn [rbind]. rewrite Hd2. cbn [rbind].
  unfold fskip. cbn [contents pos]. rewrite firstn_length, Nat.min_l by lia. change (0 + 128 + (256 + 4))%nat with 388%nat.
  assert (V1 : values_ok en b 388 plu_calibration = true).
  { apply numeric_ok; [is_numeric|]. change (lsize plu_calibration) with 40%nat. lia. }
  rewrite (proj1 (read_layout_values en plu_calibration b 388 ltac:(is_sized) ltac:(is_distinct)) V1). cbn [rbind].
  change (388 + lsize plu_calibration)%nat with 428%nat.
  assert (V2 : values_ok en b 428 plu_config = true).
  { apply numeric_ok; [is_numeric|]. change (lsize plu_config) with 72%nat. lia. }
  rewrite (proj1 (read_layout_values en plu_config b 428 ltac:(is_sized) ltac:(is_distinct)) V2). cbn [rbind].
  change (428 + lsize plu_config)%nat with 500%nat.
  rewrite (hint_u _ _ _ _ "xres" 4%nat 4%nat V1 eq_refl). cbn [rbind].
  rewrite (hint_u _ _ _ _ "yres" 0%nat 4%nat V1 eq_refl). cbn [rbind].
  rewrite (hflt_32 _ _ _ _ "mppx" 16%nat V1 eq_refl), (hflt_32 _ _ _ _ "mppy" 20%nat V1 eq_refl).
  change (388 + 4)%nat with 392%nat. change (388 + 0)%nat with 388%nat. change (388 + 16)%nat with 404%nat. change (388 + 20)%nat with 408%nat.
  unfold plu_size, u32 in L.
  destruct (table_read_ok item_f32 4 (uint 4 b 388) (uint 4 b 392) b 500) as (its & R1 & R2); try lia; try apply (uint_range 4 b _ Hf).
  rewrite R1. cbn [rbind]. rewrite R2. cbn [rbind]. unfold plu_surface. rewrite grid_map. do 3 f_equal.
  apply grid_ext'. intros i j Hi Hj.
  unfold item_f32. rewrite unle_slice; [reflexivity|]. apply (item_in 4 (Z.to_nat (uint 4 b 388))); auto. lia.
Qed.

Theorem C74_plu : forall pd en im (b : bytes) s l, is_file b -> read_plu pd en im (opened b) = Ok (s, l) ->
  let ny := Z.to_nat (u32 b 388) in let nx := Z.to_nat (u32 b 392) in
  (500 + 4 * (ny * nx) <= length b)%nat /\
  table_is (rdata s) ny nx (fun i j h =>
    let v := f32_at b (500 + (i * nx + j) * 4) in
    (plu_gap v -> isnan h = true) /\ (~ plu_gap v -> h = f64_of_f32 v)) /\
  rstep_x s = single_at b 404 /\ rstep_y s = single_at b 408.
Proof.
  intros pd en im b s l Hf H ny nx. apply plu_inv in H as (_ & L & -> & _); [|exact Hf]. split; [exact L|].
  split; [|split; reflexivity]. unfold plu_surface. cbn [rdata]. apply grid_is. intros i j _ _. fold nx.
  destruct (feq_s (f32_at b (500 + (i * nx + j) * 4)) (f32_make 1000001 0)) eqn:E; split; intros G.
  - reflexivity.
  - apply plu_gap_spec in E. contradiction.
  - apply plu_gap_spec in G. congruence.
  - reflexivity.
Qed.
Theorem C74_plu_reads : forall pd en (b : bytes), is_file b ->
  (exists s, decode en (firstn 128 b) = Ok s /\ pd (rstrip isnul s) = Ok tt) ->
  (500 + 4 * (Z.to_nat (u32 b 388) * Z.to_nat (u32 b 392)) <= length b)%nat ->
  exists s, read_plu pd en false (opened b) = Ok (s, []).
Proof. intros. exists (plu_surface b). apply plu_ok; assumption. Qed.

(** what was read depends only on the first plu_size bytes *)
Lemma u32_firstn k b o : (o + 4 <= k)%nat -> (k <= length b)%nat -> u32 (firstn k b) o = u32 b o.
Proof.
  intros H L. rewrite <- (firstn_skipn k b) at 2. unfold u32. rewrite uint_app; [reflexivity|]. rewrite firstn_length. lia.
Qed.
Lemma is_file_firstn k b : is_file b -> is_file (firstn k b).
Proof. intros H. rewrite <- (firstn_skipn k b) in H. apply Forall_app in H as [H _]. exact H. Qed.
Theorem C75_plu_cut : forall pd en im im' (b : bytes) s l k, is_file b -> read_plu pd en im (opened b) = Ok (s, l) ->
  (k < 500 + 4 * (Z.to_nat (u32 b 388) * Z.to_nat (u32 b 392)))%nat ->
  is_ok (read_plu pd en im' (opened (firstn k b))) = false.
Proof.
  intros pd en im im' b s l k Hf H Hk. apply plu_inv in H as (_ & L & _); [|exact Hf].
  destruct (read_plu pd en im' (opened (firstn k b))) as [[s' l']|ex] eqn:E; [exfalso|reflexivity].
  apply plu_inv in E as (_ & L' & _); [|apply is_file_firstn; exact Hf].
  rewrite firstn_length in L'. unfold plu_size in *.
  rewrite !u32_firstn in L' by lia. lia.
Qed.
Theorem C75_plu_trailing : forall pd en (b t : bytes) s, is_file (b ++ t) -> read_plu pd en false (opened b) = Ok (s, []) ->
  read_plu pd en false (opened (b ++ t)) = Ok (s, []).
Proof.
  intros pd en b t s Hf H. assert (Hb : is_file b) by (apply Forall_app in Hf; apply Hf).
  apply plu_inv in H as (D & L & -> & _); [|exact Hb].
  assert (U : forall o, (o + 4 <= 500)%nat -> uint 4 (b ++ t) o = uint 4 b o).
  { intros o Ho. apply uint_app. unfold plu_size in L. lia. }
  assert (S : plu_size (b ++ t) = plu_size b) by (unfold plu_size, u32; rewrite !U by lia; reflexivity).
  rewrite plu_ok; auto.
  - do 2 f_equal. unfold plu_surface, u32, single_at, f32_at. rewrite !U by lia. f_equal. apply grid_ext'. intros i j Hi Hj.
    rewrite uint_app; [reflexivity|]. apply (item_in 4 (Z.to_nat (uint 4 b 388))); auto. unfold plu_size, u32 in L. lia.
  - destruct D as (ds & D1 & D2). exists ds. rewrite firstn_app.
    replace (128 - length b)%nat with 0%nat by (unfold plu_size in L; lia). cbn [firstn]. rewrite app_nil_r. auto.
  - rewrite S, app_length. lia.
Qed.
Theorem C76_plu_heights : forall pd en (b : bytes) s l, is_file b -> read_plu pd en true (opened b) = Ok (s, l) ->
  read_plu pd en false (opened b) = Ok (s, []).
Proof. intros pd en b s l Hf H. apply plu_inv in H as (D & L & -> & _); [|exact Hf]. apply plu_ok; auto. Qed.
(** the pixels stored behind the heights: three bytes per point; a grey image is returned as one channel *)
Theorem C76_plu_image : forall pd en (b : bytes) s l, is_file b -> read_plu pd en true (opened b) = Ok (s, l) ->
  let ny := Z.to_nat (u32 b 388) in let nx := Z.to_nat (u32 b 392) in
  let px i j c := byte b (516 + 4 * (ny * nx) + 3 * (i * nx + j) + c) in
  exists img,
    (l = [("Grayscale"%string, img)] /\ table_is img ny nx (fun i j p => p = [px i j 0]%nat) /\
       forall i j, (i < ny)%nat -> (j < nx)%nat -> px i j 0%nat = px i j 1%nat /\ px i j 0%nat = px i j 2%nat) \/
    (l = [("RGB"%string, img)] /\ table_is img ny nx (fun i j p => p = [px i j 0; px i j 1; px i j 2]%nat) /\
       exists i j, (i < ny)%nat /\ (j < nx)%nat /\ ~ (px i j 0%nat = px i j 1%nat /\ px i j 0%nat = px i j 2%nat)).
Proof.
  intros pd en b s l Hf H ny nx px. apply plu_inv in H as (_ & _ & _ & H); [|exact Hf].
  pose proof (u32_nonneg b 388 Hf) as N1. pose proof (u32_nonneg b 392 Hf) as N2.
  unfold plu_image in H. apply rbind_ok in H as ([its h'] & Hr & H). apply rbind_ok in H as (img & Hi & H).
  apply (reshape3_inv 0) in Hi as [L Ei]. rewrite map_length in L. unfold fskip in Hr. cbn [contents pos] in Hr.
  apply bytes_read in Hr as [_ Hb]; [|lia|rewrite L; lia].
  assert (P : forall i j c, (i < ny)%nat -> (j < nx)%nat -> (c < 3)%nat -> nth ((i * nx + j) * 3 + c) (map item_u its) 0 = px i j c).
  { intros i j c Hi Hj Hc. rewrite Hb.
    - unfold px, plu_size. fold ny nx. f_equal. lia.
    - assert (K : (i * nx + j + 1 <= ny * nx)%nat) by nia. replace (Z.to_nat (u32 b 392 * u32 b 388 * 3)) with (ny * nx * 3)%nat by (unfold ny, nx; lia). lia. }
  assert (E : img = grid ny nx (fun i j => [px i j 0; px i j 1; px i j 2]%nat)).
  { rewrite Ei. apply grid_ext'. intros i j Hi Hj. cbn [seq map]. fold nx. rewrite !P by (auto; lia). reflexivity. }
  destruct (forallb _ img) eqn:F; apply ok_inj in H; subst l; rewrite E in *; clear E Ei; eexists.
  - left. split; [reflexivity|]. split.
    + rewrite grid_map. apply grid_is. intros i j Hi Hj. reflexivity.
    + intros i j Hi Hj. rewrite forallb_grid in F. specialize (F i j Hi Hj). cbn [nth] in F.
      apply andb_prop in F as [F1 F2]. apply Z.eqb_eq in F1, F2. auto.
  - right. split; [reflexivity|]. split; [apply grid_is; reflexivity|].
    apply grid_false in F as (i & j & Hi & Hj & F). exists i, j. repeat split; auto. cbn [nth] in F. intros [F1 F2].
    rewrite F1 in F2. rewrite F1, F2, Z.eqb_refl in F. discriminate.
Qed.

(** ** ZMG *)
Definition zmg_base (b : bytes) : nat := (205 + Z.to_nat (u32 b 117))%nat.
Definition zmg_surface (b : bytes) : raw :=
  let nx := Z.to_nat (u32 b 85) in let ny := Z.to_nat (u32 b 89) in
  {| rdata := grid ny nx (fun i j => fmul (f64_of_Z (i16 b (zmg_base b + (i * nx + j) * 2))) (single_at b 105));
     rstep_x := single_at b 97; rstep_y := single_at b 101 |}.
Definition zmg_complete (b : bytes) : Prop :=
  let n := (Z.to_nat (u32 b 85) * Z.to_nat (u32 b 89))%nat in
  firstn 16 b = zmg_magic /\ (121 <= length b)%nat /\ (n <> 0 -> zmg_base b + 2 * n <= length b)%nat.
Lemma zmg_iff en b s : is_file b -> (read_zmg en (opened b) = Ok s <-> zmg_complete b /\ s = zmg_surface b).
Proof.
  intros Hf. pose proof (u32_nonneg b 85 Hf) as N1. pose proof (u32_nonneg b 89 Hf) as N2. pose proof (u32_nonneg b 117 Hf) as N3.
  unfold read_zmg, opened. rewrite fread_slice. change (slice 0 (length zmg_magic) b) with (firstn 16 b).
  split.
  - intros H. destruct (zs_eqb (firstn 16 b) zmg_magic) eqn:M; [|discriminate]. apply zs_eqb_eq in M. cbn [negb] in H.
    apply rbind_ok in H as ([d h2] & Hl & H). unfold fseek in Hl. cbn [contents pos] in Hl. layout_inv Hl V Ed Eh. subst d h2.
    change (0 + lsize zmg_layout)%nat with 205%nat in H.
    pose proof (located_in _ _ _ _ "comment_size" 117%nat fmt_I V eq_refl) as L. change (0 + 117 + calcsize fmt_I)%nat with 121%nat in L.
    rewrite (hint_u _ _ _ _ "comment_size" 117%nat 4%nat V eq_refl) in H. cbn [rbind] in H.
    rewrite (hint_u _ _ _ _ "res_x" 85%nat 4%nat V eq_refl) in H. cbn [rbind] in H.
    rewrite (hint_u _ _ _ _ "res_y" 89%nat 4%nat V eq_refl) in H. cbn [rbind] in H.
    rewrite (hflt_32 _ _ _ _ "step_z" 105%nat V eq_refl), (hflt_32 _ _ _ _ "step_x" 97%nat V eq_refl), (hflt_32 _ _ _ _ "step_y" 101%nat V eq_refl) in H.
    unfold fskip in H. cbn [contents pos] in H. change (0 + 117)%nat with 117%nat in H. change (0 + 85)%nat with 85%nat in H. change (0 + 89)%nat with 89%nat in H.
    change (0 + 97)%nat with 97%nat in H. change (0 + 101)%nat with 101%nat in H. change (0 + 105)%nat with 105%nat in H.
    apply rbind_ok in H as ([its h4] & Hr & H). cbn [rbind] in H. apply rbind_ok in H as (data & Hs & H). cbn [rbind] in H. apply ok_inj in H.
    destruct (table_read _ nan64 2 (uint 4 b 89) (uint 4 b 85) b _ its h4 data ltac:(lia) N2 N1 Hr Hs) as (T1 & T2 & _).
    fold (u32 b 89) (u32 b 85) (u32 b 117) (zmg_base b) in *.
    assert (C : (Z.to_nat (u32 b 85) * Z.to_nat (u32 b 89) <> 0 -> zmg_base b + 2 * (Z.to_nat (u32 b 85) * Z.to_nat (u32 b 89)) <= length b)%nat).
    { intros K. destruct T1 as [T1|T1]; [exfalso; apply K; nia|]. lia. }
    split; [split; [exact M|split; [exact L|exact C]]|]. subst s data. unfold zmg_surface. f_equal. apply grid_ext'. intros i j Hi Hj.
    unfold item_i. rewrite unle_slice; [reflexivity|]. apply (item_in 2 (Z.to_nat (u32 b 89))); auto. unfold zmg_base in *. nia.
  - intros [(M & L & C) ->]. rewrite M, zs_eqb_refl. cbn [negb]. unfold fseek. cbn [contents].
    assert (V : values_ok en b 0 zmg_layout = true).
    { change zmg_layout with (firstn 9 zmg_layout ++ [Reserved 84])%list.
      assert (G : forall l p, values_ok en b p (l ++ [Reserved 84]) = values_ok en b p l).
      { induction l as [|e l IH]; intros p; [reflexivity|]. destruct e as [n|k [f|q|f rd wr]]; cbn [app values_ok]; rewrite ?IH; reflexivity. }
      rewrite G. apply numeric_ok; [is_numeric|]. change (lsize (firstn 9 zmg_layout)) with 121%nat. lia. }
    rewrite (proj1 (read_layout_values en zmg_layout b 0 ltac:(is_sized) ltac:(is_distinct)) V). cbn [rbind].
    change (0 + lsize zmg_layout)%nat with 205%nat.
    rewrite (hint_u _ _ _ _ "comment_size" 117%nat 4%nat V eq_refl). cbn [rbind].
    rewrite (hint_u _ _ _ _ "res_x" 85%nat 4%nat V eq_refl). cbn [rbind].
    rewrite (hint_u _ _ _ _ "res_y" 89%nat 4%nat V eq_refl). cbn [rbind].
    rewrite (hflt_32 _ _ _ _ "step_z" 105%nat V eq_refl), (hflt_32 _ _ _ _ "step_x" 97%nat V eq_refl), (hflt_32 _ _ _ _ "step_y" 101%nat V eq_refl).
    unfold fskip. cbn [contents pos]. change (0 + 117)%nat with 117%nat. change (0 + 85)%nat with 85%nat. change (0 + 89)%nat with 89%nat.
    change (0 + 97)%nat with 97%nat. change (0 + 101)%nat with 101%nat. change (0 + 105)%nat with 105%nat.
    fold (u32 b 89) (u32 b 85) (u32 b 117) (zmg_base b).
    destruct (Nat.eq_dec (Z.to_nat (u32 b 85) * Z.to_nat (u32 b 89)) 0) as [E0|E0].
    + assert (Ez : u32 b 85 * u32 b 89 = 0) by nia. rewrite Ez, read_items_0 by lia. cbn [rbind map].
      rewrite (reshape_ok nan64) by (cbn [length]; lia). cbn [rbind]. do 2 f_equal. unfold zmg_surface. f_equal. apply grid_ext'. intros i j Hi Hj. nia.
    + destruct (table_read_ok (fun c => fmul (f64_of_Z (item_i 2 c)) (single_at b 105)) 2 (u32 b 89) (u32 b 85) b (zmg_base b)) as (its & R1 & R2); try lia.
      rewrite R1. cbn [rbind]. rewrite R2. cbn [rbind]. do 2 f_equal. unfold zmg_surface. f_equal. apply grid_ext'. intros i j Hi Hj.
      unfold item_i. rewrite unle_slice; [reflexivity|]. apply (item_in 2 (Z.to_nat (u32 b 89))); auto. lia.
Qed.
(** the heights are the stored 16-bit integers times the vertical step *)
Theorem C74_zmg : forall en (b : bytes) s, is_file b -> read_zmg en (opened b) = Ok s ->
  let nx := Z.to_nat (u32 b 85) in let ny := Z.to_nat (u32 b 89) in let base := (205 + Z.to_nat (u32 b 117))%nat in
  (ny * nx <> 0 -> base + 2 * (ny * nx) <= length b)%nat /\
  table_is (rdata s) ny nx (fun i j h => h = fmul (f64_of_Z (i16 b (base + (i * nx + j) * 2))) (single_at b 105)) /\
  rstep_x s = single_at b 97 /\ rstep_y s = single_at b 101.
Proof.
  intros en b s Hf H nx ny base. apply (zmg_iff en b s Hf) in H as [(M & L & C) ->]. split; [|split; [|split; reflexivity]].
  - rewrite (Nat.mul_comm ny nx). exact C.
  - unfold zmg_surface. cbn [rdata]. apply grid_is. reflexivity.
Qed.
Theorem C74_zmg_reads : forall en (b : bytes), is_file b -> firstn 16 b = str "Zeta-Instruments" ->
  (205 + Z.to_nat (u32 b 117) + 2 * (Z.to_nat (u32 b 85) * Z.to_nat (u32 b 89)) <= length b)%nat ->
  exists s, read_zmg en (opened b) = Ok s.
Proof.
  intros en b Hf M L. exists (zmg_surface b). apply zmg_iff; [exact Hf|]. split; [|reflexivity].
  split; [exact M|]. split; [lia|]. intros _. unfold zmg_base. lia.
Qed.
Theorem C75_zmg_cut : forall en (b : bytes) s k, is_file b -> read_zmg en (opened b) = Ok s ->
  (Z.to_nat (u32 b 85) * Z.to_nat (u32 b 89) <> 0)%nat ->
  (k < 205 + Z.to_nat (u32 b 117) + 2 * (Z.to_nat (u32 b 85) * Z.to_nat (u32 b 89)))%nat ->
  is_ok (read_zmg en (opened (firstn k b))) = false.
Proof.
  intros en b s k Hf H Hn Hk. apply zmg_iff in H as [(M & L & C) _]; [|exact Hf]. specialize (C Hn). unfold zmg_base in C.
  destruct (read_zmg en (opened (firstn k b))) as [s'|ex] eqn:E; [exfalso|reflexivity].
  apply zmg_iff in E as [(M' & L' & C') _]; [|apply is_file_firstn; exact Hf].
  rewrite firstn_length in *. unfold zmg_base in C'. rewrite !u32_firstn in C' by lia. specialize (C' Hn). lia.
Qed.
Theorem C75_zmg_trailing : forall en (b t : bytes) s, is_file (b ++ t) -> (205 + Z.to_nat (u32 b 117) <= length b)%nat -> read_zmg en (opened b) = Ok s ->
  read_zmg en (opened (b ++ t)) = Ok s.
Proof.
  intros en b t s Hf Hb H. assert (Hb' : is_file b) by (apply Forall_app in Hf; apply Hf).
  apply zmg_iff in H as [(M & L & C) ->]; [|exact Hb']. apply zmg_iff; [exact Hf|].
  assert (U : forall o, (o + 4 <= 121)%nat -> uint 4 (b ++ t) o = uint 4 b o) by (intros o Ho; apply uint_app; lia).
  split.
  - unfold zmg_complete, zmg_base, u32. rewrite !U by lia. rewrite app_length. split; [|split; [lia|intros K; specialize (C K); unfold zmg_base, u32 in C; lia]].
    rewrite firstn_app. replace (16 - length b)%nat with 0%nat by lia. cbn [firstn]. rewrite app_nil_r. exact M.
  - unfold zmg_surface, zmg_base, single_at, f32_at, u32. rewrite !U by lia. f_equal. apply grid_ext'. intros i j Hi Hj.
    unfold i16. rewrite uint_app; [reflexivity|]. unfold zmg_base, u32 in *.
    assert (K : (Z.to_nat (uint 4 b 85) * Z.to_nat (uint 4 b 89) <> 0)%nat) by nia. specialize (C K).
    apply (item_in 2 (Z.to_nat (uint 4 b 89))); auto. lia.
Qed.

(** ** OS3D *)
(** offset of the point counts: behind the two texts *)
Definition os3d_n1 (b : bytes) : Z := i32 b 18.
Definition os3d_n2 (b : bytes) : Z := i32 b (22 + Z.to_nat (os3d_n1 b)).
Definition os3d_off (b : bytes) : nat := (26 + Z.to_nat (os3d_n1 b) + Z.to_nat (os3d_n2 b))%nat.
Definition os3d_nx (b : bytes) : Z := i32 b (os3d_off b).
Definition os3d_ny (b : bytes) : Z := i32 b (os3d_off b + 4).
(** below the single nearest to -3e38, or minus infinity: not measured *)
Definition os3d_gap (v : f32) : Prop :=
  (Binary.is_finite 24 128 v = true /\ (val32 v < -300000000549775575777803994281145270272)%R) \/ v = Binary.B754_infinity 24 128 true.
Lemma os3d_gap_spec v : flt_s v os3d_threshold = true <-> os3d_gap v.
Proof.
  assert (F : Binary.B2FF 24 128 os3d_threshold = Binary.F754_finite true 14791142 104) by (vm_compute; reflexivity).
  rewrite flt_s_iff by (vm_compute; reflexivity). unfold os3d_gap.
  assert (E : val32 os3d_threshold = (-300000000549775575777803994281145270272)%R).
  { unfold val32. rewrite <- Binary.FF2R_B2FF, F. cbn [Binary.FF2R]. unfold F2R. cbn. lra. }
  rewrite E. reflexivity.
Qed.
Definition os3d_surface (b : bytes) : raw :=
  let o := os3d_off b in let nx := Z.to_nat (os3d_nx b) in let ny := Z.to_nat (os3d_ny b) in
  {| rdata := grid ny nx (fun i j => let v := f32_at b (o + 40 + (i * nx + j) * 4) in f64_of_f32 (if flt_s v os3d_threshold then nan32 else v));
     rstep_x := f64_at b (o + 8); rstep_y := f64_at b (o + 16) |}.
Definition os3d_size (b : bytes) : nat := (os3d_off b + 41 + 4 * (Z.to_nat (os3d_ny b) * Z.to_nat (os3d_nx b)))%nat.
Definition os3d_complete (pd : pystr -> res unit) (en : encoding) (b : bytes) : Prop :=
  firstn 10 b = os3d_magic /\ 0 <= os3d_n1 b /\ 0 <= os3d_n2 b /\ 0 <= os3d_nx b /\ 0 <= os3d_ny b /\
  (os3d_size b <= length b)%nat /\
  is_ok (decode en (slice 22 (Z.to_nat (os3d_n1 b)) b)) = true /\
  (exists s, decode en (slice (26 + Z.to_nat (os3d_n1 b)) (Z.to_nat (os3d_n2 b)) b) = Ok s /\ pd (rstrip blank0 s) = Ok tt).
Definition os3d_a : list entry := firstn 3 os3d_layout.
Definition os3d_b : list entry := [E "nMeasureDateTimeStringLength" fmt_i].
Definition os3d_c : list entry := skipn 6 os3d_layout.
Lemma os3d_split en h : read_layout en os3d_layout h =
  rbind (read_layout_from en os3d_a [] h) (fun '(d, h) =>
  rbind (read_entry en (Entry "chArrayIdentification" (FromPrev "nIdentificationStringLength")) d h) (fun '(d, h) =>
  rbind (read_layout_from en os3d_b d h) (fun '(d, h) =>
  rbind (read_entry en (Entry "chArrayMeasureDateTime" (FromPrev "nMeasureDateTimeStringLength")) d h) (fun '(d, h) =>
  read_layout_from en os3d_c d h)))).
Proof.
  unfold read_layout. change os3d_layout with (os3d_a ++ Entry "chArrayIdentification" (FromPrev "nIdentificationStringLength") :: os3d_b ++ Entry "chArrayMeasureDateTime" (FromPrev "nMeasureDateTimeStringLength") :: os3d_c)%list.
  rewrite read_layout_from_app. destruct (read_layout_from en os3d_a [] h) as [[d h1]|ex]; cbn [rbind]; [|reflexivity].
  cbn [read_layout_from]. destruct (read_entry _ _ d h1) as [[d' h2]|ex]; cbn [rbind]; [|reflexivity].
  rewrite read_layout_from_app. destruct (read_layout_from en os3d_b d' h2) as [[d'' h3]|ex]; reflexivity.
Qed.
(** reading a fixed part into a dictionary that has none of its names *)
Lemma part_inv en l d b p d' h' : Forall sized l -> NoDup (names l) -> (forall k, In k (names l) -> dget d k = None) ->
  read_layout_from en l d {| contents := b; pos := p |} = Ok (d', h') ->
  values_ok en b p l = true /\ d' = (d ++ values en b p l)%list /\ h' = {| contents := b; pos := p + lsize l |}.
Proof.
  intros Hs Hn Hd H. destruct (read_values en b l p d Hs Hn Hd) as [I1 I2]. pose proof (I2 _ H) as V. split; [exact V|].
  rewrite I1 in H by exact V. apply ok_inj in H. split; [exact (f_equal fst (eq_sym H))|exact (f_equal snd (eq_sym H))].
Qed.
Ltac in_names := intros k Hk; vm_compute in Hk; repeat (destruct Hk as [<- | Hk]; [reflexivity|]); destruct Hk.
Lemma os3d_values en b d h : read_layout en os3d_layout {| contents := b; pos := 10 |} = Ok (d, h) ->
  0 <= os3d_n1 b /\ 0 <= os3d_n2 b /\ (os3d_off b + 40 <= length b)%nat /\
  is_ok (decode en (slice 22 (Z.to_nat (os3d_n1 b)) b)) = true /\
  (exists s, decode en (slice (26 + Z.to_nat (os3d_n1 b)) (Z.to_nat (os3d_n2 b)) b) = Ok s /\ hstr d "chArrayMeasureDateTime" = Ok (rstrip blank0 s)) /\
  hint d "nPointsAlongX" = Ok (os3d_nx b) /\ hint d "nPointsAlongY" = Ok (os3d_ny b) /\
  hflt d "dSpacingAlongXUM" = Ok (f64_at b (os3d_off b + 8)) /\ hflt d "dSpacingAlongYUM" = Ok (f64_at b (os3d_off b + 16)) /\
  h = {| contents := b; pos := os3d_off b + 40 |}.
Proof.
  rewrite os3d_split. intros H. apply rbind_ok in H as ([d1 h1] & Ha & H).
  apply part_inv in Ha as (Va & -> & ->); [|is_sized|is_distinct|in_names]. cbn [app] in H. change (10 + lsize os3d_a)%nat with 22%nat in H.
  apply rbind_ok in H as ([d2 h2] & H1 & H). apply prev_inv in H1 as (z1 & s1 & G1 & Z1 & L1 & D1 & -> & ->).
  rewrite (proj1 (locate_spec en b "nIdentificationStringLength" os3d_a 10 8 fmt_i eq_refl)) in G1.
  assert (E1 : z1 = os3d_n1 b).
  { injection G1 as <-. unfold os3d_n1, i32. rewrite unle_slice; [reflexivity|]. apply (located_in en b 10 os3d_a "nIdentificationStringLength" 8 fmt_i Va eq_refl). }
  subst z1. clear G1.
  apply rbind_ok in H as ([d3 h3] & Hb & H). set (d2 := dset _ _ _) in Hb.
  apply part_inv in Hb as (Vb & -> & ->); [|is_sized|is_distinct|in_names].
  change (lsize os3d_b) with 4%nat in H.
  apply rbind_ok in H as ([d4 h4] & H1 & H). apply prev_inv in H1 as (z2 & s2 & G2 & Z2 & L2 & D2 & -> & ->).
  assert (G2' : dget (d2 ++ values en b (22 + Z.to_nat (os3d_n1 b)) os3d_b) "nMeasureDateTimeStringLength" = dget (values en b (22 + Z.to_nat (os3d_n1 b)) os3d_b) "nMeasureDateTimeStringLength").
  { apply dget_app_none. reflexivity. }
  rewrite G2' in G2. clear G2'. rewrite (proj1 (locate_spec en b "nMeasureDateTimeStringLength" os3d_b _ 0 fmt_i eq_refl)) in G2.
  assert (E2 : z2 = os3d_n2 b).
  { injection G2 as <-. unfold os3d_n2, i32. rewrite Nat.add_0_r. rewrite unle_slice; [reflexivity|].
    pose proof (located_in en b _ os3d_b "nMeasureDateTimeStringLength" 0 fmt_i Vb eq_refl) as L. cbn [calcsize fmt_i] in L. rewrite Nat.add_0_r in L. exact L. }
  subst z2. clear G2. set (d4 := dset _ _ _) in H.
  assert (P : (22 + Z.to_nat (os3d_n1 b) + 4 + Z.to_nat (os3d_n2 b) = os3d_off b)%nat) by (unfold os3d_off; lia).
  replace (22 + Z.to_nat (os3d_n1 b) + 4)%nat with (26 + Z.to_nat (os3d_n1 b))%nat in * by lia.
  replace (26 + Z.to_nat (os3d_n1 b) + Z.to_nat (os3d_n2 b))%nat with (os3d_off b) in * by (unfold os3d_off; lia).
  apply part_inv in H as (Vc & -> & ->); [|is_sized|is_distinct|in_names]. change (lsize os3d_c) with 40%nat.
  pose proof (located_in en b _ os3d_c "dYOriginUM" 32 FF64 Vc eq_refl) as L. cbn [calcsize] in L.
  rewrite !hint_app, !hflt_app by reflexivity.
  rewrite (hint_s _ _ _ _ "nPointsAlongX" 0%nat 4%nat Vc eq_refl), (hint_s _ _ _ _ "nPointsAlongY" 4%nat 4%nat Vc eq_refl).
  rewrite (hflt_64 _ _ _ _ "dSpacingAlongXUM" 8%nat Vc eq_refl), (hflt_64 _ _ _ _ "dSpacingAlongYUM" 16%nat Vc eq_refl).
  rewrite Nat.add_0_r. repeat (split; [first [assumption|reflexivity|lia|idtac]|]); try reflexivity.
  - rewrite D1. reflexivity.
  - exists s2. split; [exact D2|]. unfold hstr, dkey. rewrite (dget_app_some d4 _ _ (VStr (rstrip blank0 s2))); [reflexivity|]. unfold d4. apply dget_dset_same.
Qed.
Lemma os3d_values_ok en b : 0 <= os3d_n1 b -> 0 <= os3d_n2 b -> (os3d_off b + 40 <= length b)%nat ->
  is_ok (decode en (slice 22 (Z.to_nat (os3d_n1 b)) b)) = true ->
  is_ok (decode en (slice (26 + Z.to_nat (os3d_n1 b)) (Z.to_nat (os3d_n2 b)) b)) = true ->
  is_ok (read_layout en os3d_layout {| contents := b; pos := 10 |}) = true.
Proof.
  intros N1 N2 L D1 D2. rewrite os3d_split. unfold os3d_off in L.
  assert (Va : values_ok en b 10 os3d_a = true) by (apply numeric_ok; [is_numeric|change (lsize os3d_a) with 12%nat; lia]).
  rewrite (proj1 (read_values en b os3d_a 10 [] ltac:(is_sized) ltac:(is_distinct) ltac:(in_names)) Va). cbn [rbind app].
  change (10 + lsize os3d_a)%nat with 22%nat.
  destruct (decode en (slice 22 (Z.to_nat (os3d_n1 b)) b)) as [s1|] eqn:E1; [|discriminate].
  rewrite (prev_ok en _ _ _ b 22 (os3d_n1 b) s1); try assumption; [cbn [rbind]| |lia].
  2:{ rewrite (proj1 (locate_spec en b "nIdentificationStringLength" os3d_a 10 8 fmt_i eq_refl)). cbn [field fmt_i calcsize]. rewrite unle_slice by lia. reflexivity. }
  set (d2 := dset _ _ _).
  assert (Vb : values_ok en b (22 + Z.to_nat (os3d_n1 b)) os3d_b = true) by (apply numeric_ok; [is_numeric|change (lsize os3d_b) with 4%nat; lia]).
  rewrite (proj1 (read_values en b os3d_b (22 + Z.to_nat (os3d_n1 b)) d2 ltac:(is_sized) ltac:(is_distinct) ltac:(in_names)) Vb). cbn [rbind].
  change (lsize os3d_b) with 4%nat. replace (22 + Z.to_nat (os3d_n1 b) + 4)%nat with (26 + Z.to_nat (os3d_n1 b))%nat by lia.
  destruct (decode en (slice (26 + Z.to_nat (os3d_n1 b)) (Z.to_nat (os3d_n2 b)) b)) as [s2|] eqn:E2; [|discriminate].
  rewrite (prev_ok en _ _ _ b (26 + Z.to_nat (os3d_n1 b)) (os3d_n2 b) s2); try assumption; [cbn [rbind]| |lia].
  2:{ rewrite dget_app_none by reflexivity. rewrite (proj1 (locate_spec en b "nMeasureDateTimeStringLength" os3d_b _ 0 fmt_i eq_refl)). cbn [field fmt_i calcsize].
      rewrite Nat.add_0_r, unle_slice by lia. reflexivity. }
  set (d4 := dset _ _ _).
  assert (Vc : values_ok en b (26 + Z.to_nat (os3d_n1 b) + Z.to_nat (os3d_n2 b)) os3d_c = true) by (apply numeric_ok; [is_numeric|change (lsize os3d_c) with 40%nat; lia]).
  rewrite (proj1 (read_values en b os3d_c _ d4 ltac:(is_sized) ltac:(is_distinct) ltac:(in_names)) Vc). reflexivity.
Qed.
Section os3d.
Variables (pd : pystr -> res unit) (oi : bytes -> res image) (en : encoding).
Lemma os3d_inv im b s l : is_file b -> read_os3d pd oi en im (opened b) = Ok (s, l) ->
  os3d_complete pd en b /\ s = os3d_surface b /\
  (if im then exists img, oi (skipn (os3d_size b) b) = Ok img /\ l = [("RGBA"%string, img)] else l = []).
Proof.
  intros Hf H. unfold read_os3d, opened in H. rewrite fread_slice in H. change (slice 0 (length os3d_magic) b) with (firstn 10 b) in H.
  destruct (zs_eqb (firstn 10 b) os3d_magic) eqn:M; cbn [negb] in H.
  2:{ apply rbind_ok in H as (? & _ & H). discriminate. }
  apply zs_eqb_eq in M. rewrite M in H. change (0 + length os3d_magic)%nat with 10%nat in H.
  apply rbind_ok in H as ([d h2] & Hl & H). apply os3d_values in Hl as (N1 & N2 & L & D1 & (ds & D2 & D3) & X & Y & SX & SY & ->).
  rewrite X in H. cbn [rbind] in H. rewrite Y in H. cbn [rbind] in H. rewrite SX, SY, D3 in H. cbn [rbind] in H.
  destruct ((os3d_nx b <? 0) || (os3d_ny b <? 0)) eqn:Neg; [discriminate|]. apply orb_false_iff in Neg as [Nx Ny]. apply Z.ltb_ge in Nx, Ny.
  apply rbind_ok in H as ([its h3] & Hr & H). apply rbind_ok in H as (data & Hs & H).
  apply rbind_ok in H as (u & Hd & H). destruct u.
  destruct (table_read item_f32 nan32 4 (os3d_ny b) (os3d_nx b) b _ its h3 data ltac:(lia) Ny Nx Hr Hs) as (T1 & T2 & ->).
  rewrite fread_slice in H. apply rbind_ok in H as (fl & Hu & H). apply unpack_length in Hu. cbn [calcsize] in Hu. rewrite slice_length in Hu.
  apply rbind_ok in H as (ly & Hi & H). apply ok_inj in H. injection H as Es El. subst ly s data.
  assert (S : (os3d_size b <= length b)%nat) by (unfold os3d_size; lia).
  split; [|split].
  - repeat split; auto. exists ds. auto.
  - unfold os3d_surface. rewrite grid_map. f_equal. apply grid_ext'. intros i j Hi' Hj.
    unfold item_f32. rewrite unle_slice; [reflexivity|]. apply (item_in 4 (Z.to_nat (os3d_ny b))); auto. lia.
  - destruct im; [|apply ok_inj in Hi; auto]. apply rmap_ok in Hi as (img & Hi & ->). exists img. split; [|reflexivity].
    rewrite <- Hi. unfold fread_all. cbn [fst contents pos]. f_equal. f_equal. rewrite slice_len by lia. unfold os3d_size. lia.
Qed.
Lemma os3d_ok b : is_file b -> os3d_complete pd en b -> read_os3d pd oi en false (opened b) = Ok (os3d_surface b, []).
Proof.
  intros Hf (M & N1 & N2 & Nx & Ny & S & D1 & (ds & D2 & D3)). unfold os3d_size in S.
  unfold read_os3d, opened. rewrite fread_slice. change (slice 0 (length os3d_magic) b) with (firstn 10 b). rewrite M, zs_eqb_refl. cbn [negb].
  change (0 + length os3d_magic)%nat with 10%nat.
  destruct (read_layout en os3d_layout {| contents := b; pos := 10 |}) as [[d h2]|ex] eqn:Hl.
  2:{ exfalso. assert (K : is_ok (read_layout en os3d_layout {| contents := b; pos := 10 |}) = true); [|rewrite Hl in K; discriminate].
      apply os3d_values_ok; auto; [lia|rewrite D2; reflexivity]. }
  apply os3d_values in Hl as (_ & _ & L & _ & (ds' & D2' & D3') & X & Y & SX & SY & ->). cbn [rbind].
  assert (ds' = ds) by congruence. subst ds'.
  rewrite X. cbn [rbind]. rewrite Y. cbn [rbind]. rewrite SX, SY, D3'. cbn [rbind].
  rewrite (proj2 (Z.ltb_ge _ _) Nx), (proj2 (Z.ltb_ge _ _) Ny). cbn [orb].
  destruct (table_read_ok item_f32 4 (os3d_ny b) (os3d_nx b) b (os3d_off b + 40)) as (its & R1 & R2); try lia.
  rewrite R1. cbn [rbind]. rewrite R2. cbn [rbind]. rewrite D3. cbn [rbind]. rewrite fread_slice. unfold unpack. cbn [calcsize]. rewrite slice_len by lia. cbn [Nat.eqb rbind].
  unfold os3d_surface. rewrite grid_map. do 3 f_equal. apply grid_ext'. intros i j Hi Hj.
  unfold item_f32. rewrite unle_slice; [reflexivity|]. apply (item_in 4 (Z.to_nat (os3d_ny b))); auto. lia.
Qed.
End os3d.
(** The two texts have lengths n1 (at byte 18) and n2; the point counts follow at o = 26 + n1 + n2, the heights at o + 40,
    and one flag byte closes the heights. *)
Theorem C74_os3d : forall pd oi en im (b : bytes) s l, is_file b -> read_os3d pd oi en im (opened b) = Ok (s, l) ->
  let n1 := i32 b 18 in let n2 := i32 b (22 + Z.to_nat n1) in let o := (26 + Z.to_nat n1 + Z.to_nat n2)%nat in
  let nx := Z.to_nat (i32 b o) in let ny := Z.to_nat (i32 b (o + 4)) in
  firstn 10 b = str "OmniSurf3D" /\ 0 <= n1 /\ 0 <= n2 /\ 0 <= i32 b o /\ 0 <= i32 b (o + 4) /\
  (o + 40 + 4 * (ny * nx) + 1 <= length b)%nat /\
  table_is (rdata s) ny nx (fun i j h =>
    let v := f32_at b (o + 40 + (i * nx + j) * 4) in
    (os3d_gap v -> isnan h = true) /\ (~ os3d_gap v -> h = f64_of_f32 v)) /\
  rstep_x s = f64_at b (o + 8) /\ rstep_y s = f64_at b (o + 16).
Proof.
  intros pd oi en im b s l Hf H n1 n2 o nx ny. apply os3d_inv in H as ((M & N1 & N2 & Nx & Ny & S & _) & -> & _); [|exact Hf].
  split; [exact M|]. split; [exact N1|]. split; [exact N2|]. split; [exact Nx|]. split; [exact Ny|]. split; [|split; [|split; reflexivity]].
  - unfold os3d_size in S. change (os3d_off b) with o in S. change (Z.to_nat (os3d_ny b)) with ny in S. change (Z.to_nat (os3d_nx b)) with nx in S. lia.
  - unfold os3d_surface. cbn [rdata]. apply grid_is. intros i j _ _. change (os3d_off b) with o. change (Z.to_nat (os3d_nx b)) with nx.
    destruct (flt_s (f32_at b (o + 40 + (i * nx + j) * 4)) os3d_threshold) eqn:E; split; intros G.
    + reflexivity.
    + apply os3d_gap_spec in E. contradiction.
    + apply os3d_gap_spec in G. congruence.
    + reflexivity.
Qed.
Theorem C74_os3d_reads : forall pd oi en (b : bytes), is_file b ->
  let n1 := i32 b 18 in let n2 := i32 b (22 + Z.to_nat n1) in let o := (26 + Z.to_nat n1 + Z.to_nat n2)%nat in
  firstn 10 b = str "OmniSurf3D" -> 0 <= n1 -> 0 <= n2 -> 0 <= i32 b o -> 0 <= i32 b (o + 4) ->
  (o + 40 + 4 * (Z.to_nat (i32 b (o + 4)) * Z.to_nat (i32 b o)) + 1 <= length b)%nat ->
  is_ok (decode en (firstn (Z.to_nat n1) (skipn 22 b))) = true ->
  (exists s, decode en (firstn (Z.to_nat n2) (skipn (26 + Z.to_nat n1) b)) = Ok s /\ pd (rstrip blank0 s) = Ok tt) ->
  exists s, read_os3d pd oi en false (opened b) = Ok (s, []).
Proof.
  intros pd oi en b Hf n1 n2 o M N1 N2 Nx Ny S D1 D2. exists (os3d_surface b). apply os3d_ok; [exact Hf|].
  repeat (split; [first [assumption|idtac]|]); try assumption.
  unfold os3d_size. change (os3d_off b) with o. change (os3d_ny b) with (i32 b (o + 4)). change (os3d_nx b) with (i32 b o). lia.
Qed.
Lemma i32_firstn k b o : (o + 4 <= k)%nat -> (k <= length b)%nat -> i32 (firstn k b) o = i32 b o.
Proof. intros H L. unfold i32. f_equal. apply u32_firstn; assumption. Qed.
Theorem C75_os3d_cut : forall pd oi en im im' (b : bytes) s l k, is_file b -> read_os3d pd oi en im (opened b) = Ok (s, l) ->
  let n1 := i32 b 18 in let n2 := i32 b (22 + Z.to_nat n1) in let o := (26 + Z.to_nat n1 + Z.to_nat n2)%nat in
  (k < o + 40 + 4 * (Z.to_nat (i32 b (o + 4)) * Z.to_nat (i32 b o)) + 1)%nat ->
  is_ok (read_os3d pd oi en im' (opened (firstn k b))) = false.
Proof.
  intros pd oi en im im' b s l k Hf H n1 n2 o Hk. apply os3d_inv in H as ((_ & N1 & N2 & Nx & Ny & S & _) & _); [|exact Hf].
  destruct (read_os3d pd oi en im' (opened (firstn k b))) as [[s' l']|ex] eqn:E; [exfalso|reflexivity].
  apply os3d_inv in E as ((_ & N1' & N2' & Nx' & Ny' & S' & _) & _); [|apply is_file_firstn; exact Hf].
  assert (SL : (os3d_size b = o + 40 + 4 * (Z.to_nat (i32 b (o + 4)) * Z.to_nat (i32 b o)) + 1)%nat).
  { unfold os3d_size, os3d_ny, os3d_nx. change (os3d_off b) with o. lia. }
  rewrite firstn_length in S'. assert (S2 : (os3d_size (firstn k b) <= k /\ k <= length b)%nat) by lia. clear S'. destruct S2 as [S' Lk].
  assert (E1 : os3d_n1 (firstn k b) = os3d_n1 b) by (unfold os3d_n1; apply i32_firstn; unfold os3d_size, os3d_off in S'; lia).
  assert (E2 : os3d_n2 (firstn k b) = os3d_n2 b).
  { unfold os3d_n2. rewrite E1. apply i32_firstn; auto. unfold os3d_size, os3d_off in S'. rewrite E1 in S'. lia. }
  assert (E3 : os3d_off (firstn k b) = os3d_off b) by (unfold os3d_off; rewrite E1, E2; reflexivity).
  assert (E4 : os3d_size (firstn k b) = os3d_size b).
  { unfold os3d_size in *. rewrite E3 in *. unfold os3d_nx, os3d_ny in *. rewrite E3 in *. rewrite !i32_firstn by lia. reflexivity. }
  lia.
Qed.
Lemma i32_app o a c : (o + 4 <= length a)%nat -> i32 (a ++ c) o = i32 a o.
Proof. intros H. unfold i32. rewrite uint_app by exact H. reflexivity. Qed.
Theorem C75_os3d_trailing : forall pd oi en (b t : bytes) s, is_file (b ++ t) -> read_os3d pd oi en false (opened b) = Ok (s, []) ->
  read_os3d pd oi en false (opened (b ++ t)) = Ok (s, []).
Proof.
  intros pd oi en b t s Hf H. assert (Hb : is_file b) by (apply Forall_app in Hf; apply Hf).
  apply os3d_inv in H as ((M & N1 & N2 & Nx & Ny & S & D1 & D2) & -> & _); [|exact Hb].
  pose proof S as S0. unfold os3d_size, os3d_off in S0.
  assert (E1 : os3d_n1 (b ++ t) = os3d_n1 b) by (apply i32_app; lia).
  assert (E2 : os3d_n2 (b ++ t) = os3d_n2 b) by (unfold os3d_n2; rewrite E1; apply i32_app; lia).
  assert (E3 : os3d_off (b ++ t) = os3d_off b) by (unfold os3d_off; rewrite E1, E2; reflexivity).
  assert (E4 : os3d_nx (b ++ t) = os3d_nx b) by (unfold os3d_nx; rewrite E3; apply i32_app; unfold os3d_off; lia).
  assert (E5 : os3d_ny (b ++ t) = os3d_ny b) by (unfold os3d_ny; rewrite E3; apply i32_app; unfold os3d_off; lia).
  rewrite os3d_ok; auto.
  - do 2 f_equal. unfold os3d_surface. rewrite E3, E4, E5. unfold os3d_size in S. f_equal.
    + apply grid_ext'. intros i j Hi Hj. unfold f32_at. rewrite uint_app; [reflexivity|]. apply (item_in 4 (Z.to_nat (os3d_ny b))); auto. lia.
    + unfold f64_at. rewrite uint_app by lia. reflexivity.
    + unfold f64_at. rewrite uint_app by lia. reflexivity.
  - unfold os3d_complete, os3d_size. rewrite E1, E2, E3, E4, E5. rewrite !slice_app by lia. rewrite app_length. unfold os3d_size in S.
    repeat (split; [first [assumption|idtac]|]); auto; [|lia].
    rewrite firstn_app. replace (10 - length b)%nat with 0%nat by lia. cbn [firstn]. rewrite app_nil_r. exact M.
Qed.
Theorem C76_os3d : forall pd oi en (b : bytes) s l, is_file b -> read_os3d pd oi en true (opened b) = Ok (s, l) ->
  read_os3d pd oi en false (opened b) = Ok (s, []) /\
  (let n1 := i32 b 18 in let n2 := i32 b (22 + Z.to_nat n1) in let o := (26 + Z.to_nat n1 + Z.to_nat n2)%nat in
   exists img, oi (skipn (o + 41 + 4 * (Z.to_nat (i32 b (o + 4)) * Z.to_nat (i32 b o))) b) = Ok img /\ l = [("RGBA"%string, img)]).
Proof. intros pd oi en b s l Hf H. apply os3d_inv in H as (C & -> & I); [|exact Hf]. split; [apply os3d_ok; assumption|]. exact I. Qed.
(** A file without an image (flag byte 0 and nothing behind it) has no image to decode: with image layers requested the reader
    still calls the image decoder, so if that rejects empty input the whole file cannot be read. *)
Theorem C76_os3d_no_image_refuted : forall pd oi en (b : bytes) s, is_file b -> is_ok (oi []) = false ->
  read_os3d pd oi en false (opened b) = Ok (s, []) ->
  let n1 := i32 b 18 in let n2 := i32 b (22 + Z.to_nat n1) in let o := (26 + Z.to_nat n1 + Z.to_nat n2)%nat in
  length b = (o + 41 + 4 * (Z.to_nat (i32 b (o + 4)) * Z.to_nat (i32 b o)))%nat ->
  is_ok (read_os3d pd oi en true (opened b)) = false.
Proof.
  intros pd oi en b s Hf Ho H n1 n2 o L. destruct (read_os3d pd oi en true (opened b)) as [[s' l]|] eqn:E; [|reflexivity].
  apply os3d_inv in E as (_ & _ & (img & E & _)); [|exact Hf]. rewrite skipn_all2 in E.
  - rewrite E in Ho. discriminate.
  - unfold os3d_size, os3d_nx, os3d_ny. change (os3d_off b) with o. lia.
Qed.

(** ** NMS *)
Definition nms_surface (b : bytes) : raw :=
  let nx := Z.to_nat (u32 b 1368) in let ny := Z.to_nat (u32 b 1372) in
  {| rdata := grid ny nx (fun i j => nms_height (f64_at b 16) (f64_at b 24) (u16 b (3468 + (i * nx + j) * 2)));
     rstep_x := fmul (f64_at b 1376) milli; rstep_y := fmul (f64_at b 1384) milli |}.
Definition nms_complete (pd : pystr -> res unit) (en : encoding) (b : bytes) : Prop :=
  let n := (Z.to_nat (u32 b 1372) * Z.to_nat (u32 b 1368))%nat in
  (1392 <= length b)%nat /\ (n <> 0 -> 3468 + 2 * n <= length b)%nat /\
  exists s, decode en (slice 1076 16 b) = Ok s /\ pd s = Ok tt.
Lemma two_doubles_iff o b x y : two_doubles o (opened b) = Ok (x, y) <-> (o + 16 <= length b)%nat /\ x = f64_at b o /\ y = f64_at b (o + 8).
Proof.
  unfold two_doubles, fseek, opened. cbn [contents]. rewrite fread_slice. rewrite slice_eqb by lia. change (firstn 8 (slice o 16 b)) with (slice 0 8 (slice o 16 b)).
  destruct (Nat.leb_spec (o + 16) (length b)) as [L|L].
  - rewrite slice_slice by lia. rewrite Nat.add_0_r. unfold f64_at. rewrite unle_slice by lia.
    assert (E : skipn 8 (slice o 16 b) = slice (o + 8) 8 b).
    { rewrite <- (slice_slice o 16 8 8 b) by lia. unfold slice at 2. rewrite firstn_all2; [reflexivity|]. rewrite skipn_length, slice_len; lia. }
    rewrite E, unle_slice by lia. split; [intros H; apply ok_inj in H; injection H as <- <-; auto|intros (_ & -> & ->); reflexivity].
  - split; [discriminate|lia].
Qed.
Lemma two_words_iff o b x y : two_words o (opened b) = Ok (x, y) <-> (o + 8 <= length b)%nat /\ x = u32 b o /\ y = u32 b (o + 4).
Proof.
  unfold two_words, fseek, opened. cbn [contents]. rewrite fread_slice. rewrite slice_eqb by lia. change (firstn 4 (slice o 8 b)) with (slice 0 4 (slice o 8 b)).
  destruct (Nat.leb_spec (o + 8) (length b)) as [L|L].
  - rewrite slice_slice by lia. rewrite Nat.add_0_r. unfold u32. rewrite unle_slice by lia.
    assert (E : skipn 4 (slice o 8 b) = slice (o + 4) 4 b).
    { rewrite <- (slice_slice o 8 4 4 b) by lia. unfold slice at 2. rewrite firstn_all2; [reflexivity|]. rewrite skipn_length, slice_len; lia. }
    rewrite E, unle_slice by lia. split; [intros H; apply ok_inj in H; injection H as <- <-; auto|intros (_ & -> & ->); reflexivity].
  - split; [discriminate|lia].
Qed.
Lemma nms_inv pd en im b s l : is_file b -> read_nms pd en im (opened b) = Ok (s, l) ->
  nms_complete pd en b /\ s = nms_surface b /\
  (if im then exists its m, read_items 1 (u32 b 1368 * u32 b 1372) {| contents := b; pos := 3468 + 2 * (Z.to_nat (u32 b 1372) * Z.to_nat (u32 b 1368)) |} = Ok (its, m) /\
     exists img, reshape (Z.to_nat (u32 b 1372)) (Z.to_nat (u32 b 1372)) (map item_u its) = Ok img /\ l = [("Grayscale"%string, map (map (fun v => [v])) img)]
   else l = []).
Proof.
  intros Hf H. pose proof (u32_nonneg b 1368 Hf) as N1. pose proof (u32_nonneg b 1372 Hf) as N2. unfold read_nms in H.
  apply rbind_ok in H as ([zmin zmax] & Hz & H). apply two_doubles_iff in Hz as (_ & -> & ->).
  unfold fseek in H. change (contents (opened b)) with b in H. rewrite fread_slice in H. cbn [fst] in H.
  apply rbind_ok in H as (u & Hd & H). apply rbind_ok in Hd as (ds & Hd1 & Hd2). destruct u.
  apply rbind_ok in H as ([nx ny] & Hn & H). apply two_words_iff in Hn as (_ & -> & ->).
  apply rbind_ok in H as ([dx dy] & Hn & H). apply two_doubles_iff in Hn as (L & -> & ->).
  change (16 + 8)%nat with 24%nat in H. change (1368 + 4)%nat with 1372%nat in H. change (1376 + 8)%nat with 1384%nat in H. change (1376 + 16)%nat with 1392%nat in L.
  apply rbind_ok in H as ([its h1] & Hr & H). apply rbind_ok in H as (data & Hs & H). apply rbind_ok in H as (ly & Hi & H). apply ok_inj in H.
  destruct (table_read _ nan64 2 (u32 b 1372) (u32 b 1368) b _ its h1 data ltac:(lia) N2 N1 Hr Hs) as (T1 & T2 & ->).
  injection H as Es El. subst ly s data.
  assert (C : (Z.to_nat (u32 b 1372) * Z.to_nat (u32 b 1368) <> 0 -> 3468 + 2 * (Z.to_nat (u32 b 1372) * Z.to_nat (u32 b 1368)) <= length b)%nat).
  { intros K. destruct T1 as [T1|T1]; [exfalso; apply K; nia|]. lia. }
  split; [|split].
  - split; [exact L|]. split; [exact C|]. exists ds. auto.
  - unfold nms_surface. f_equal. apply grid_ext'. intros i j Hi' Hj.
    unfold item_u. rewrite unle_slice; [reflexivity|]. assert (K : (Z.to_nat (u32 b 1372) * Z.to_nat (u32 b 1368) <> 0)%nat) by nia. specialize (C K).
    apply (item_in 2 (Z.to_nat (u32 b 1372))); auto. lia.
  - destruct im; [|apply ok_inj in Hi; auto]. apply rbind_ok in Hi as ([l1 h1] & Hi1 & Hi). apply rmap_ok in Hi as (img & Hi & ->).
    replace (2 * (Z.to_nat (u32 b 1372) * Z.to_nat (u32 b 1368)))%nat with (Z.to_nat (u32 b 1372) * Z.to_nat (u32 b 1368) * 2)%nat by lia.
    exists l1, h1. split; [exact Hi1|]. exists img. auto.
Qed.
Lemma nms_ok pd en b : is_file b -> nms_complete pd en b -> read_nms pd en false (opened b) = Ok (nms_surface b, []).
Proof.
  intros Hf (L & C & (ds & D1 & D2)). pose proof (u32_nonneg b 1368 Hf) as N1. pose proof (u32_nonneg b 1372 Hf) as N2. unfold read_nms.
  rewrite (proj2 (two_doubles_iff 16 b (f64_at b 16) (f64_at b 24))) by (repeat split; lia). cbn [rbind].
  unfold fseek. change (contents (opened b)) with b. rewrite fread_slice. rewrite D1. cbn [rbind]. rewrite D2. cbn [rbind].
  rewrite (proj2 (two_words_iff 1368 b (u32 b 1368) (u32 b 1372))) by (repeat split; lia). cbn [rbind].
  rewrite (proj2 (two_doubles_iff 1376 b (f64_at b 1376) (f64_at b 1384))) by (repeat split; lia). cbn [rbind].
  destruct (Nat.eq_dec (Z.to_nat (u32 b 1372) * Z.to_nat (u32 b 1368)) 0) as [E0|E0].
  - assert (Ez : u32 b 1368 * u32 b 1372 = 0) by nia. rewrite Ez, read_items_0 by lia. cbn [rbind map].
    rewrite (reshape_ok nan64) by (cbn [length]; lia). cbn [rbind]. do 2 f_equal. unfold nms_surface. f_equal. apply grid_ext'. intros i j Hi Hj. nia.
  - destruct (table_read_ok (fun c => nms_height (f64_at b 16) (f64_at b 24) (item_u c)) 2 (u32 b 1372) (u32 b 1368) b 3468) as (its & R1 & R2); try lia.
    rewrite R1. cbn [rbind]. rewrite R2. cbn [rbind]. do 2 f_equal. unfold nms_surface. f_equal. apply grid_ext'. intros i j Hi Hj.
    unfold item_u. rewrite unle_slice; [reflexivity|]. apply (item_in 2 (Z.to_nat (u32 b 1372))); auto. lia.
Qed.
