(** C45, C46, C51 for the Digital Surf format (.sur). *)
From Coq Require Import String Ascii ZArith Lia Bool Reals Lra.
From Coq Require Import List.
From Flocq Require Import Core.Core.
From Flocq Require Import IEEE754.BinarySingleNaN IEEE754.Binary IEEE754.Bits.
From Verif Require Import Base ModelBytes SpecBytes ProofBytes PropsLayout ModelUnits PropsUnits ProofFloat ProofSurReal ModelSur ProofSur ProofCodec ProofSurHeader.
Import ListNotations.
Local Open Scope Z_scope.


Lemma um_factor lower : lower_ok lower -> unit_factor lower um_sign = Ok (f64_of_Z 1).
Proof.
  intros L. unfold unit_factor. assert (E : conversion_exponent lower um_sign (str "um") = Ok 0).
  { unfold conversion_exponent. rewrite !(lower_latin lower L) by (repeat constructor; lia). vm_compute. reflexivity. }
  rewrite E. reflexivity.
Qed.

(** the height the reader computes from a stored integer *)
Definition height_of (s : raw) (n : Z) : f64 :=
  fadd (if (Z.b2z (has_missing s) =? 1) && (n =? INT_DATA_MIN - 2) then nan64
        else fmul (fmul (f64_of_Z n) (f32r (spz s))) (f64_of_Z 1)) (f32r (ofz s)).

Section Write.
Context (z : zlib) (lower : pystr -> pystr) (L : lower_ok lower) (w r : encoding) (C : compatible w r)
        (t : timestamp) (Ht : good_time t) (s : raw) (G : good_surface s)
        (Hs : singleable (spz s)) (Ho : singleable (ofz s))
        (comment : pystr) (cb : bytes) (Hc : encode w comment = Ok cb) (Hcb : zlen cb < 2 ^ 15).
Let q := quantise (has_missing s) (nanmin s) (nanmax s).
Hypothesis Hq : forall x, In x (concat (rdata s)) -> int_fits true 4 (q x).

Lemma fread_z_at (n : Z) pre b rest : n = Z.of_nat (length b) -> fread_z n (at_ pre (b ++ rest)) = Ok (b, at_ (pre ++ b) rest).
Proof.
  intros ->. unfold fread_z. destruct (Z.eqb_spec (Z.of_nat (length b)) (-1)); [lia|].
  destruct (Z.ltb_spec (Z.of_nat (length b)) 0); [lia|]. rewrite Nat2Z.id, fread_at. reflexivity.
Qed.
Lemma nonempty : Nat.eqb (rows s * cols s) 0 = false.
Proof. pose proof (gs_rows s G). pose proof (gs_cols s G). apply Nat.eqb_neq. nia. Qed.

Lemma write_read : exists b, write_sur z w t s false comment = Ok b /\
  read_sur z lower r (open_rb b) =
    Ok {| rdata := map (map (fun x => height_of s (q x))) (rdata s);
          rstep_x := fmul (f64_of_Z 1) (f32r (rstep_x s)); rstep_y := fmul (f64_of_Z 1) (f32r (rstep_y s)) |}.
Proof.
  destruct (header_roundtrip w r C t Ht s G false (zlen cb)) as (head & d & W1 & W2 & W3 & W4); auto.
  { unfold zlen in *. lia. }
  set (body := int_tobytes 4 (map q (concat (rdata s)))).
  exists (head ++ cb ++ body). split.
  { unfold write_sur. rewrite nonempty, Hc. cbn [rbind]. rewrite W1. reflexivity. }
  destruct W3 as [hr_code hr_version hr_type hr_acq hr_comment hr_private hr_bits hr_lines hr_points hr_total hr_comp hr_nobj hr_nm hr_min hr_spz hr_ofz hr_spx hr_spy hr_ux hr_uy hr_uz hr_no hr_np].
  cbv iota in hr_code.
  unfold read_sur, read_sur_object, read_sur_header. rewrite W4. cbn [rbind].
  rewrite hr_code, hr_version. cbn [rbind]. change (zs_eqb (str "DIGITAL SURF") (str "DIGITAL SURF")) with true. cbn [negb orb Z.eqb Pos.eqb].
  rewrite hr_type. cbn [rbind]. change (negb ((1 <=? 2) && (2 <=? 19))) with false. cbv iota.
  rewrite hr_acq. cbn [rbind]. change (negb ((0 <=? 0) && (0 <=? 10))) with false. cbv iota.
  cbn [pos at_ open_rb]. rewrite W2. change (negb (Nat.eqb (512 - 0) 512)) with false. cbv iota.
  rewrite hr_comment. cbn [rbind]. rewrite (fread_z_at (zlen cb) head cb body) by reflexivity. cbn [rbind].
  rewrite hr_private. cbn [rbind].
  change body with ([] ++ body) at 1. rewrite (fread_z_at 0 (head ++ cb) [] body) by reflexivity. cbn [rbind].
  rewrite hr_bits. cbn [rbind Z.eqb Pos.eqb]. rewrite hr_lines, hr_points. cbn [rbind]. rewrite hr_code. cbn [rbind].
  change (zs_eqb (str "DIGITAL SURF") (str "DIGITAL SURF")) with true. cbv iota. rewrite hr_total. cbn [rbind].
  pose proof (counts s G) as (N1 & N2 & N3).
  destruct (Z.eqb_spec (Z.of_nat (cols s) * Z.of_nat (rows s)) (-1)); [lia|].
  assert (Lb : length body = (length (concat (rdata s)) * 4)%nat) by (unfold body; rewrite int_tobytes_length, map_length; reflexivity).
  rewrite (concat_length_grid (cols s) (rdata s) (gs_rect s G)) in Lb. fold (rows s) in Lb.
  rewrite <- (app_nil_r body) at 1. rewrite fread_z_at by (rewrite Lb; lia). cbn [rbind].
  unfold body. rewrite int_array_tobytes; [|lia|].
  2:{ apply Forall_forall. intros k Hk. apply in_map_iff in Hk as (x & <- & Hx). apply Hq. exact Hx. }
  cbn [rbind]. unfold reshape_z. destruct (Z.ltb_spec (Z.of_nat (rows s)) 0); [lia|].
  destruct (Z.ltb_spec (Z.of_nat (cols s)) 0); [lia|]. cbn [orb]. rewrite !Nat2Z.id, concat_map_map.
  replace (rows s) with (length (map (map q) (rdata s))) by (rewrite map_length; reflexivity).
  rewrite reshape_concat.
  2:{ apply Forall_forall. intros x Hx. apply in_map_iff in Hx as (y & <- & Hy). rewrite map_length.
      pose proof (gs_rect s G) as R. rewrite Forall_forall in R. apply R. exact Hy. }
  cbn [rbind]. rewrite hr_nobj. cbn [rbind]. change (1 <? 1) with false. cbv iota. rewrite hr_type. cbn [rbind].
  rewrite hr_no, hr_np. cbn [rbind]. change ((2 =? 2) || _ || _) with true. cbv iota.
  unfold get_surface. rewrite hr_nm, hr_min, hr_spz, hr_uz. cbn [rbind]. rewrite (um_factor lower L). cbn [rbind].
  rewrite hr_ux. cbn [rbind]. rewrite (um_factor lower L). cbn [rbind].
  rewrite hr_spx, hr_uy. cbn [rbind]. rewrite (um_factor lower L). cbn [rbind].
  rewrite hr_spy, hr_ofz. cbn [rbind]. f_equal. f_equal.
  rewrite map_map. apply map_ext. intros row. rewrite map_map. apply map_ext. intros x. unfold height_of.
  destruct (Z.b2z (has_missing s) =? 1); reflexivity.
Qed.
End Write.

(** *** C45 *)
Definition height_error (lo hi : R) : R :=
  (bpow radix2 (-23) * Rmax (Rabs lo) (Rabs hi) + 2 * ((hi - lo) / 4294967292))%R.
Definition kept (lo hi : R) (x x' : f64) : Prop :=
  if isnan x then isnan x' = true else fin64 x' /\ (Rabs (R64 x' - R64 x) <= height_error lo hi)%R.

Lemma measured_in s x : In x (concat (rdata s)) -> isnan x = false -> In x (measured s).
Proof. intros H1 H2. unfold measured. apply filter_In. rewrite H2. auto. Qed.
Lemma in_measured s x : In x (measured s) -> In x (concat (rdata s)) /\ isnan x = false.
Proof. unfold measured. intros H. apply filter_In in H as [H1 H2]. split; auto. destruct (isnan x); auto; discriminate. Qed.
Lemma missing_spec s : has_missing s = true <-> exists x, In x (concat (rdata s)) /\ isnan x = true.
Proof.
  unfold has_missing. rewrite existsb_exists. split.
  - intros (row & Hr & H). apply existsb_exists in H as (x & Hx & Hn). exists x. split; auto. apply in_concat. eauto.
  - intros (x & Hx & Hn). apply in_concat in Hx as (row & Hr & Hx). exists row. split; auto. apply existsb_exists. eauto.
Qed.
Section Extremes.
Context (s : raw) (G : good_surface s) (lo hi : f64) (Hlo : In lo (measured s)) (Hhi : In hi (measured s))
        (Hr : forall y, In y (measured s) -> (R64 lo <= R64 y <= R64 hi)%R).
Lemma measured_small y : In y (measured s) -> small y.
Proof. intros H. apply in_measured in H as [H1 H2]. destruct (gs_heights s G y H1); [congruence|auto]. Qed.
Lemma measured_fin : Forall fin64 (measured s).
Proof. apply Forall_forall. intros y Hy. apply measured_small, Hy. Qed.
Lemma measured_ne : measured s <> [].
Proof. destruct (measured s); [destruct Hlo|discriminate]. Qed.
Lemma nanmin_lo : small (nanmin s) /\ R64 (nanmin s) = R64 lo.
Proof.
  destruct (nanmin_spec s measured_fin measured_ne) as [A B]. split; [apply measured_small, A|].
  apply Rle_antisym; [apply B, Hlo|apply Hr, A].
Qed.
Lemma nanmax_hi : small (nanmax s) /\ R64 (nanmax s) = R64 hi.
Proof.
  destruct (nanmax_spec s measured_fin measured_ne) as [A B]. split; [apply measured_small, A|].
  apply Rle_antisym; [apply Hr, A|apply B, Hhi].
Qed.
End Extremes.

Lemma step_back x : singleable x -> R64 (fmul (f64_of_Z 1) (f32r x)) = rnd32 (R64 x).
Proof.
  intros [Hx B]. destruct (single_ok x 127 Hx) as (E1 & F1 & _); [lia|exact B|].
  destruct (f64_of_Z_ok 1) as [E2 F2]; [vm_compute; discriminate|].
  assert (B' : (Rabs (R64 (f32r x)) <= bpow radix2 127)%R) by (unfold f32r; rewrite E1; apply rnd32_abs_le; [lia|exact B]).
  destruct (b64_mult_ok (f64_of_Z 1) (f32r x) F2 F1) as [E F].
  { rewrite E2, Rmult_1_l. eapply Rle_trans; [exact B'|apply bpow_big; lia]. }
  unfold fmul. rewrite E, E2, Rmult_1_l, rnd64_id. exact E1.
Qed.

Section Range.
Context (z : zlib) (lower : pystr -> pystr) (w r : encoding) (t : timestamp) (s : raw) (comment : pystr) (cb : bytes)
  (lo hi : f64) (L : lower_ok lower) (C : compatible w r) (Ht : good_time t) (G : good_surface s)
  (Hc : encode w comment = Ok cb) (Hcb : zlen cb < 2 ^ 15) (Hlo : In lo (measured s)) (Hhi : In hi (measured s))
  (Hr : forall y, In y (measured s) -> (R64 lo <= R64 y <= R64 hi)%R) (HD : (bpow radix2 (-90) <= R64 hi - R64 lo)%R).
Lemma range_facts : small (nanmin s) /\ small (nanmax s) /\ R64 (nanmin s) = R64 lo /\ R64 (nanmax s) = R64 hi /\
  (bpow radix2 (-90) <= R64 (nanmax s) - R64 (nanmin s))%R /\ singleable (spz s) /\ singleable (ofz s) /\
  (forall x, In x (concat (rdata s)) -> isnan x = false -> fin64 x /\ (R64 (nanmin s) <= R64 x <= R64 (nanmax s))%R) /\
  (forall x, In x (concat (rdata s)) -> int_fits true 4 (quantise (has_missing s) (nanmin s) (nanmax s) x)).
Proof.
  destruct (nanmin_lo s G lo hi Hlo Hhi Hr) as [Smn Emn]. destruct (nanmax_hi s G lo hi Hlo Hhi Hr) as [Smx Emx].
  assert (HD' : (bpow radix2 (-90) <= R64 (nanmax s) - R64 (nanmin s))%R) by (rewrite Emn, Emx; exact HD).
  assert (B101 : (bpow radix2 101 <= bpow radix2 127)%R) by (apply bpow_le; lia).
  assert (B102 : (bpow radix2 102 <= bpow radix2 127)%R) by (apply bpow_le; lia).
  assert (Hs : singleable (spz s)).
  { destruct (spz_ok (nanmin s) (nanmax s) Smn Smx HD') as (_ & F & B). split; [exact F|]. unfold spz. rewrite Rabs_pos_eq; lra. }
  assert (Ho : singleable (ofz s)).
  { destruct (ofz_ok (nanmin s) (nanmax s) Smn Smx HD') as (_ & F & B). split; [exact F|]. unfold ofz. lra. }
  assert (Hin : forall x, In x (concat (rdata s)) -> isnan x = false ->
     fin64 x /\ (R64 (nanmin s) <= R64 x <= R64 (nanmax s))%R).
  { intros x Hx Hn. destruct (gs_heights s G x Hx) as [|[F _]]; [congruence|]. split; auto. rewrite Emn, Emx.
    apply Hr, measured_in; auto. }
  repeat (split; [assumption|]).
  intros x Hx. destruct (isnan x) eqn:Hn.
    - assert (M : has_missing s = true) by (apply missing_spec; eauto). rewrite M, quantise_nan by exact Hn.
      cbn [int_fits]. unfold INT_DATA_MIN. change (8 * Z.of_nat 4 - 1) with 31. lia.
    - destruct (Hin x Hx Hn) as [F R]. pose proof (quantise_range (nanmin s) (nanmax s) Smn Smx HD' (has_missing s) x F R) as Q.
      cbn [int_fits]. unfold INT_DATA_MIN, INT_DATA_MAX in Q. change (8 * Z.of_nat 4 - 1) with 31. lia.
Qed.
End Range.

(** Saving and loading keeps the shape, the gaps and the steps (as single precision numbers), and every measured
    height up to the stated error.  [lo] and [hi] are the lowest and highest measured heights; the range is at
    least 2^-90 um. *)
Theorem C45_roundtrip_partial : forall z lower w r t s comment cb lo hi,
  lower_ok lower -> compatible w r -> good_time t -> good_surface s ->
  encode w comment = Ok cb -> zlen cb < 2 ^ 15 ->
  In lo (measured s) -> In hi (measured s) -> (forall y, In y (measured s) -> (R64 lo <= R64 y <= R64 hi)%R) ->
  (bpow radix2 (-90) <= R64 hi - R64 lo)%R ->
  exists b s', write_sur z w t s false comment = Ok b /\ read_sur z lower r (open_rb b) = Ok s' /\
    Forall2 (Forall2 (kept (R64 lo) (R64 hi))) (rdata s) (rdata s') /\
    R64 (rstep_x s') = rnd32 (R64 (rstep_x s)) /\ R64 (rstep_y s') = rnd32 (R64 (rstep_y s)).
Proof.
  intros z lower w r t s comment cb lo hi L C Ht G Hc Hcb Hlo Hhi Hr HD.
  destruct (range_facts s lo hi G Hlo Hhi Hr HD) as (Smn & Smx & Emn & Emx & HD' & Hs & Ho & Hin & Hq).
  destruct (write_read z lower L w r C t Ht s G Hs Ho comment cb Hc Hcb Hq) as (b & W1 & W2).
  exists b. eexists. split; [exact W1|]. split; [exact W2|]. cbn [rdata rstep_x rstep_y].
  split; [|split; apply step_back; apply G].
  assert (K : forall x, In x (concat (rdata s)) ->
     kept (R64 lo) (R64 hi) x (height_of s (quantise (has_missing s) (nanmin s) (nanmax s) x))).
  { intros x Hx. unfold kept, height_of. destruct (isnan x) eqn:Hn.
    - assert (M : has_missing s = true) by (apply missing_spec; eauto). rewrite M, quantise_nan by exact Hn.
      cbn [Z.b2z]. rewrite !Z.eqb_refl. cbn [andb]. apply nan_plus. reflexivity.
    - destruct (Hin x Hx Hn) as [F R].
      pose proof (quantise_range (nanmin s) (nanmax s) Smn Smx HD' (has_missing s) x F R) as Q.
      destruct (Z.eqb_spec (quantise (has_missing s) (nanmin s) (nanmax s) x) (INT_DATA_MIN - 2)); [lia|].
      rewrite andb_false_r.
      pose proof (dequant_ok (nanmin s) (nanmax s) Smn Smx HD' (has_missing s) x F R) as D.
      unfold height_error. rewrite <- Emn, <- Emx. exact D. }
  clear - K. revert K. generalize (rdata s). intros g.
  induction g as [|row g IH]; intros K; cbn [map]; constructor.
  - assert (Kr : forall x, In x row -> kept (R64 lo) (R64 hi) x (height_of s (quantise (has_missing s) (nanmin s) (nanmax s) x))).
    { intros x Hx. apply K. cbn. apply in_or_app. auto. }
    clear - Kr. induction row as [|x row IH]; cbn [map]; constructor; [apply Kr; left; auto|apply IH; intros; apply Kr; right; auto].
  - apply IH. intros x Hx. apply K. cbn. apply in_or_app. auto.
Qed.

(** Flat surfaces: every measured height has the same value [h]. *)
Definition flat_at (s : raw) (h : f64) : Prop :=
  In h (measured s) /\ forall y, In y (measured s) -> R64 y = R64 h.
Lemma zero_of (x : f64) : fin64 x -> R64 x = 0%R -> exists b, x = Binary.B754_zero 53 1024 b.
Proof.
  intros F E. destruct x as [b|b|b p H|b m e H]; try discriminate; [eauto|]. exfalso.
  unfold R64 in E. cbn in E. apply eq_0_F2R in E. destruct b; discriminate.
Qed.
Lemma nan_div00 b c : isnan (fdiv (Binary.B754_zero 53 1024 b) (Binary.B754_zero 53 1024 c)) = true.
Proof. reflexivity. Qed.
Section Flat.
Context (s : raw) (G : good_surface s) (h : f64) (F : flat_at s h).
Lemma flat_range : forall y, In y (measured s) -> (R64 h <= R64 y <= R64 h)%R.
Proof. intros y Hy. rewrite (proj2 F y Hy). lra. Qed.
Lemma flat_diff x y : small x -> small y -> R64 x = R64 y -> exists b, fsub x y = Binary.B754_zero 53 1024 b.
Proof.
  intros Sx Sy E. destruct (sub_small x y Sx Sy) as (E1 & F1 & _). apply zero_of; auto.
  rewrite E1, E, Rminus_diag_eq by reflexivity. apply rnd64_0.
Qed.
Lemma flat_min : small (nanmin s) /\ R64 (nanmin s) = R64 h.
Proof. apply (nanmin_lo s G h h (proj1 F) (proj1 F) flat_range). Qed.
Lemma flat_max : small (nanmax s) /\ R64 (nanmax s) = R64 h.
Proof. apply (nanmax_hi s G h h (proj1 F) (proj1 F) flat_range). Qed.
Lemma flat_d : exists b, fsub (nanmax s) (nanmin s) = Binary.B754_zero 53 1024 b.
Proof. destruct flat_min, flat_max. apply flat_diff; auto. congruence. Qed.
Lemma flat_zero_R b : R64 (Binary.B754_zero 53 1024 b) = 0%R. Proof. reflexivity. Qed.
Lemma flat_spz : fin64 (spz s) /\ R64 (spz s) = 0%R.
Proof.
  destruct flat_d as [b E]. unfold spz. rewrite E.
  destruct (f64_of_Z_ok (INT_DATA_MAX - INT_DATA_MIN)) as [EK FK]; [vm_compute; discriminate|].
  assert (NK : R64 (f64_of_Z (INT_DATA_MAX - INT_DATA_MIN)) <> 0%R) by (rewrite EK; apply IZR_neq; discriminate).
  destruct (b64_div_ok (Binary.B754_zero 53 1024 b) _ eq_refl NK) as [E1 F1].
  { rewrite flat_zero_R. unfold Rdiv. rewrite Rmult_0_l, Rabs_R0. apply bpow_ge_0. }
  unfold fdiv. split; [exact F1|]. rewrite E1, flat_zero_R. unfold Rdiv. rewrite Rmult_0_l. apply rnd64_0.
Qed.
Lemma flat_ofz : fin64 (ofz s) /\ R64 (ofz s) = R64 h.
Proof.
  destruct flat_d as [b E]. unfold ofz. rewrite E. destruct flat_min as [[Fm Bm] Em].
  destruct (f64_of_Z_ok 2) as [EK FK]; [vm_compute; discriminate|].
  assert (NK : R64 (f64_of_Z 2) <> 0%R) by (rewrite EK; apply IZR_neq; discriminate).
  destruct (b64_div_ok (Binary.B754_zero 53 1024 b) _ eq_refl NK) as [E1 F1].
  { rewrite flat_zero_R. unfold Rdiv. rewrite Rmult_0_l, Rabs_R0. apply bpow_ge_0. }
  rewrite flat_zero_R in E1. unfold Rdiv in E1. rewrite Rmult_0_l, rnd64_0 in E1.
  destruct (b64_plus_ok (nanmin s) _ Fm F1) as [E2 F2].
  { rewrite E1, Rplus_0_r. eapply Rle_trans; [exact Bm|apply bpow_big; lia]. }
  unfold fadd, fdiv. split; [exact F2|]. rewrite E2, E1, Rplus_0_r, Em. apply rnd64_id.
Qed.
Lemma flat_single : singleable (spz s) /\ singleable (ofz s).
Proof.
  destruct flat_spz as [F1 E1]. destruct flat_ofz as [F2 E2]. split; split; auto.
  - rewrite E1, Rabs_R0. apply bpow_ge_0.
  - rewrite E2. destruct flat_min as [[_ B] Em]. rewrite <- Em. eapply Rle_trans; [exact B|apply bpow_le; lia].
Qed.
Lemma flat_nan x : In x (concat (rdata s)) -> forall nm, quantise nm (nanmin s) (nanmax s) x =
  if nm then INT_DATA_MIN - 2 else - 2 ^ 31.
Proof.
  intros Hx nm. unfold quantise. cbv zeta.
  assert (N : isnan (fadd (fmul (fdiv (fsub x (nanmin s)) (fsub (nanmax s) (nanmin s))) (f64_of_Z (INT_DATA_MAX - INT_DATA_MIN))) (f64_of_Z INT_DATA_MIN)) = true).
  { destruct (gs_heights s G x Hx) as [Hn|Sx]; [apply nan_plus, nan_mult, nan_div, nan_minus, Hn|].
    destruct (isnan x) eqn:Hn; [apply nan_plus, nan_mult, nan_div, nan_minus, Hn|].
    apply nan_plus, nan_mult. destruct flat_d as [c ->]. destruct flat_min as [Sm Em].
    destruct (flat_diff x (nanmin s) Sx Sm) as [b ->]; [rewrite Em; apply (proj2 F), measured_in; auto|].
    apply nan_div00. }
  rewrite N, andb_true_r. destruct nm; [reflexivity|]. unfold to_int32.
  assert (Nf : forall y, isnan y = true -> Binary.is_finite 53 1024 y = false) by (intros y; destruct y; cbn; congruence).
  rewrite (Nf _ N). reflexivity.
Qed.
End Flat.

Lemma Forall2_map_r {A B} (P : A -> B -> Prop) (f : A -> B) l : (forall x, In x l -> P x (f x)) -> Forall2 P l (map f l).
Proof. induction l as [|x l IH]; intros H; cbn; constructor; [apply H; left; auto|apply IH; intros; apply H; right; auto]. Qed.

(** A flat surface without gaps comes back flat, at its height rounded to single precision. *)
Theorem C45_flat : forall z lower w r t s comment cb h,
  lower_ok lower -> compatible w r -> good_time t -> good_surface s ->
  encode w comment = Ok cb -> zlen cb < 2 ^ 15 ->
  flat_at s h -> has_missing s = false ->
  exists b s', write_sur z w t s false comment = Ok b /\ read_sur z lower r (open_rb b) = Ok s' /\
    Forall2 (Forall2 (fun _ x' => fin64 x' /\ R64 x' = rnd32 (R64 h))) (rdata s) (rdata s') /\
    R64 (rstep_x s') = rnd32 (R64 (rstep_x s)) /\ R64 (rstep_y s') = rnd32 (R64 (rstep_y s)).
Proof.
  intros z lower w r t s comment cb h L C Ht G Hc Hcb F M. destruct (flat_single s G h F) as [Hs Ho].
  destruct (write_read z lower L w r C t Ht s G Hs Ho comment cb Hc Hcb) as (b & W1 & W2).
  { intros x Hx. rewrite (flat_nan s G h F x Hx), M. cbn. lia. }
  exists b. eexists. split; [exact W1|]. split; [exact W2|]. cbn [rdata rstep_x rstep_y].
  split; [|split; apply step_back; apply G].
  apply Forall2_map_r. intros row Hrow. apply Forall2_map_r. intros x Hx.
  assert (Hx' : In x (concat (rdata s))) by (apply in_concat; eauto).
  rewrite (flat_nan s G h F x Hx'). unfold height_of. rewrite M. cbn [Z.b2z]. change (0 =? 1) with false. cbn [andb].
  destruct (flat_spz s G h F) as [F1 E1]. destruct (flat_ofz s G h F) as [F2 E2].
  destruct Hs as [_ Bs]. destruct Ho as [_ Bo].
  destruct (single_ok (spz s) 127 F1) as (E3 & F3 & _); [lia|exact Bs|].
  destruct (single_ok (ofz s) 127 F2) as (E4 & F4 & _); [lia|exact Bo|].
  rewrite E1, rnd32_0 in E3. rewrite E2 in E4.
  destruct (f64_of_Z_ok (- 2 ^ 31)) as [E5 F5]; [vm_compute; discriminate|].
  destruct (b64_mult_ok (f64_of_Z (- 2 ^ 31)) (f32r (spz s)) F5 F3) as [E6 F6].
  { unfold f32r. rewrite E3, Rmult_0_r, Rabs_R0. apply bpow_ge_0. }
  unfold f32r in E6 at 2. rewrite E3, Rmult_0_r, rnd64_0 in E6.
  destruct (mul_one (fmul (f64_of_Z (- 2 ^ 31)) (f32r (spz s))) F6) as [E7 F7].
  { unfold fmul. rewrite E6, Rabs_R0. apply bpow_ge_0. }
  change (R64 (fmul (f64_of_Z (- 2 ^ 31)) (f32r (spz s))) = 0%R) in E6. rewrite E6 in E7. change (pow10 0) with (f64_of_Z 1) in E7, F7.
  destruct (b64_plus_ok _ (f32r (ofz s)) F7 F4) as [E8 F8].
  { rewrite E7, Rplus_0_l. unfold f32r. rewrite E4. eapply Rle_trans; [apply rnd32_abs_le with (e := 127); [lia|rewrite <- E2; exact Bo]|apply bpow_big; lia]. }
  unfold fadd. split; [exact F8|]. rewrite E8, E7, Rplus_0_l, rnd64_id. exact E4.
Qed.

(** The claim fails for flat surfaces with gaps: every height is lost. *)
Theorem C45_flat_gaps_refuted : forall z lower w r t s comment cb h,
  lower_ok lower -> compatible w r -> good_time t -> good_surface s ->
  encode w comment = Ok cb -> zlen cb < 2 ^ 15 ->
  flat_at s h -> has_missing s = true ->
  exists b s', write_sur z w t s false comment = Ok b /\ read_sur z lower r (open_rb b) = Ok s' /\
    Forall2 (Forall2 (fun _ x' => isnan x' = true)) (rdata s) (rdata s').
Proof.
  intros z lower w r t s comment cb h L C Ht G Hc Hcb F M. destruct (flat_single s G h F) as [Hs Ho].
  destruct (write_read z lower L w r C t Ht s G Hs Ho comment cb Hc Hcb) as (b & W1 & W2).
  { intros x Hx. rewrite (flat_nan s G h F x Hx), M. cbn. unfold INT_DATA_MIN. lia. }
  exists b. eexists. split; [exact W1|]. split; [exact W2|]. cbn [rdata].
  apply Forall2_map_r. intros row Hrow. apply Forall2_map_r. intros x Hx.
  assert (Hx' : In x (concat (rdata s))) by (apply in_concat; eauto).
  rewrite (flat_nan s G h F x Hx'). unfold height_of. rewrite M. cbn [Z.b2z]. rewrite !Z.eqb_refl. cbn [andb].
  apply nan_plus. reflexivity.
Qed.

(** *** A concrete surface for the hypotheses, and the refutation of the one-step error *)
Lemma R64_bits k : R64 (b64_of_bits k) = Binary.FF2R radix2 (binary_float_of_bits_aux 52 11 k).
Proof. unfold R64, b64_of_bits, binary_float_of_bits. apply Binary.B2R_FF2B. Qed.
Lemma int_small n : Z.abs n <= 2 ^ 53 -> small (f64_of_Z n).
Proof.
  intros H. destruct (f64_of_Z_ok n H) as [E F]. split; [exact F|]. rewrite E, <- abs_IZR.
  apply Rle_trans with (IZR (2 ^ 53)); [apply IZR_le; exact H|]. rewrite (IZR_Zpower radix2) by lia. apply bpow_le. lia.
Qed.
Lemma int_single n : Z.abs n <= 2 ^ 53 -> singleable (f64_of_Z n).
Proof.
  intros H. destruct (int_small n H) as [F B]. split; [exact F|]. eapply Rle_trans; [exact B|apply bpow_le; lia].
Qed.
Definition sample (a b c d : f64) : raw :=
  {| rdata := [[a; b]; [c; d]]; rstep_x := f64_of_Z 1; rstep_y := f64_of_Z 2 |}.
Lemma sample_good a b c d : (forall x, In x [a; b; c; d] -> isnan x = true \/ small x) -> good_surface (sample a b c d).
Proof.
  intros H. constructor; cbn [rows cols rdata sample length concat app rstep_x rstep_y].
  - apply le_n_S, Nat.le_0_l.
  - apply le_n_S, Nat.le_0_l.
  - repeat constructor.
  - reflexivity.
  - exact H.
  - apply int_single. vm_compute. discriminate.
  - apply int_single. vm_compute. discriminate.
Qed.
Lemma isnan_int n : Z.abs n <= 2 ^ 53 -> isnan (f64_of_Z n) = false.
Proof. intros H. apply fin_not_nan, f64_of_Z_ok, H. Qed.
Definition noon : timestamp := {| t_second := 0; t_minute := 0; t_hour := 12; t_day := 1; t_month := 1; t_year := 2024; t_weekday := 0 |}.
Lemma noon_good : good_time noon.
Proof. unfold good_time, noon. cbn. repeat constructor; lia. Qed.

(** the hypotheses of C45_roundtrip_partial, met by a surface with a gap *)
Theorem C45_example : let s := sample (f64_of_Z 0) (f64_of_Z 5) nan64 (f64_of_Z (-3)) in
  good_time noon /\ good_surface s /\ has_missing s = true /\
  In (f64_of_Z (-3)) (measured s) /\ In (f64_of_Z 5) (measured s) /\
  (forall y, In y (measured s) -> (R64 (f64_of_Z (-3)) <= R64 y <= R64 (f64_of_Z 5))%R) /\
  (bpow radix2 (-90) <= R64 (f64_of_Z 5) - R64 (f64_of_Z (-3)))%R.
Proof.
  intros s.
  assert (Z0 : Z.abs 0 <= 2 ^ 53) by (vm_compute; discriminate). assert (Z5 : Z.abs 5 <= 2 ^ 53) by (vm_compute; discriminate).
  assert (Z3 : Z.abs (-3) <= 2 ^ 53) by (vm_compute; discriminate).
  assert (Em : measured s = [f64_of_Z 0; f64_of_Z 5; f64_of_Z (-3)]).
  { unfold measured, s, sample. cbn [rdata concat app List.filter].
    rewrite (isnan_int 0 Z0), (isnan_int 5 Z5), (isnan_int (-3) Z3). reflexivity. }
  destruct (f64_of_Z_ok 0 Z0) as [E0 _]. destruct (f64_of_Z_ok 5 Z5) as [E5 _]. destruct (f64_of_Z_ok (-3) Z3) as [E3 _].
  rewrite Em, E3, E5. split; [exact noon_good|]. split.
  { apply sample_good. intros x [<-|[<-|[<-|[<-|[]]]]]; try (right; apply int_small; assumption). left. reflexivity. }
  split. { apply missing_spec. exists nan64. split; [cbn; auto|reflexivity]. }
  split; [cbn; auto|]. split; [cbn; auto|]. split.
  - intros y [<-|[<-|[<-|[]]]]; rewrite ?E0, ?E5, ?E3; lra.
  - apply Rle_trans with (bpow radix2 0); [apply bpow_le; lia|cbn; lra].
Qed.

(** "every height within one quantisation step" is false: offset and spacing are stored in single precision.  A
    surface of heights 2^24 and 2^24 + 1 um comes back half a micrometre - half its range - too low. *)
Theorem C45_one_step_refuted : forall z lower w r t comment cb,
  lower_ok lower -> compatible w r -> good_time t -> encode w comment = Ok cb -> zlen cb < 2 ^ 15 ->
  exists s b s' x x', good_surface s /\ write_sur z w t s false comment = Ok b /\
    read_sur z lower r (open_rb b) = Ok s' /\
    rdata s = [[x; x]; [x'; x']] /\ R64 x = 16777216%R /\ R64 x' = 16777217%R /\
    exists y y', rdata s' = [[y; y]; [y'; y']] /\ R64 y = (16777216 - / 2)%R /\ R64 y' = (16777217 - / 2)%R.
Proof.
  intros z lower w r t comment cb L C Ht Hc Hcb.
  set (x := f64_of_Z 16777216). set (x' := f64_of_Z 16777217).
  assert (Zx : Z.abs 16777216 <= 2 ^ 53) by (vm_compute; discriminate). assert (Zx' : Z.abs 16777217 <= 2 ^ 53) by (vm_compute; discriminate).
  destruct (f64_of_Z_ok _ Zx) as [Ex Fx]. destruct (f64_of_Z_ok _ Zx') as [Ex' Fx'].
  pose (s := sample x x x' x').
  assert (G : good_surface s).
  { apply sample_good. intros y Hy. right. destruct Hy as [<-|[<-|[<-|[<-|[]]]]]; apply int_small; assumption. }
  assert (Z1 : isnan x = false) by (apply isnan_int, Zx). assert (Z1' : isnan x' = false) by (apply isnan_int, Zx').
  assert (Em : measured s = [x; x; x'; x']).
  { unfold measured, s, sample. cbn [rdata concat app List.filter]. rewrite Z1, Z1'. reflexivity. }
  destruct (range_facts s x x' G) as (Smn & Smx & Emn & Emx & HD' & Hs & Ho & Hin & Hq).
  { rewrite Em. left. reflexivity. }
  { rewrite Em. right. right. left. reflexivity. }
  { rewrite Em. intros y [<-|[<-|[<-|[<-|[]]]]]; unfold x, x'; rewrite ?Ex, ?Ex'; lra. }
  { unfold x, x'. rewrite Ex, Ex'. apply Rle_trans with (bpow radix2 0); [apply bpow_le; lia|cbn; lra]. }
  destruct (write_read z lower L w r C t Ht s G Hs Ho comment cb Hc Hcb Hq) as (b & W1 & W2).
  exists s, b. eexists. exists x, x'. split; [exact G|]. split; [exact W1|]. split; [exact W2|].
  split; [reflexivity|]. split; [exact Ex|]. split; [exact Ex'|].
  eexists. eexists. cbn [rdata]. split; [reflexivity|].
  assert (B1 : bits_of_b64 (height_of s (quantise (has_missing s) (nanmin s) (nanmax s) x)) = 4715268809588473856)
    by (vm_compute; reflexivity).
  assert (B2 : bits_of_b64 (height_of s (quantise (has_missing s) (nanmin s) (nanmax s) x')) = 4715268809991127040)
    by (vm_compute; reflexivity).
  split.
  - rewrite <- (b64_bits_id (height_of _ _)), B1, R64_bits. vm_compute (binary_float_of_bits_aux _ _ _).
    unfold Binary.FF2R, F2R. cbn. lra.
  - rewrite <- (b64_bits_id (height_of _ _)), B2, R64_bits. vm_compute (binary_float_of_bits_aux _ _ _).
    unfold Binary.FF2R, F2R. cbn. lra.
Qed.

(** *** C46: a compressed file is never readable.  The reader checks the size of the compressed block against the
    header field, which the writer always sets to 0. *)
Theorem C46_refuted : forall z lower w r t s comment cb lo hi,
  lower_ok lower -> compatible w r -> good_time t -> good_surface s ->
  encode w comment = Ok cb -> zlen cb < 2 ^ 15 ->
  In lo (measured s) -> In hi (measured s) -> (forall y, In y (measured s) -> (R64 lo <= R64 y <= R64 hi)%R) ->
  (bpow radix2 (-90) <= R64 hi - R64 lo)%R ->
  (forall b, zlen b < 2 ^ 32 -> zlen (compress z b) < 2 ^ 32) ->
  4 * (Z.of_nat (cols s) * Z.of_nat (rows s)) < 2 ^ 32 ->
  exists b, write_sur z w t s true comment = Ok b /\ read_sur z lower r (open_rb b) = Err CorruptedFileError.
Proof.
  intros z lower w r t s comment cb lo hi L C Ht G Hc Hcb Hlo Hhi Hr HD Hz Hsz.
  destruct (range_facts s lo hi G Hlo Hhi Hr HD) as (Smn & Smx & Emn & Emx & HD' & Hs & Ho & Hin & Hq).
  destruct (header_roundtrip w r C t Ht s G true (zlen cb)) as (head & d & W1 & W2 & W3 & W4); auto.
  { unfold zlen in *. lia. }
  set (q := quantise (has_missing s) (nanmin s) (nanmax s)).
  set (body := int_tobytes 4 (map q (concat (rdata s)))).
  assert (Lb : zlen body = 4 * (Z.of_nat (cols s) * Z.of_nat (rows s))).
  { unfold zlen, body. rewrite int_tobytes_length, map_length, (concat_length_grid (cols s) (rdata s) (gs_rect s G)).
    unfold rows. lia. }
  set (packed := compress z body).
  assert (Lp : zlen packed < 2 ^ 32) by (apply Hz; lia).
  destruct (pack_int false 4 1) as (b1 & P1 & U1 & N1); [lia|cbn; lia|].
  destruct (pack_int false 4 (zlen body)) as (b2 & P2 & U2 & N2); [lia|cbn; unfold zlen in *; lia|].
  destruct (pack_int false 4 (zlen packed)) as (b3 & P3 & U3 & N3); [lia|cbn; unfold zlen in *; lia|].
  exists (head ++ cb ++ b1 ++ b2 ++ b3 ++ packed). split.
  { unfold write_sur. rewrite (nonempty s G), Hc. cbn [rbind]. rewrite W1. cbn [rbind]. fold q. fold body. fold packed.
    unfold fmt_I. rewrite P1. cbn [rbind]. rewrite P2. cbn [rbind]. rewrite P3. reflexivity. }
  destruct W3 as [hr_code hr_version hr_type hr_acq hr_comment hr_private hr_bits hr_lines hr_points hr_total hr_comp hr_nobj hr_nm hr_min hr_spz hr_ofz hr_spx hr_spy hr_ux hr_uy hr_uz hr_no hr_np].
  cbv iota in hr_code.
  unfold read_sur, read_sur_object, read_sur_header. rewrite W4. cbn [rbind].
  rewrite hr_code, hr_version. cbn [rbind].
  change (zs_eqb (str "DSCOMPRESSED") (str "DIGITAL SURF")) with false.
  change (zs_eqb (str "DSCOMPRESSED") (str "DSCOMPRESSED")) with true. cbn [negb orb Z.eqb Pos.eqb].
  rewrite hr_type. cbn [rbind]. change (negb ((1 <=? 2) && (2 <=? 19))) with false. cbv iota.
  rewrite hr_acq. cbn [rbind]. change (negb ((0 <=? 0) && (0 <=? 10))) with false. cbv iota.
  cbn [pos at_ open_rb]. rewrite W2. change (negb (Nat.eqb (512 - 0) 512)) with false. cbv iota.
  rewrite hr_comment. cbn [rbind]. rewrite (fread_z_at (zlen cb) head cb) by reflexivity. cbn [rbind].
  rewrite hr_private. cbn [rbind].
  change (b1 ++ b2 ++ b3 ++ packed) with ([] ++ b1 ++ b2 ++ b3 ++ packed).
  rewrite (fread_z_at 0 (head ++ cb) []) by reflexivity. cbn [rbind].
  rewrite hr_bits. cbn [rbind Z.eqb Pos.eqb]. rewrite hr_lines, hr_points. cbn [rbind]. rewrite hr_code. cbn [rbind].
  change (zs_eqb (str "DSCOMPRESSED") (str "DIGITAL SURF")) with false. cbv iota.
  rewrite hr_comp. cbn [rbind]. unfold read_compressed.
  assert (I1 : length b1 = 4%nat) by assumption. assert (I2 : length b2 = 4%nat) by assumption. assert (I3 : length b3 = 4%nat) by assumption.
  pose proof (fread_at ((head ++ cb) ++ []) b1 (b2 ++ b3 ++ packed)) as R1. rewrite I1 in R1. rewrite R1.
  unfold fmt_I. assert (V1 : unpack (FInt false 4) b1 = Ok (VInt 1)) by assumption. rewrite V1. cbn [rbind].
  change (Z.to_nat 1) with 1%nat. cbn [read_directories].
  pose proof (fread_at (((head ++ cb) ++ []) ++ b1) (b2 ++ b3) packed) as R2.
  rewrite <- (app_assoc b2 b3 packed), app_length, I2, I3 in R2. change (4 + 4)%nat with 8%nat in R2. rewrite R2.
  replace (firstn 4 (b2 ++ b3)) with b2 by (rewrite firstn_app, I2, Nat.sub_diag, firstn_O, app_nil_r, <- I2, firstn_all; reflexivity).
  replace (skipn 4 (b2 ++ b3)) with b3 by (rewrite skipn_app, I2, Nat.sub_diag, skipn_O, <- I2, skipn_all; reflexivity).
  unfold fmt_I. assert (V2 : unpack (FInt false 4) b2 = Ok (VInt (zlen body))) by assumption. rewrite V2. cbn [rbind].
  assert (V3 : unpack (FInt false 4) b3 = Ok (VInt (zlen packed))) by assumption. rewrite V3. cbn [rbind rmap].
  cbn [fold_left snd]. destruct (Z.eqb_spec (4 + (8 + zlen packed)) 0) as [E0|E0]; [unfold zlen in E0; lia|]. reflexivity.
Qed.

(** *** C51 for .sur: no proper prefix of a written file can be loaded. *)
Lemma read_sur_data z lower r h s' : read_sur z lower r h = Ok s' ->
  exists d h1 data h2, read_layout r sur_layout h = Ok (d, h1) /\ read_sur_object z r h = Ok (d, data, h2) /\ get_surface lower d data = Ok s'.
Proof.
  intros H. unfold read_sur in H. apply rbind_ok in H as ([[d data] h2] & H1 & H).
  assert (HL : exists h1, read_layout r sur_layout h = Ok (d, h1)).
  { pose proof H1 as H1'. unfold read_sur_object in H1'. apply rbind_ok in H1' as ([d0 h0] & A & H1').
    assert (Ed : d0 = d).
    { repeat (apply rbind_ok in H1' as (? & _ & H1'); try match goal with x : bytes * fh |- _ => destruct x end). congruence. }
    subst d0. unfold read_sur_header in A. apply rbind_ok in A as ([d1 h1] & A1 & A).
    assert (Ed : d1 = d).
    { apply rbind_ok in A as (? & _ & A). apply rbind_ok in A as (? & _ & A). destruct (_ || _); [discriminate|].
      apply rbind_ok in A as (? & _ & A). destruct (negb _); [discriminate|]. apply rbind_ok in A as (? & _ & A).
      destruct (negb _); [discriminate|]. destruct (negb _); [discriminate|].
      apply rbind_ok in A as (? & _ & A). apply rbind_ok in A as ([? ?] & _ & A). apply rbind_ok in A as (? & _ & A).
      apply rbind_ok in A as ([? ?] & _ & A). congruence. }
    subst d1. eauto. }
  destruct HL as [h1 HL]. exists d, h1, data, h2. split; [exact HL|]. split; [exact H1|].
  apply rbind_ok in H as (n & _ & H). destruct (1 <? n); [discriminate|].
  apply rbind_ok in H as (st & _ & H). apply rbind_ok in H as (no & _ & H). apply rbind_ok in H as (np & _ & H).
  destruct (_ || _); [exact H|discriminate].
Qed.
Lemma fread_z_any (n : Z) pre rest : 0 <= n ->
  fread_z n (at_ pre rest) = Ok (firstn (Z.to_nat n) rest, at_ (pre ++ firstn (Z.to_nat n) rest) (skipn (Z.to_nat n) rest)).
Proof.
  intros Hn. unfold fread_z. destruct (Z.eqb_spec n (-1)); [lia|]. destruct (Z.ltb_spec n 0); [lia|].
  unfold fread, at_. cbn [contents pos]. rewrite skipn_app, skipn_all, Nat.sub_diag. cbn [app skipn].
  rewrite app_length, <- app_assoc, firstn_skipn. reflexivity.
Qed.
Lemma sur_layout_split : exists l, sur_layout = l ++ [Entry "unit_step_t" (Fixed (FStr 13))] /\ Forall fixed_entry l /\ lsize l = 499%nat.
Proof.
  exists (removelast sur_layout). split; [reflexivity|]. split; [|vm_compute; reflexivity].
  unfold sur_layout, E. cbn [removelast]. repeat constructor.
Qed.

Theorem C51_sur_truncated : forall z lower w r t s comment cb lo hi b k,
  lower_ok lower -> compatible w r -> good_time t -> good_surface s ->
  encode w comment = Ok cb -> zlen cb < 2 ^ 15 ->
  In lo (measured s) -> In hi (measured s) -> (forall y, In y (measured s) -> (R64 lo <= R64 y <= R64 hi)%R) ->
  (bpow radix2 (-90) <= R64 hi - R64 lo)%R ->
  write_sur z w t s false comment = Ok b -> (k < length b)%nat ->
  exists e, read_sur z lower r (open_rb (firstn k b)) = Err e.
Proof.
  intros z lower w r t s comment cb lo hi b k L C Ht G Hc Hcb Hlo Hhi Hr HD HW Hk.
  destruct (read_sur z lower r (open_rb (firstn k b))) as [s'|e] eqn:HR; [exfalso|eauto].
  destruct (range_facts s lo hi G Hlo Hhi Hr HD) as (Smn & Smx & Emn & Emx & HD' & Hs & Ho & Hin & Hq).
  destruct (header_roundtrip w r C t Ht s G false (zlen cb)) as (head & d & W1 & W2 & W3 & W4); auto.
  { unfold zlen in *. lia. }
  set (body := int_tobytes 4 (map (quantise (has_missing s) (nanmin s) (nanmax s)) (concat (rdata s)))).
  assert (Eb : b = head ++ cb ++ body).
  { unfold write_sur in HW. rewrite (nonempty s G), Hc in HW. cbn [rbind] in HW. rewrite W1 in HW. cbn [rbind] in HW. injection HW as HW. rewrite <- HW. reflexivity. }
  clear HW. assert (Lb : length body = (rows s * cols s * 4)%nat).
  { unfold body. rewrite int_tobytes_length, map_length, (concat_length_grid (cols s) (rdata s) (gs_rect s G)). reflexivity. }
  destruct (read_sur_data z lower r _ s' HR) as (d0 & h1 & data & h2 & A1 & A2 & _).
  destruct (Nat.lt_ge_cases k 512) as [Hs'|Hs'].
  { destruct sur_layout_split as (l & El & Fl & Sl). unfold read_layout in A1. rewrite El in A1.
    destruct (C44_truncated_header r l "unit_step_t" (FStr 13) [] d0 _ h1 Fl ltac:(cbn; lia) A1) as (_ & P1 & P2).
    cbn [open_rb contents pos calcsize] in P1, P2. rewrite Sl in P1. rewrite firstn_length in P2. lia. }
  assert (Ep : firstn k b = head ++ firstn (k - 512) (cb ++ body)).
  { rewrite Eb, firstn_app, W2. rewrite firstn_all2 by lia. reflexivity. }
  rewrite Ep in A1, A2. rewrite W4 in A1. injection A1 as <- <-.
  set (rest := firstn (k - 512) (cb ++ body)) in *.
  assert (Lr : (length rest < length cb + length body)%nat).
  { unfold rest. rewrite firstn_length, app_length. rewrite Eb, !app_length in Hk. lia. }
  destruct W3 as [hr_code hr_version hr_type hr_acq hr_comment hr_private hr_bits hr_lines hr_points hr_total hr_comp hr_nobj hr_nm hr_min hr_spz hr_ofz hr_spx hr_spy hr_ux hr_uy hr_uz hr_no hr_np].
  cbv iota in hr_code.
  unfold read_sur_object, read_sur_header in A2. rewrite W4 in A2. cbn [rbind] in A2.
  rewrite hr_code, hr_version in A2. cbn [rbind] in A2.
  change (zs_eqb (str "DIGITAL SURF") (str "DIGITAL SURF")) with true in A2. cbn [negb orb Z.eqb Pos.eqb] in A2.
  rewrite hr_type in A2. cbn [rbind] in A2. change (negb ((1 <=? 2) && (2 <=? 19))) with false in A2. cbv iota in A2.
  rewrite hr_acq in A2. cbn [rbind] in A2. change (negb ((0 <=? 0) && (0 <=? 10))) with false in A2. cbv iota in A2.
  cbn [pos at_ open_rb] in A2. rewrite W2 in A2. change (negb (Nat.eqb (512 - 0) 512)) with false in A2. cbv iota in A2.
  rewrite hr_comment in A2. cbn [rbind] in A2. rewrite fread_z_any in A2 by (unfold zlen; lia). cbn [rbind] in A2.
  rewrite hr_private in A2. cbn [rbind] in A2. rewrite fread_z_any in A2 by lia. cbn [rbind Z.to_nat firstn skipn] in A2.
  rewrite hr_bits in A2. cbn [rbind Z.eqb Pos.eqb] in A2. rewrite hr_lines, hr_points in A2. cbn [rbind] in A2. rewrite hr_code in A2. cbn [rbind] in A2.
  change (zs_eqb (str "DIGITAL SURF") (str "DIGITAL SURF")) with true in A2. cbv iota in A2. rewrite hr_total in A2. cbn [rbind] in A2.
  pose proof (counts s G) as (N1 & N2 & N3).
  destruct (Z.eqb_spec (Z.of_nat (cols s) * Z.of_nat (rows s)) (-1)); [lia|].
  rewrite fread_z_any in A2 by lia. cbn [rbind] in A2.
  apply rbind_ok in A2 as (ints & A3 & A2). apply rbind_ok in A2 as (data' & A4 & _).
  unfold int_array in A3. apply rmap_ok in A3 as (ch & A3 & ->). apply frombuffer_length in A3; [|lia].
  unfold reshape_z in A4. destruct (_ || _); [discriminate|]. unfold reshape in A4. rewrite !Nat2Z.id, map_length in A4.
  destruct (Nat.eqb_spec (length ch) (rows s * cols s)) as [El|]; [|discriminate].
  rewrite firstn_length, skipn_length in A3. unfold zlen in A3. rewrite Nat2Z.id in A3.
  pose proof (gs_rows s G). pose proof (gs_cols s G). assert (0 < rows s * cols s)%nat by nia. lia.
Qed.
