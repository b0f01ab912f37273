(** C49 and C51 for the TrueMap format (.tmd). *)
From Coq Require Import String Ascii ZArith Lia Bool Reals Lra.
From Coq Require Import List.
From Flocq Require Import Core.Core.
From Flocq Require Import IEEE754.BinarySingleNaN IEEE754.Binary IEEE754.Bits.
From Verif Require Import Base ModelBytes SpecBytes ProofBytes PropsLayout ModelUnits ProofFloat ModelSur ProofSur ProofCodec ProofSurReal ModelFormats.
Import ListNotations.
Local Open Scope Z_scope.

(** A rectangular array with at least one point. *)
Record shaped (s : raw) : Prop := {
  sh_rows : (0 < rows s)%nat;
  sh_cols : (0 < cols s)%nat;
  sh_rect : Forall (fun r => length r = cols s) (rdata s) }.
Definition ascii (s : pystr) : Prop := Forall (fun c => 0 <= c < 128) s.

Lemma f32_array_tobytes l : f32_array (f32_tobytes l) = Ok l.
Proof.
  unfold f32_array, f32_tobytes. rewrite frombuffer_concat; [|lia|].
  - cbn [rmap]. f_equal. rewrite map_map. rewrite <- (map_id l) at 2. apply map_ext. intros x.
    rewrite f32_bits. apply b32_bits_id.
  - apply Forall_forall. intros b Hb. apply in_map_iff in Hb as (x & <- & _). apply le_length.
Qed.
Lemma f64_array_tobytes l : f64_array (f64_tobytes l) = Ok l.
Proof.
  unfold f64_array, f64_tobytes. rewrite frombuffer_concat; [|lia|].
  - cbn [rmap]. f_equal. rewrite map_map. rewrite <- (map_id l) at 2. apply map_ext. intros x.
    rewrite f64_bits. apply b64_bits_id.
  - apply Forall_forall. intros b Hb. apply in_map_iff in Hb as (x & <- & _). apply le_length.
Qed.
Lemma f32_tobytes_length l : length (f32_tobytes l) = (length l * 4)%nat.
Proof.
  unfold f32_tobytes. rewrite (concat_length_const 4), map_length; auto.
  apply Forall_forall. intros b Hb. apply in_map_iff in Hb as (x & <- & _). apply le_length.
Qed.
Lemma f64_tobytes_length l : length (f64_tobytes l) = (length l * 8)%nat.
Proof.
  unfold f64_tobytes. rewrite (concat_length_const 8), map_length; auto.
  apply Forall_forall. intros b Hb. apply in_map_iff in Hb as (x & <- & _). apply le_length.
Qed.
Lemma fread_all_at pre b : fread_all (at_ pre b) = (b, at_ (pre ++ b) []).
Proof.
  unfold fread_all, at_. cbn [contents pos]. rewrite skipn_app, skipn_all, Nat.sub_diag. cbn [app skipn].
  rewrite app_nil_r, app_length. reflexivity.
Qed.
Lemma utf8_ascii s : ascii s -> utf8_encode s = Ok s.
Proof.
  induction 1 as [|c s Hc Hs IH]; [reflexivity|]. cbn [utf8_encode]. unfold utf8_char.
  destruct (Z.ltb_spec c 0); [lia|]. destruct (Z.ltb_spec 1114111 c); [lia|]. unfold is_surrogate.
  destruct (Z.leb_spec 55296 c); [lia|]. destruct (Z.ltb_spec c 128); [|lia]. cbn [orb andb rbind].
  rewrite IH. reflexivity.
Qed.
Lemma Forall2_map_both {A B C} (P : A -> C -> Prop) (f : A -> B) (g : B -> C) l :
  (forall x, In x l -> P x (g (f x))) -> Forall2 P l (map g (map f l)).
Proof. induction l as [|x l IH]; intros H; cbn; constructor; [apply H; left; auto|apply IH; intros; apply H; right; auto]. Qed.

(** a height stored as a single *)
Definition as_single (x x' : f64) : Prop :=
  if isnan x then isnan x' = true else singleable x -> fin64 x' /\ R64 x' = rnd32 (R64 x).
Lemma single_kept x : as_single x (f64_of_f32 (f32_of_f64 x)).
Proof.
  unfold as_single. destruct (isnan x) eqn:Hn.
  - destruct x; try discriminate. reflexivity.
  - intros [Hf B]. destruct (single_ok x 127 Hf) as (E1 & F1 & _); [lia|exact B|]. auto.
Qed.

(** ** The header *)
Definition len_of (n : nat) (x : f64) : f64 := fmul (f64_of_Z (Z.of_nat n)) x.
Lemma zero_field w r : reads_back w r FF32 (VInt 0) (VFloat (f64_of_f32 (f32_of_f64 (f64_of_Z 0)))).
Proof. apply rb_f32_int; vm_compute; reflexivity. Qed.
Lemma count_field n : Z.of_nat n < 2 ^ 32 -> reads_back Utf8 Utf8 fmt_I (VInt (Z.of_nat n)) (VInt (Z.of_nat n)).
Proof. intros H. apply rb_int; [lia|]. cbn [int_fits]. change (8 * Z.of_nat 4) with 32. lia. Qed.

Section Header.
Context (s : raw) (comment : pystr) (Ha : ascii comment) (Hl : (length comment <= COMMENT_LEN)%nat)
  (Nx : Z.of_nat (cols s) < 2 ^ 32) (Ny : Z.of_nat (rows s) < 2 ^ 32)
  (Lx : singleable (len_of (cols s) (rstep_x s))) (Ly : singleable (len_of (rows s) (rstep_y s))).
Lemma tmd_comment : reads_back Utf8 Utf8 (FStr 24)
  (VStr (comment ++ repeat 32 (COMMENT_LEN - length comment) ++ line_termination))
  (VStr (comment ++ repeat 32 (COMMENT_LEN - length comment) ++ [13; 10])).
Proof.
  replace (comment ++ repeat 32 (COMMENT_LEN - length comment) ++ line_termination)
    with ((comment ++ repeat 32 (COMMENT_LEN - length comment) ++ [13; 10]) ++ [0])
    by (rewrite <- !app_assoc; reflexivity).
  eapply rb_str_trailing.
  - left. auto.
  - apply utf8_ascii. apply Forall_app. split; [|repeat constructor; lia]. apply Forall_app. split; [exact Ha|].
    apply Forall_app. split; [|repeat constructor; lia]. apply Forall_repeat. lia.
  - rewrite !app_length, repeat_length. cbn [length]. unfold COMMENT_LEN in *. lia.
  - constructor; [right; reflexivity|constructor].
  - intros s' c E. replace (comment ++ repeat 32 (COMMENT_LEN - length comment) ++ [13; 10])
      with ((comment ++ repeat 32 (COMMENT_LEN - length comment) ++ [13]) ++ [10]) in E by (rewrite <- !app_assoc; reflexivity).
    apply app_inj_tail in E as [_ <-]. lia.
Qed.
Lemma tmd_magic_field : reads_back Utf8 Utf8 (FStr 32) (VStr (tmd_magic ++ line_termination)) (VStr (tmd_magic ++ [13; 10])).
Proof.
  replace (tmd_magic ++ line_termination) with ((tmd_magic ++ [13; 10]) ++ [0]) by reflexivity.
  eapply rb_str_trailing; [left; auto|vm_compute; reflexivity|cbn; lia|constructor; [right; reflexivity|constructor]|].
  apply last_ok. vm_compute. reflexivity.
Qed.
Lemma tmd_header_roundtrip : exists head d, write_layout Utf8 (tmd_header tmd_magic s comment) tmd_layout = Ok head /\
  length head = 80%nat /\ firstn 29 head = tmd_magic /\
  hint d "width" = Ok (Z.of_nat (cols s)) /\ hint d "height" = Ok (Z.of_nat (rows s)) /\
  hflt d "length_x" = Ok (f64_of_f32 (f32_of_f64 (len_of (cols s) (rstep_x s)))) /\
  hflt d "length_y" = Ok (f64_of_f32 (f32_of_f64 (len_of (rows s) (rstep_y s)))) /\
  forall rest, read_layout Utf8 tmd_layout (open_rb (head ++ rest)) = Ok (d, at_ head rest).
Proof.
  assert (F : forall name f, In (Entry name (Fixed f)) tmd_layout ->
     exists v v', dget (tmd_header tmd_magic s comment) name = Some v /\ reads_back Utf8 Utf8 f v v').
  { intros name f Hin. unfold tmd_layout, E in Hin.
    repeat (destruct Hin as [Hin|Hin]; [injection Hin as <- <-; eexists; eexists; split; [reflexivity|];
      first [exact tmd_magic_field|exact tmd_comment|apply count_field; assumption|exact (zero_field _ _)
            |exact (rb_single _ _ _ Lx)|exact (rb_single _ _ _ Ly)]|]). destruct Hin. }
  destruct (C44_roundtrip Utf8 Utf8 (tmd_header tmd_magic s comment) tmd_layout) as (b & d & B1 & B2 & B3 & B4).
  { intros e He. unfold tmd_layout, E in He. repeat (destruct He as [<-|He]; [exact I|]). destruct He. }
  { apply forallb_names_nodup. vm_compute. reflexivity. }
  { exact F. }
  exists b, d. split; [exact B1|]. split; [exact B2|]. split.
  { cbn [write_layout tmd_layout] in B1. apply rbind_ok in B1 as (b1 & W1 & B1). apply rmap_ok in B1 as (b' & _ & ->).
    assert (E1 : write_entry Utf8 (tmd_header tmd_magic s comment) (E "header" (FStr 32)) = Ok (tmd_magic ++ line_termination))
      by (vm_compute; reflexivity).
    rewrite E1 in W1. injection W1 as <-. vm_compute. reflexivity. }
  split. { apply hint_ok. eapply B4; [|reflexivity|apply count_field; exact Nx]. unfold tmd_layout, E. do 2 right. left. reflexivity. }
  split. { apply hint_ok. eapply B4; [|reflexivity|apply count_field; exact Ny]. unfold tmd_layout, E. do 3 right. left. reflexivity. }
  split. { apply hflt_ok. eapply B4; [|reflexivity|exact (rb_single _ _ _ Lx)]. unfold tmd_layout, E. do 4 right. left. reflexivity. }
  split. { apply hflt_ok. eapply B4; [|reflexivity|exact (rb_single _ _ _ Ly)]. unfold tmd_layout, E. do 5 right. left. reflexivity. }
  intros rest. specialize (B3 [] rest). unfold open_rb. cbn [app length] in B3. rewrite B3. reflexivity.
Qed.
End Header.

(** ** The step: stored as the product with the number of points, in single precision *)
Definition step_ok (x : f64) : Prop := fin64 x /\ (bpow radix2 (-60) <= Rabs (R64 x) <= bpow radix2 60)%R.
Lemma bp_le a b : (a <= b)%Z -> (bpow radix2 a <= bpow radix2 b)%R.
Proof. apply bpow_le. Qed.
Lemma rel_combine a x e : (Rabs (a - x) <= e * Rabs x)%R -> (0 <= e)%R -> ((1 - e) * Rabs x <= Rabs a <= (1 + e) * Rabs x)%R.
Proof.
  intros H He. pose proof (Rabs_triang (a - x) x) as T1. replace (a - x + x)%R with a in T1 by ring.
  pose proof (Rabs_triang (x - a) a) as T2. replace (x - a + a)%R with x in T2 by ring.
  rewrite (Rabs_minus_sym x a) in T2. lra.
Qed.
Section Step.
Context (n : nat) (Hn : (0 < n)%nat) (Hn' : Z.of_nat n < 2 ^ 32) (x : f64) (Hx : step_ok x).
Let N := IZR (Z.of_nat n).
Lemma N_range : (1 <= N <= 4294967296)%R.
Proof. unfold N. split; [|change 4294967296%R with (IZR (2 ^ 32))]; apply IZR_le; lia. Qed.
Lemma N_ok : R64 (f64_of_Z (Z.of_nat n)) = N /\ fin64 (f64_of_Z (Z.of_nat n)).
Proof. apply f64_of_Z_ok. change (2 ^ 53) with 9007199254740992. lia. Qed.
Lemma prod_range : (bpow radix2 (-60) <= Rabs (N * R64 x) <= bpow radix2 92)%R.
Proof.
  pose proof N_range as [N1 N2]. destruct Hx as [_ [B1 B2]]. rewrite Rabs_mult, (Rabs_pos_eq N) by lra.
  pose proof (bpow_gt_0 radix2 (-60)). replace (bpow radix2 92) with (4294967296 * bpow radix2 60)%R.
  - split; [nra|]. apply Rmult_le_compat; lra.
  - change 4294967296%R with (bpow radix2 32). rewrite <- bpow_plus. reflexivity.
Qed.
Lemma len_ok : fin64 (len_of n x) /\ R64 (len_of n x) = rnd64 (N * R64 x) /\ (Rabs (R64 (len_of n x)) <= bpow radix2 92)%R.
Proof.
  destruct N_ok as [E F]. destruct Hx as [Fx _]. pose proof prod_range as [P1 P2].
  destruct (b64_mult_ok _ x F Fx) as [E1 F1]; [rewrite E; eapply Rle_trans; [exact P2|apply bp_le; lia]|].
  unfold len_of, fmul. rewrite E in E1. split; [exact F1|]. split; [exact E1|]. rewrite E1. apply rnd64_abs_le; [lia|exact P2].
Qed.
Lemma len_single : singleable (len_of n x).
Proof. destruct len_ok as (F & _ & B). split; [exact F|]. eapply Rle_trans; [exact B|apply bp_le; lia]. Qed.
Lemma step_error : let y := fdiv (f64_of_f32 (f32_of_f64 (len_of n x))) (f64_of_Z (Z.of_nat n)) in
  fin64 y /\ (Rabs (R64 y - R64 x) <= bpow radix2 (-23) * Rabs (R64 x))%R.
Proof.
  cbv zeta. destruct len_ok as (F & E & B). destruct N_ok as [EN FN]. pose proof N_range as [N1 N2].
  destruct (single_ok (len_of n x) 92 F) as (E1 & F1 & _); [lia|exact B|].
  pose proof prod_range as [P1 P2]. set (p := (N * R64 x)%R) in *. set (e53 := (/ 9007199254740992)%R). set (e24 := (/ 16777216)%R).
  assert (A1 : (Rabs (rnd64 p - p) <= e53 * Rabs p)%R).
  { unfold e53. rewrite <- bp53. apply rnd64_rel. eapply Rle_trans; [|exact P1]. apply bp_le. lia. }
  assert (C1 := rel_combine (rnd64 p) p e53 A1 ltac:(unfold e53; lra)).
  set (a := rnd64 p) in *. rewrite E in E1.
  assert (A2 : (Rabs (rnd32 a - a) <= e24 * Rabs a)%R).
  { unfold e24. rewrite <- bp24. apply rnd32_rel. apply Rle_trans with (/ 2 * Rabs p)%R; [|unfold e53 in C1; pose proof (Rabs_pos p); lra].
    apply Rle_trans with (/ 2 * bpow radix2 (-60))%R; [|lra].
    change (/ 2)%R with (bpow radix2 (-1)). rewrite <- bpow_plus. apply bp_le. lia. }
  assert (C2 := rel_combine (rnd32 a) a e24 A2 ltac:(unfold e24; lra)).
  set (b := rnd32 a) in *.
  assert (HN : (0 < N)%R) by lra.
  assert (Hdiv : (Rabs (b / N) = Rabs b / N)%R).
  { unfold Rdiv. rewrite Rabs_mult. f_equal. rewrite Rabs_inv, Rabs_pos_eq by lra. reflexivity. }
  assert (Ep : (Rabs p = N * Rabs (R64 x))%R) by (unfold p; rewrite Rabs_mult, (Rabs_pos_eq N) by lra; reflexivity).
  assert (Hbn : (/ 2 * Rabs (R64 x) <= Rabs (b / N) <= 2 * Rabs (R64 x))%R).
  { rewrite Hdiv. assert (/ 2 * Rabs p <= Rabs b <= 2 * Rabs p)%R.
    { unfold e53, e24 in *. pose proof (Rabs_pos p). lra. }
    rewrite Ep in H. split.
    - apply Rmult_le_reg_r with N; [lra|]. unfold Rdiv. rewrite (Rmult_assoc (Rabs b)), Rinv_l, Rmult_1_r by lra. lra.
    - apply Rmult_le_reg_r with N; [lra|]. unfold Rdiv. rewrite (Rmult_assoc (Rabs b)), Rinv_l, Rmult_1_r by lra. lra. }
  destruct Hx as [Fx [X1 X2]].
  destruct (b64_div_ok _ (f64_of_Z (Z.of_nat n)) F1) as [E2 F2]; [rewrite EN; lra| |].
  { rewrite E1, EN. eapply Rle_trans; [apply Hbn|]. eapply Rle_trans; [apply Rmult_le_compat_l; [lra|exact X2]|].
    change 2%R with (bpow radix2 1). rewrite <- bpow_plus. apply bp_le. lia. }
  split; [exact F2|]. unfold fdiv. rewrite E2, E1, EN.
  assert (A3 : (Rabs (rnd64 (b / N) - b / N) <= e53 * Rabs (b / N))%R).
  { unfold e53. rewrite <- bp53. apply rnd64_rel. apply Rle_trans with (/ 2 * Rabs (R64 x))%R; [|apply Hbn].
    apply Rle_trans with (/ 2 * bpow radix2 (-60))%R; [|lra].
    change (/ 2)%R with (bpow radix2 (-1)). rewrite <- bpow_plus. apply bp_le. lia. }
  assert (A4 : (Rabs (b / N - R64 x) <= (e24 + 2 * e53) * Rabs (R64 x))%R).
  { replace (b / N - R64 x)%R with ((b - p) / N)%R by (unfold p; field; lra).
    unfold Rdiv. rewrite Rabs_mult, Rabs_inv, (Rabs_pos_eq N) by lra.
    apply Rmult_le_reg_r with N; [lra|]. rewrite Rmult_assoc, Rinv_l, Rmult_1_r by lra.
    rewrite Rmult_assoc, (Rmult_comm (Rabs (R64 x))), <- Ep.
    replace (b - p)%R with ((b - a) + (a - p))%R by ring. eapply Rle_trans; [apply Rabs_triang|].
    pose proof (Rabs_pos p). unfold e24, e53 in *. lra. }
  rewrite bp23. replace (rnd64 (b / N) - R64 x)%R with ((rnd64 (b / N) - b / N) + (b / N - R64 x))%R by ring.
  eapply Rle_trans; [apply Rabs_triang|]. pose proof (Rabs_pos (R64 x)). unfold e24, e53 in *. lra.
Qed.
End Step.

(** *** C49: every surface with a plain comment of at most 21 characters comes back with the same shape, its heights
    in single precision, its gaps, and its steps up to a relative error of 2^-23. *)
Theorem C49_roundtrip_partial : forall en s comment,
  shaped s -> Z.of_nat (cols s) < 2 ^ 32 -> Z.of_nat (rows s) < 2 ^ 32 -> step_ok (rstep_x s) -> step_ok (rstep_y s) ->
  ascii comment -> (length comment <= 21)%nat ->
  exists b s', write_tmd en s comment = Ok b /\ read_tmd (open_rb b) = Ok s' /\
    Forall2 (Forall2 as_single) (rdata s) (rdata s') /\
    (Rabs (R64 (rstep_x s') - R64 (rstep_x s)) <= bpow radix2 (-23) * Rabs (R64 (rstep_x s)))%R /\
    (Rabs (R64 (rstep_y s') - R64 (rstep_y s)) <= bpow radix2 (-23) * Rabs (R64 (rstep_y s)))%R.
Proof.
  intros en s comment G Nx Ny Sx Sy Ha Hl. destruct G as [Gr Gc Grect].
  destruct (tmd_header_roundtrip s comment Ha Hl Nx Ny (len_single _ Gc Nx _ Sx) (len_single _ Gr Ny _ Sy))
    as (head & d & W1 & W2 & W3 & Hw & Hh & Hx & Hy & W4).
  exists (head ++ f32_tobytes (singles s)). eexists. split; [|split; [|split; [|split]]].
  - unfold write_tmd. replace (Nat.ltb COMMENT_LEN (length comment)) with false by (symmetry; apply Nat.ltb_ge; exact Hl).
    assert (Ed : decode en tmd_magic = Ok tmd_magic) by (destruct en; vm_compute; reflexivity).
    rewrite Ed. cbn [rbind]. rewrite W1. reflexivity.
  - unfold read_tmd, fread. cbn [open_rb contents pos skipn]. change (length tmd_magic) with 29%nat.
    assert (E29 : firstn 29 (head ++ f32_tobytes (singles s)) = tmd_magic).
    { rewrite firstn_app, W2, W3. cbn [Nat.sub firstn]. apply app_nil_r. }
    rewrite E29, zs_eqb_refl. cbn [negb]. 
    change {| contents := head ++ f32_tobytes (singles s); pos := 0 |} with (open_rb (head ++ f32_tobytes (singles s))).
    rewrite W4. cbn [rbind]. rewrite fread_all_at, f32_array_tobytes. cbn [rbind]. rewrite Hh, Hw. cbn [rbind].
    assert (El : length (singles s) = (rows s * cols s)%nat)
      by (unfold singles; rewrite map_length; apply concat_length_grid; exact Grect).
    unfold zlen. rewrite El, Nat2Z.inj_mul, Z.eqb_refl. cbn [negb].
    rewrite !Nat2Z.id. unfold singles. rewrite concat_map_map.
    replace (rows s) with (length (map (map f32_of_f64) (rdata s))) at 1 by (rewrite map_length; reflexivity).
    rewrite reshape_concat.
    2:{ apply Forall_forall. intros r Hr. apply in_map_iff in Hr as (y & <- & Hy'). rewrite map_length.
        rewrite Forall_forall in Grect. apply Grect. exact Hy'. }
    cbn [rbind]. rewrite Hx. cbn [rbind]. unfold pydiv.
    destruct (Z.eqb_spec (Z.of_nat (cols s)) 0); [lia|]. cbn [rbind]. rewrite Hy. cbn [rbind].
    destruct (Z.eqb_spec (Z.of_nat (rows s)) 0); [lia|]. cbn [rbind]. reflexivity.
  - cbn [rdata]. apply Forall2_map_both. intros row _. apply Forall2_map_both. intros x _. apply single_kept.
  - apply (step_error (cols s) Gc Nx _ Sx).
  - apply (step_error (rows s) Gr Ny _ Sy).
Qed.

(** Over-long comments raise, and nothing else about the comment does. *)
Theorem C49_long_comment : forall en s comment, (21 < length comment)%nat -> write_tmd en s comment = Err ValueError.
Proof.
  intros en s comment H. unfold write_tmd. replace (Nat.ltb COMMENT_LEN (length comment)) with true; [reflexivity|].
  symmetry. apply Nat.ltb_lt. exact H.
Qed.

(** The length check counts characters, not bytes: with the accepted comment "a" followed by 20 micro signs a file is
    written that cannot be read. *)
Definition micro_comment : pystr := 97 :: repeat 181 20.
Theorem C49_comment_refuted : (length micro_comment <= 21)%nat /\
  forall en s, shaped s -> Z.of_nat (cols s) < 2 ^ 32 -> Z.of_nat (rows s) < 2 ^ 32 ->
    step_ok (rstep_x s) -> step_ok (rstep_y s) ->
    exists b, write_tmd en s micro_comment = Ok b /\ read_tmd (open_rb b) = Err UnicodeError.
Proof.
  split; [vm_compute; lia|]. intros en s [Gr Gc Grect] Nx Ny Sx Sy.
  assert (Ed : decode en tmd_magic = Ok tmd_magic) by (destruct en; vm_compute; reflexivity).
  unfold write_tmd. change (Nat.ltb COMMENT_LEN (length micro_comment)) with false. cbv iota. rewrite Ed. cbn [rbind].
  pose (b1 := tmd_magic ++ line_termination). pose (b2 := 97 :: concat (repeat [194; 181] 11) ++ [194]).
  pose (l2 := tl (tl tmd_layout)).
  assert (E1 : write_entry Utf8 (tmd_header tmd_magic s micro_comment) (E "header" (FStr 32)) = Ok b1) by (vm_compute; reflexivity).
  assert (E2 : write_entry Utf8 (tmd_header tmd_magic s micro_comment) (E "comment" (FStr 24)) = Ok b2) by (vm_compute; reflexivity).
  assert (E3 : exists b3, write_layout Utf8 (tmd_header tmd_magic s micro_comment) l2 = Ok b3).
  { destruct (C44_roundtrip Utf8 Utf8 (tmd_header tmd_magic s micro_comment) l2) as (b & d & B1 & _); [| | |exists b; exact B1].
    - intros e He. unfold l2, tmd_layout, E in He. cbn [tl] in He. repeat (destruct He as [<-|He]; [exact I|]). destruct He.
    - apply forallb_names_nodup. vm_compute. reflexivity.
    - intros name f Hin. unfold l2, tmd_layout, E in Hin. cbn [tl] in Hin.
      repeat (destruct Hin as [Hin|Hin]; [injection Hin as <- <-; eexists; eexists; split; [reflexivity|];
        first [apply count_field; assumption|exact (zero_field _ _)
            |exact (rb_single _ _ _ (len_single _ Gc Nx _ Sx))|exact (rb_single _ _ _ (len_single _ Gr Ny _ Sy))]|]). destruct Hin. }
  destruct E3 as [b3 E3].
  assert (EW : write_layout Utf8 (tmd_header tmd_magic s micro_comment) tmd_layout = Ok (b1 ++ b2 ++ b3)).
  { change tmd_layout with (E "header" (FStr 32) :: E "comment" (FStr 24) :: l2).
    cbn [write_layout]. rewrite E1. cbn [rbind]. rewrite E2. cbn [rbind]. rewrite E3. reflexivity. }
  rewrite EW. cbn [rbind]. eexists. split; [reflexivity|].
  set (rest := f32_tobytes (singles s)).
  unfold read_tmd, fread. cbn [open_rb contents pos skipn]. change (length tmd_magic) with 29%nat.
  assert (E29 : forall t, firstn 29 ((b1 ++ t) ++ rest) = tmd_magic).
  { intros t. rewrite <- app_assoc, firstn_app. change (29 - length b1)%nat with 0%nat. rewrite firstn_O, app_nil_r. vm_compute. reflexivity. }
  rewrite E29, zs_eqb_refl. cbn [negb].
  change {| contents := (b1 ++ b2 ++ b3) ++ rest; pos := 0 |} with (at_ [] ((b1 ++ b2 ++ b3) ++ rest)).
  rewrite <- !app_assoc. unfold read_layout. change tmd_layout with (E "header" (FStr 32) :: E "comment" (FStr 24) :: l2).
  cbn [read_layout_from read_entry E rbind].
  assert (R1 : read_value Utf8 (FStr 32) (at_ [] (b1 ++ b2 ++ b3 ++ rest)) = Ok (VStr (tmd_magic ++ [13; 10]), at_ b1 (b2 ++ b3 ++ rest))).
  { unfold read_value. pose proof (fread_at [] b1 (b2 ++ b3 ++ rest)) as F. change (length b1) with (calcsize (FStr 32)) in F. rewrite F. reflexivity. }
  rewrite R1. cbn [rmap rbind].
  assert (R2 : read_value Utf8 (FStr 24) (at_ b1 (b2 ++ b3 ++ rest)) = Err UnicodeError).
  { unfold read_value. pose proof (fread_at b1 b2 (b3 ++ rest)) as F. change (length b2) with (calcsize (FStr 24)) in F. rewrite F.
    vm_compute. reflexivity. }
  rewrite R2. reflexivity.
Qed.

(** *** C51 for .tmd: no proper prefix of a written file can be loaded. *)
Lemma tmd_layout_split : exists l, tmd_layout = l ++ [Entry "offset_y" (Fixed FF32)] /\ Forall fixed_entry l /\ lsize l = 76%nat.
Proof.
  exists (removelast tmd_layout). split; [reflexivity|]. split; [|vm_compute; reflexivity].
  unfold tmd_layout, E. cbn [removelast]. repeat constructor.
Qed.
Theorem C51_tmd_truncated : forall en s comment b k,
  shaped s -> Z.of_nat (cols s) < 2 ^ 32 -> Z.of_nat (rows s) < 2 ^ 32 -> step_ok (rstep_x s) -> step_ok (rstep_y s) ->
  ascii comment -> (length comment <= 21)%nat ->
  write_tmd en s comment = Ok b -> (k < length b)%nat -> exists e, read_tmd (open_rb (firstn k b)) = Err e.
Proof.
  intros en s comment b k [Gr Gc Grect] Nx Ny Sx Sy Ha Hl HW Hk.
  destruct (read_tmd (open_rb (firstn k b))) as [s'|e] eqn:HR; [exfalso|eauto].
  destruct (tmd_header_roundtrip s comment Ha Hl Nx Ny (len_single _ Gc Nx _ Sx) (len_single _ Gr Ny _ Sy))
    as (head & d & W1 & W2 & W3 & Hw & Hh & Hx & Hy & W4).
  unfold write_tmd in HW. replace (Nat.ltb COMMENT_LEN (length comment)) with false in HW by (symmetry; apply Nat.ltb_ge; exact Hl).
  assert (Ed : decode en tmd_magic = Ok tmd_magic) by (destruct en; vm_compute; reflexivity).
  rewrite Ed in HW. cbn [rbind] in HW. rewrite W1 in HW. cbn [rbind] in HW. injection HW as <-.
  unfold read_tmd, fread in HR. cbn [open_rb contents pos skipn] in HR. destruct (negb _); [discriminate|].
  change {| contents := ?c; pos := 0 |} with (open_rb c) in HR.
  apply rbind_ok in HR as ([d' h'] & A1 & HR).
  destruct (Nat.lt_ge_cases k 80) as [Hs'|Hs'].
  { destruct tmd_layout_split as (l & El & Fl & Sl). unfold read_layout in A1. rewrite El in A1.
    destruct (C44_truncated_header Utf8 l "offset_y" FF32 [] d' _ h' Fl ltac:(cbn; lia) A1) as (_ & P1 & P2).
    cbn [open_rb contents pos calcsize] in P1, P2. rewrite Sl in P1. rewrite firstn_length in P2. lia. }
  assert (Ep : firstn k (head ++ f32_tobytes (singles s)) = head ++ firstn (k - 80) (f32_tobytes (singles s))).
  { rewrite firstn_app, W2. rewrite firstn_all2 by lia. reflexivity. }
  rewrite Ep in A1. rewrite W4 in A1. injection A1 as <- <-. rewrite fread_all_at in HR.
  apply rbind_ok in HR as (l & A2 & HR). rewrite Hh, Hw in HR. cbn [rbind] in HR.
  destruct (Z.eqb_spec (zlen l) (Z.of_nat (rows s) * Z.of_nat (cols s))) as [El|]; [|discriminate].
  unfold f32_array in A2. apply rmap_ok in A2 as (ch & A2 & ->).
  assert (Lc : (length ch * 4 = length (firstn (k - 80) (f32_tobytes (singles s))))%nat).
  { apply frombuffer_length in A2; [exact A2|lia]. }
  unfold zlen in El. rewrite map_length in El. rewrite firstn_length in Lc.
  rewrite app_length, f32_tobytes_length, W2 in Hk. rewrite f32_tobytes_length in Lc.
  assert (Es : length (singles s) = (rows s * cols s)%nat)
      by (unfold singles; rewrite map_length; apply concat_length_grid; exact Grect).
  rewrite Es in *. lia.
Qed.

(** the hypotheses are met: a 2 x 2 surface with a gap, and the default comment *)
Theorem C49_example : let s := {| rdata := [[f64_of_Z 1; nan64]; [f64_of_Z (-7); f64_of_Z 3]]; rstep_x := f64_of_Z 1; rstep_y := f64_of_Z 2 |} in
  shaped s /\ step_ok (rstep_x s) /\ step_ok (rstep_y s) /\ ascii (str "Exported by surfalize") /\
  length (str "Exported by surfalize") = 21%nat /\ singleable (f64_of_Z (-7)).
Proof.
  assert (S : forall n, 1 <= n <= 8 -> step_ok (f64_of_Z n)).
  { intros n Hn. destruct (f64_of_Z_ok n) as [E F]; [change (2 ^ 53) with 9007199254740992; lia|]. split; [exact F|].
    rewrite E, <- abs_IZR, Z.abs_eq by lia. split.
    - apply Rle_trans with (bpow radix2 0); [apply bp_le; lia|]. change (bpow radix2 0) with (IZR 1). apply IZR_le; lia.
    - apply Rle_trans with (IZR 8); [apply IZR_le; lia|]. change (IZR 8) with (bpow radix2 3). apply bp_le. lia. }
  split; [|split; [|split; [|split; [|split]]]].
  - constructor; [apply le_n_S, Nat.le_0_l|apply le_n_S, Nat.le_0_l|repeat constructor].
  - apply S. lia.
  - apply S. lia.
  - vm_compute. repeat constructor; discriminate.
  - reflexivity.
  - destruct (f64_of_Z_ok (-7)) as [E F]; [vm_compute; discriminate|]. split; [exact F|]. rewrite E, <- abs_IZR.
    apply Rle_trans with (IZR 8); [apply IZR_le; cbn; lia|]. change (IZR 8) with (bpow radix2 3). apply bp_le. lia.
Qed.
