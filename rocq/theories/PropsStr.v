(** C41, third part: Str may exceed 1, and flat surfaces have no Sal. *)
From Coq Require Import Reals List Bool Arith ZArith Lia Lra.
From Verif Require Import Base RList ModelMath ModelHeights ModelDetrend ModelGeom ModelAcf ProofMath ProofHeights ProofParams PropsFill PropsAcf PropsDecay.
Import ListNotations.
Local Open Scope R_scope.

(** *** Specification of ndimage.map_coordinates(order=3) inside an n x m array: the cubic B-spline whose coefficients are
    continued by reflection at the first and at the last row and column, and which passes through the array values *)
Definition bspline (t : R) : R :=
  let u := Rabs t in if Rle_dec u 1 then 2 / 3 - u ^ 2 + u ^ 3 / 2 else if Rle_dec u 2 then (2 - u) ^ 3 / 6 else 0.
Definition zrange (lo : Z) (k : nat) : list Z := map (fun i => (lo + Z.of_nat i)%Z) (seq 0 k).
Definition spline_sum (c : Z -> Z -> R) (n m : nat) (y x : R) : R :=
  sumR (map (fun k => sumR (map (fun l => c k l * bspline (y - IZR k) * bspline (x - IZR l)) (zrange (-1) (m + 2)))) (zrange (-1) (n + 2))).
Definition interpolates (spline : matrix -> R -> R -> R) (d : matrix) : Prop := let n := length d in let m := length (hd [] d) in
  exists c : Z -> Z -> R,
    (forall k l, c (- k)%Z l = c k l /\ c (2 * (Z.of_nat n - 1) - k)%Z l = c k l /\ c k (- l)%Z = c k l /\ c k (2 * (Z.of_nat m - 1) - l)%Z = c k l) /\
    (forall i j, (i < n)%nat -> (j < m)%nat -> spline_sum c n m (INR i) (INR j) = at2 d i j) /\
    (forall y x, 0 <= y <= INR n - 1 -> 0 <= x <= INR m - 1 -> spline d y x = spline_sum c n m y x).

(** *** B-spline weights *)
Lemma bs_in t : -1 <= t <= 1 -> bspline t = 2 / 3 - t ^ 2 + Rabs t ^ 3 / 2.
Proof. intros H. unfold bspline. cbv zeta. destruct (Rle_dec (Rabs t) 1) as [L|L]; [rewrite pow2_abs; reflexivity|]. exfalso. apply L. apply Rabs_le. lra. Qed.
Lemma bs_pos t : 0 <= t <= 1 -> bspline t = 2 / 3 - t ^ 2 + t ^ 3 / 2.
Proof. intros H. rewrite bs_in by lra. rewrite Rabs_pos_eq by lra. reflexivity. Qed.
Lemma bs_neg t : bspline (- t) = bspline t.
Proof. unfold bspline. rewrite Rabs_Ropp. reflexivity. Qed.
Lemma bs_tail t : 1 <= t <= 2 -> bspline t = (2 - t) ^ 3 / 6.
Proof.
  intros H. unfold bspline. cbv zeta. rewrite Rabs_pos_eq by lra. destruct (Rle_dec t 1) as [L|L]; [replace t with 1 by lra; lra|]. destruct (Rle_dec t 2); [reflexivity|lra].
Qed.
Lemma bs_out t : 2 <= t -> bspline t = 0.
Proof. intros H. unfold bspline. cbv zeta. rewrite Rabs_pos_eq by lra. destruct (Rle_dec t 1); [lra|]. destruct (Rle_dec t 2); [replace t with 2 by lra; lra|reflexivity]. Qed.
(** one axis of three nodes: between the first and the middle node, at 1 - t *)
Definition line3 (g : Z -> R) (x : R) : R := sumR (map (fun l => g l * bspline (x - IZR l)) (zrange (-1) 5)).
Lemma line3_unfold g x : line3 g x = g (-1)%Z * bspline (x + 1) + g 0%Z * bspline x + g 1%Z * bspline (x - 1) + g 2%Z * bspline (x - 2) + g 3%Z * bspline (x - 3).
Proof. unfold line3, zrange. cbn [seq map Z.of_nat Pos.of_succ_nat Pos.succ Z.add Z.pos_sub Pos.pred_double Z.opp]. unfold sumR. cbn [fold_right]. replace (x - -1) with (x + 1) by lra. replace (x - 0) with x by lra. lra. Qed.
Lemma bs_at0 : bspline 0 = 2 / 3. Proof. rewrite bs_pos by lra. lra. Qed.
Lemma bs_at1 : bspline 1 = 1 / 6. Proof. rewrite bs_pos by lra. lra. Qed.
Lemma bs_atm1 : bspline (-1) = 1 / 6. Proof. replace (-1) with (- (1)) by lra. rewrite bs_neg. apply bs_at1. Qed.
Lemma bs_far x : 2 <= Rabs x -> bspline x = 0.
Proof. intros H. destruct (Rle_dec 0 x) as [L|L]; [rewrite Rabs_pos_eq in H by lra; apply bs_out; exact H|]. rewrite Rabs_left in H by lra. rewrite <- bs_neg. apply bs_out. exact H. Qed.
Lemma line3_node0 g : line3 g 0 = (g (-1)%Z + 4 * g 0%Z + g 1%Z) / 6.
Proof. rewrite line3_unfold. replace (0 + 1) with 1 by lra. replace (0 - 1) with (-1) by lra. rewrite bs_at0, bs_at1, bs_atm1, (bs_far (0 - 2)), (bs_far (0 - 3)) by (rewrite Rabs_left; lra). lra. Qed.
Lemma line3_node1 g : line3 g 1 = (g 0%Z + 4 * g 1%Z + g 2%Z) / 6.
Proof. rewrite line3_unfold. replace (1 - 1) with 0 by lra. replace (1 - 2) with (-1) by lra. rewrite bs_at0, bs_at1, bs_atm1, (bs_far (1 - 3)) by (rewrite Rabs_left; lra). rewrite (bs_far (1 + 1)) by (rewrite Rabs_pos_eq; lra). lra. Qed.
Lemma line3_node2 g : line3 g 2 = (g 1%Z + 4 * g 2%Z + g 3%Z) / 6.
Proof. rewrite line3_unfold. replace (2 - 2) with 0 by lra. replace (2 - 3) with (-1) by lra. replace (2 - 1) with 1 by lra. rewrite bs_at0, bs_at1, bs_atm1. rewrite (bs_far (2 + 1)), (bs_far 2) by (rewrite Rabs_pos_eq; lra). lra. Qed.
Lemma line3_between g t : 0 <= t <= 1 ->
  line3 g (1 - t) = g (-1)%Z * (t ^ 3 / 6) + g 0%Z * (2 / 3 - (1 - t) ^ 2 + (1 - t) ^ 3 / 2) + g 1%Z * (2 / 3 - t ^ 2 + t ^ 3 / 2) + g 2%Z * ((1 - t) ^ 3 / 6).
Proof.
  intros H. rewrite line3_unfold. rewrite (bs_tail (1 - t + 1)) by lra. rewrite (bs_pos (1 - t)) by lra. replace (1 - t - 1) with (- t) by lra. rewrite (bs_neg t), (bs_pos t) by lra.
  replace (1 - t - 2) with (- (1 + t)) by lra. rewrite bs_neg, (bs_tail (1 + t)) by lra. rewrite (bs_far (1 - t - 3)) by (rewrite Rabs_left; lra). lra.
Qed.
(** reflected coefficients with end values r and middle value v: the curve between them *)
Definition blend (t : R) : R := 3 * t ^ 2 - 2 * t ^ 3.
Lemma line3_curve g r v t : g (-1)%Z = g 1%Z -> g 3%Z = g 1%Z -> line3 g 0 = r -> line3 g 1 = v -> line3 g 2 = r -> 0 <= t <= 1 ->
  line3 g (1 - t) = v + (r - v) * blend t.
Proof.
  intros M1 M2 E0 E1 E2 Ht. rewrite line3_node0 in E0. rewrite line3_node1 in E1. rewrite line3_node2 in E2. rewrite line3_between by exact Ht. unfold blend.
  assert (G0 : g 0%Z = g 2%Z) by lra. assert (G1 : g 1%Z = 2 * v - r) by lra. assert (G2 : g 2%Z = 2 * r - v) by lra. rewrite M1, G0, G1, G2. field.
Qed.
Lemma sum_swap_scale {A B} (f : A -> B -> R) (la : list A) (lb : list B) : sumR (map (fun a => sumR (map (f a) lb)) la) = sumR (map (fun b => sumR (map (fun a => f a b) la)) lb).
Proof.
  induction la as [|a la IH]; cbn [map].
  - rewrite (sumR_ext _ (fun _ : B => 0)) by reflexivity. rewrite sumR_map_const. unfold sumR. cbn [fold_right]. lra.
  - rewrite sumR_cons, IH. clear IH. induction lb as [|b lb IH]; cbn [map]; [unfold sumR; cbn [fold_right]; lra|]. rewrite !sumR_cons. rewrite <- IH. lra.
Qed.
Lemma sumR_mul {A} (k : R) (f : A -> R) l : sumR (map (fun x => k * f x) l) = k * sumR (map f l).
Proof. induction l as [|x l IH]; cbn [map]; [unfold sumR; cbn [fold_right]; lra|]. rewrite !sumR_cons, IH. lra. Qed.
Lemma sum_row c y x : spline_sum c 3 3 y x = line3 (fun l => line3 (fun k => c k l) y) x.
Proof.
  unfold spline_sum. rewrite sum_swap_scale. unfold line3 at 1. apply sumR_ext. intros l _. unfold line3. rewrite (Rmult_comm (sumR _)), <- sumR_mul. apply sumR_ext. intros k _. lra.
Qed.
Lemma sum_col c y x : spline_sum c 3 3 y x = line3 (fun k => line3 (fun l => c k l) x) y.
Proof.
  unfold spline_sum. unfold line3 at 1. apply sumR_ext. intros k _. unfold line3. rewrite (Rmult_comm (sumR _)), <- sumR_mul. apply sumR_ext. intros l _. lra.
Qed.

(** *** The surface: two rows, heights 1 0 and -1 0, steps 1 and 1.25 *)
Definition wall : grid := [[Some 1; Some 0]; [Some (-1); Some 0]].
Definition wall_acf : matrix := [[0; -1/2; 0]; [0; 1/2; 0]; [0; -1/2; 0]].
Theorem wall_acf_ok : acf_new wall = Ok wall_acf.
Proof.
  unfold acf_new, wall. cbn [has_missing flat existsb concat app is_nan orb]. apply f_equal. unfold wall_acf.
  unfold autocorrelation, convolve_full, center, nanmean. cbn [flat concat app measured flat_map]. unfold meanR, sumR. cbn [gmap map option_map matrix_of length].
  unfold tabulate, reflect, sum2, mrows, mcols, at2, overlap, sumR. cbn [length map hd rev app Nat.add Nat.sub seq nth fold_right Nat.leb andb INR]. 
  replace (Rabs (0 - (1 + 1 - 1))) with 1 by (rewrite Rabs_left; lra). replace (Rabs (1 - (1 + 1 - 1))) with 0 by (rewrite Rabs_pos_eq; lra). replace (Rabs (1 + 1 - (1 + 1 - 1))) with 1 by (rewrite Rabs_pos_eq; lra).
  unfold hsub, lift2. repeat (apply (f_equal2 (@cons _)); [|try reflexivity]); try lra; repeat (apply (f_equal2 (@cons R)); [|try reflexivity]); field.
Qed.
Definition wall_mask := fun i j => Rltb (level_of wall_acf (1 / 5)) (at2 wall_acf i j).
Lemma wall_level : level_of wall_acf (1 / 5) = 1 / 10.
Proof. unfold level_of, centre. unfold at2. cbn -[Rmult Rdiv Rplus Rinv IZR]. lra. Qed.
Lemma wall_mask_iff i j : wall_mask i j = true <-> (i = 1 /\ j = 1)%nat.
Proof.
  unfold wall_mask. rewrite wall_level. unfold Rltb. split.
  - destruct (Rlt_dec _ _) as [L|L]; [intros _|discriminate]. destruct i as [|[|[|i]]]; destruct j as [|[|[|j]]]; try (split; reflexivity); exfalso; revert L; unfold at2, wall_acf; cbn [nth]; try lra; try (destruct j; lra); destruct i; cbn [nth]; try lra; destruct j; lra.
  - intros [-> ->]. destruct (Rlt_dec _ _) as [L|L]; [reflexivity|]. exfalso. apply L. unfold at2. cbn [wall_acf nth]. lra.
Qed.
Lemma wall_correlated e : correlated wall_acf (1 / 5) e <-> e = (1, 1)%nat.
Proof.
  unfold correlated. change (fun i j => Rltb (level_of wall_acf (1 / 5)) (at2 wall_acf i j)) with wall_mask. change (centre wall_acf) with (1, 1)%nat. split.
  - intros H. assert (Hm : wall_mask (fst e) (snd e) = true) by (inversion H; subst; assumption). apply wall_mask_iff in Hm. destruct e as [i j]; cbn [fst snd] in Hm; destruct Hm as [-> ->]; reflexivity.
  - intros ->. apply joined_self; [split; cbn [fst snd length wall_acf hd]; lia|]. apply wall_mask_iff. split; reflexivity.
Qed.
Lemma wall_border e : border wall_acf (1 / 5) e -> e = (0, 1)%nat \/ e = (1, 0)%nat \/ e = (1, 2)%nat \/ e = (2, 1)%nat.
Proof.
  intros (_ & _ & f & Ha & Hf). apply wall_correlated in Hf. subst f. destruct e as [i j]. unfold adjacent in Ha. cbn [fst snd] in Ha.
  assert ((i = 0 /\ j = 1) \/ (i = 1 /\ j = 0) \/ (i = 1 /\ j = 2) \/ (i = 2 /\ j = 1))%nat as [[-> ->]|[[-> ->]|[[-> ->]|[-> ->]]]] by lia; tauto.
Qed.
Lemma wall_border_in e : e = (0, 1)%nat \/ e = (1, 0)%nat \/ e = (1, 2)%nat \/ e = (2, 1)%nat -> border wall_acf (1 / 5) e.
Proof.
  intros H. split; [destruct H as [-> |[-> |[-> | ->]]]; split; cbn [fst snd length hd wall_acf]; lia|]. split; [intros C; apply wall_correlated in C; subst e; destruct H as [H|[H|[H|H]]]; discriminate H|].
  exists (1, 1)%nat. split; [|apply wall_correlated; reflexivity]. destruct H as [-> |[-> |[-> | ->]]]; unfold adjacent; cbn [fst snd]; lia.
Qed.
Definition sx0 := 1. Definition sy0 := 5 / 4.
Lemma wall_len e : lag_length 1 (5 / 4) wall_acf e = sqrt (((INR (fst e) - 1) * (5 / 4)) ^ 2 + ((INR (snd e) - 1) * 1) ^ 2).
Proof. reflexivity. Qed.
Lemma wall_len_row e : e = (1, 0)%nat \/ e = (1, 2)%nat -> lag_length 1 (5 / 4) wall_acf e = 1.
Proof. intros [-> | ->]; rewrite wall_len; cbn [fst snd INR]; [replace (((1 - 1) * (5 / 4)) ^ 2 + ((0 - 1) * 1) ^ 2) with 1 by lra|replace (((1 - 1) * (5 / 4)) ^ 2 + ((1 + 1 - 1) * 1) ^ 2) with 1 by lra]; apply sqrt_1. Qed.
Lemma wall_len_col e : e = (0, 1)%nat \/ e = (2, 1)%nat -> lag_length 1 (5 / 4) wall_acf e = 5 / 4.
Proof.
  intros [-> | ->]; rewrite wall_len; cbn [fst snd INR]; [replace (((0 - 1) * (5 / 4)) ^ 2 + ((1 - 1) * 1) ^ 2) with (5 / 4 * (5 / 4)) by lra|replace (((1 + 1 - 1) * (5 / 4)) ^ 2 + ((1 - 1) * 1) ^ 2) with (5 / 4 * (5 / 4)) by lra]; apply sqrt_square; lra.
Qed.
(** the interpolated autocorrelation along the two axes *)
Lemma wall_axes spline t : interpolates spline wall_acf -> 0 <= t <= 1 ->
  spline wall_acf 1 (1 - t) = (1 - blend t) / 2 /\ spline wall_acf 1 (1 + t) = (1 - blend t) / 2 /\
  spline wall_acf (1 - t) 1 = 1 / 2 - blend t /\ spline wall_acf (1 + t) 1 = 1 / 2 - blend t.
Proof.
  intros (c & Hc & Hn & Hs) Ht. cbn [length wall_acf hd] in Hc, Hn, Hs. cbn [INR] in Hs.
  assert (Mk : forall k l, c (- k)%Z l = c k l) by (intros k l; apply Hc). assert (Mk' : forall k l, c (4 - k)%Z l = c k l) by (intros k l; destruct (Hc k l) as (_ & X & _); exact X).
  assert (Ml : forall k l, c k (- l)%Z = c k l) by (intros k l; apply Hc). assert (Ml' : forall k l, c k (4 - l)%Z = c k l) by (intros k l; destruct (Hc k l) as (_ & _ & _ & X); exact X).
  assert (N : forall i j, (i < 3)%nat -> (j < 3)%nat -> spline_sum c 3 3 (INR i) (INR j) = at2 wall_acf i j) by (intros; apply Hn; assumption).
  assert (Row : forall t', 0 <= t' <= 1 -> spline_sum c 3 3 1 (1 - t') = 1 / 2 + (0 - 1 / 2) * blend t').
  { intros t' Ht'. rewrite sum_row. apply line3_curve; try exact Ht'.
    - unfold line3. apply sumR_ext. intros k _. change (-1)%Z with (- (1))%Z. rewrite Ml. reflexivity.
    - unfold line3. apply sumR_ext. intros k _. change 3%Z with (4 - 1)%Z. rewrite Ml'. reflexivity.
    - rewrite <- sum_row. exact (N 1%nat 0%nat ltac:(lia) ltac:(lia)).
    - rewrite <- sum_row. exact (N 1%nat 1%nat ltac:(lia) ltac:(lia)).
    - rewrite <- sum_row. etransitivity; [|exact (N 1%nat 2%nat ltac:(lia) ltac:(lia))]; cbn [INR]; f_equal; lra. }
  assert (Col : forall t', 0 <= t' <= 1 -> spline_sum c 3 3 (1 - t') 1 = 1 / 2 + (-1 / 2 - 1 / 2) * blend t').
  { intros t' Ht'. rewrite sum_col. apply line3_curve; try exact Ht'.
    - unfold line3. apply sumR_ext. intros k _. change (-1)%Z with (- (1))%Z. rewrite Mk. reflexivity.
    - unfold line3. apply sumR_ext. intros k _. change 3%Z with (4 - 1)%Z. rewrite Mk'. reflexivity.
    - rewrite <- sum_col. exact (N 0%nat 1%nat ltac:(lia) ltac:(lia)).
    - rewrite <- sum_col. exact (N 1%nat 1%nat ltac:(lia) ltac:(lia)).
    - rewrite <- sum_col. etransitivity; [|exact (N 2%nat 1%nat ltac:(lia) ltac:(lia))]; cbn [INR]; f_equal; lra. }
  (* reflection about the middle node *)
  assert (Lr : forall g x, g (-1)%Z = g 1%Z -> g 3%Z = g 1%Z -> line3 g 0 = line3 g 2 -> 0 <= x <= 1 -> line3 g (1 + x) = line3 g (1 - x)).
  { intros g x G1 G3 E Hx. rewrite line3_node0, line3_node2 in E. assert (G0 : g 0%Z = g 2%Z) by lra. rewrite !line3_unfold. rewrite G1, G3, G0.
    replace (1 + x - 2) with (- (1 - x)) by lra. replace (1 - x - 1) with (- x) by lra. replace (1 + x - 1) with x by lra. replace (1 - x - 2) with (- (1 + x)) by lra. replace (1 + x - 3) with (- (1 - x + 1)) by lra. rewrite !bs_neg.
    rewrite (bs_far (1 + x + 1)) by (rewrite Rabs_pos_eq; lra). rewrite (bs_far (1 - x - 3)) by (rewrite Rabs_left; lra). lra. }
  split; [|split; [|split]].
  - rewrite Hs by lra. rewrite Row by exact Ht. lra.
  - rewrite Hs by lra. rewrite sum_row, Lr, <- sum_row, Row; try exact Ht; [lra| | |].
    + unfold line3. apply sumR_ext. intros k _. change (-1)%Z with (- (1))%Z. rewrite Ml. reflexivity.
    + unfold line3. apply sumR_ext. intros k _. change 3%Z with (4 - 1)%Z. rewrite Ml'. reflexivity.
    + rewrite <- !sum_row. etransitivity; [exact (N 1%nat 0%nat ltac:(lia) ltac:(lia))|symmetry; exact (N 1%nat 2%nat ltac:(lia) ltac:(lia))].
  - rewrite Hs by lra. rewrite Col by exact Ht. lra.
  - rewrite Hs by lra. rewrite sum_col, Lr, <- sum_col, Col; try exact Ht; [lra| | |].
    + unfold line3. apply sumR_ext. intros k _. change (-1)%Z with (- (1))%Z. rewrite Mk. reflexivity.
    + unfold line3. apply sumR_ext. intros k _. change 3%Z with (4 - 1)%Z. rewrite Mk'. reflexivity.
    + rewrite <- !sum_col. etransitivity; [exact (N 0%nat 1%nat ltac:(lia) ltac:(lia))|symmetry; exact (N 2%nat 1%nat ltac:(lia) ltac:(lia))].
Qed.
Lemma blend_mono a b : 0 <= a <= b -> b <= 1 -> blend a <= blend b.
Proof. intros H H1. unfold blend. assert (0 <= (b - a) * (3 * (a + b) - 2 * (a * a + a * b + b * b))); [|lra]. apply Rmult_le_pos; [lra|]. nra. Qed.
Lemma frac k : (k <= 999)%nat -> 0 <= INR k / 999 <= 1.
Proof. intros Hk. apply le_INR in Hk. rewrite (INR_IZR_INZ 999) in Hk. change (Z.of_nat 999) with 999%Z in Hk. pose proof (pos_INR k). lra. Qed.
Lemma INR_lit k : INR k = IZR (Z.of_nat k). Proof. apply INR_IZR_INZ. Qed.

(** For this surface Str exceeds 1, whatever the labelling and the interpolation, as long as they do what scipy documents. *)
Theorem C41_str_refuted spline label : interpolates spline wall_acf -> labels label 3 3 wall_mask ->
  acf_new wall = Ok wall_acf /\ exists v, Str spline label wall_acf 1 (5 / 4) (1 / 5) = Ok (Some v) /\ 1 < v.
Proof.
  intros HS HL. split; [apply wall_acf_ok|].
  assert (Hin : inside (length wall_acf) (length (hd [] wall_acf)) (centre wall_acf)) by (split; cbn; lia).
  assert (Hpos : level_of wall_acf (1 / 5) < at2 wall_acf (fst (centre wall_acf)) (snd (centre wall_acf))) by (rewrite wall_level; unfold at2; change (centre wall_acf) with (1, 1)%nat; cbn [wall_acf nth fst snd]; lra).
  destruct (C41_defined spline label wall_acf 1 (5 / 4) (1 / 5) HL Hin Hpos (0, 1)%nat) as (a & b & E); [apply wall_border_in; tauto|].
  destruct (C41_decay spline label wall_acf 1 (5 / 4) (1 / 5) HL Hin Hpos a b E) as (near & far & Bn & Bf & Hm & (k & Hk & Ea & Mk) & (l & Hl & Eb & Ml)).
  assert (Cn : near = (1, 0)%nat \/ near = (1, 2)%nat).
  { destruct (wall_border _ Bn) as [N|[N|[N|N]]]; try tauto; exfalso; destruct (Hm (1, 0)%nat (wall_border_in _ (or_intror (or_introl eq_refl)))) as [X _];
      rewrite (wall_len_row (1, 0)%nat), (wall_len_col near) in X by tauto; lra. }
  assert (Cf : far = (0, 1)%nat \/ far = (2, 1)%nat).
  { destruct (wall_border _ Bf) as [N|[N|[N|N]]]; try tauto; exfalso; destruct (Hm (0, 1)%nat (wall_border_in _ (or_introl eq_refl))) as [_ X];
      rewrite (wall_len_col (0, 1)%nat), (wall_len_row far) in X by tauto; lra. }
  rewrite (wall_len_row near Cn) in Ea. rewrite (wall_len_col far Cf) in Eb.
  assert (Vn : forall j, (j <= 999)%nat -> spline wall_acf (fst (on_line wall_acf near j)) (snd (on_line wall_acf near j)) = (1 - blend (INR j / 999)) / 2).
  { intros j Hj. pose proof (frac j Hj) as F. destruct (wall_axes spline (INR j / 999) HS F) as (A1 & A2 & _ & _). unfold on_line. change (centre wall_acf) with (1, 1)%nat. destruct Cn as [-> | ->]; cbn [fst snd INR].
    - replace (1 + INR j / 999 * (1 - 1)) with 1 by lra. replace (1 + INR j / 999 * (0 - 1)) with (1 - INR j / 999) by lra. exact A1.
    - replace (1 + INR j / 999 * (1 - 1)) with 1 by lra. replace (1 + INR j / 999 * (1 + 1 - 1)) with (1 + INR j / 999) by lra. exact A2. }
  assert (Vf : forall j, (j <= 999)%nat -> spline wall_acf (fst (on_line wall_acf far j)) (snd (on_line wall_acf far j)) = 1 / 2 - blend (INR j / 999)).
  { intros j Hj. pose proof (frac j Hj) as F. destruct (wall_axes spline (INR j / 999) HS F) as (_ & _ & A1 & A2). unfold on_line. change (centre wall_acf) with (1, 1)%nat. destruct Cf as [-> | ->]; cbn [fst snd INR].
    - replace (1 + INR j / 999 * (1 - 1)) with 1 by lra. replace (1 + INR j / 999 * (0 - 1)) with (1 - INR j / 999) by lra. exact A1.
    - replace (1 + INR j / 999 * (1 - 1)) with 1 by lra. replace (1 + INR j / 999 * (1 + 1 - 1)) with (1 + INR j / 999) by lra. exact A2. }
  assert (Bk : 650 / 999 < INR k / 999).
  { apply Rnot_le_lt. intros C. specialize (Mk 713%nat ltac:(lia)). rewrite !Vn in Mk by lia. rewrite wall_level in Mk. pose proof (frac k Hk) as F.
    pose proof (blend_mono (INR k / 999) (650 / 999) ltac:(lra) ltac:(lra)) as B. assert (B' : blend (INR k / 999) <= 72 / 100) by (eapply Rle_trans; [exact B|unfold blend; lra]). clear B.
    rewrite (INR_lit 713) in Mk. change (Z.of_nat 713) with 713%Z in Mk. assert (B2 : 80 / 100 <= blend (713 / 999) <= 802 / 1000) by (unfold blend; lra).
    set (w := blend (INR k / 999)) in *. set (w2 := blend (713 / 999)) in *. revert Mk. unfold Rabs. destruct (Rcase_abs _), (Rcase_abs _); lra. }
  assert (Bl : 0 < INR l / 999 < 1 / 2).
  { specialize (Ml 433%nat ltac:(lia)). rewrite !Vf in Ml by lia. rewrite wall_level in Ml. pose proof (frac l Hl) as F. rewrite (INR_lit 433) in Ml. change (Z.of_nat 433) with 433%Z in Ml. split.
    - apply Rnot_le_lt. intros C. assert (Z0 : INR l / 999 = 0) by lra. rewrite Z0 in Ml. unfold blend in Ml. revert Ml. unfold Rabs. destruct (Rcase_abs _), (Rcase_abs _); lra.
    - apply Rnot_le_lt. intros C. pose proof (blend_mono (1 / 2) (INR l / 999) ltac:(lra) ltac:(lra)) as B. assert (B' : 1 / 2 <= blend (INR l / 999)) by (unfold blend at 1 in B; lra). clear B.
      set (w := blend (INR l / 999)) in *. unfold blend in Ml. revert Ml. unfold Rabs. destruct (Rcase_abs _), (Rcase_abs _); lra. }
  unfold Str. rewrite E. cbn [rmap fst snd]. destruct (Req_EM_T b 0) as [Z0|Z0]; [exfalso; lra|]. exists (a / b). split; [reflexivity|].
  assert (0 < b) by lra. apply Rmult_lt_reg_r with b; [assumption|]. unfold Rdiv. rewrite Rmult_assoc, Rinv_l, Rmult_1_l, Rmult_1_r by exact Z0. lra.
Qed.
(** The two contracts can be met. *)
Definition wall_coef (k l : Z) : R := (if Z.even k then -3 / 2 else 3 / 2) * (if Z.even l then -1 else 2).
Definition wall_spline (d : matrix) (y x : R) : R := spline_sum wall_coef 3 3 y x.
Definition wall_label (mask : nat -> nat -> bool) (i j : nat) : nat := if mask i j then 1%nat else 0%nat.
Example C41_str_example : interpolates wall_spline wall_acf /\ labels wall_label 3 3 wall_mask.
Proof.
  split.
  - exists wall_coef. cbn [length wall_acf hd]. split; [|split].
    + intros k l. unfold wall_coef. rewrite !Z.even_opp. change (2 * (Z.of_nat 3 - 1))%Z with (2 * 2)%Z. rewrite !Z.even_sub, Z.even_mul. change (Z.even 2) with true. cbn [orb Bool.eqb]. destruct (Z.even k), (Z.even l); repeat split; reflexivity.
    + intros i j Hi Hj. rewrite sum_row.
      destruct i as [|[|[|i]]]; [| | |lia]; (destruct j as [|[|[|j]]]; [| | |lia]); cbn [INR]; try replace (1 + 1) with 2 by lra;
        repeat (first [rewrite line3_node0|rewrite line3_node1|rewrite line3_node2]; cbv beta); unfold wall_coef; cbn [Z.even]; unfold at2, wall_acf; cbn [nth]; lra.
    + reflexivity.
  - split.
    + intros e He. unfold wall_label. destruct (wall_mask (fst e) (snd e)); split; intros H; congruence.
    + intros e f He Hf Me Mf. unfold wall_label. rewrite Me, Mf. split; [intros _|reflexivity]. apply wall_mask_iff in Me, Mf. destruct e as [i j], f as [k l]. cbn [fst snd] in *. destruct Me as [-> ->], Mf as [-> ->].
      apply joined_self; [exact He|]. apply wall_mask_iff. split; reflexivity.
Qed.

(** A constant surface has no border, hence no Sal and no Str: ValueError. *)
Lemma flat_acf k ny nx d p q : (0 < ny)%nat -> (0 < nx)%nat -> acf_new (grid_of (fun _ _ => k) ny nx) = Ok d -> (p < 2 * ny - 1)%nat -> (q < 2 * nx - 1)%nat -> at2 d p q = 0.
Proof.
  intros Hy Hx E Hp Hq. set (dy := (Z.of_nat p - (Z.of_nat ny - 1))%Z). set (dx := (Z.of_nat q - (Z.of_nat nx - 1))%Z).
  pose proof (pairs_enumerate ny nx (2 * (ny - 1) - p) (2 * (nx - 1) - q) ltac:(lia) ltac:(lia)) as HE. set (L := map _ _) in HE.
  replace (Z.of_nat ny - 1 - Z.of_nat (2 * (ny - 1) - p))%Z with dy in HE by (unfold dy; lia). replace (Z.of_nat nx - 1 - Z.of_nat (2 * (nx - 1) - q))%Z with dx in HE by (unfold dx; lia).
  pose proof (C41_lag (fun _ _ => k) ny nx Hy Hx d dy dx L E ltac:(unfold dy; lia) ltac:(unfold dx; lia) HE) as H.
  replace (Z.to_nat (Z.of_nat ny - 1 + dy)) with p in H by (unfold dy; lia). replace (Z.to_nat (Z.of_nat nx - 1 + dx)) with q in H by (unfold dx; lia). rewrite H.
  assert (M : mean_height (fun _ _ => k) ny nx = k).
  { unfold mean_height, meanR. rewrite sumR_map_const, map_length. field. apply not_0_INR. intros C. apply length_zero_iff_nil in C. exact (coords_nonempty ny nx Hy Hx C). }
  unfold products, meanR. rewrite M. rewrite (sumR_ext _ (fun _ => 0)) by (intros; lra). rewrite sumR_map_const. unfold Rdiv. ring.
Qed.
Theorem C41_flat_refuted spline label k ny nx d sx sy s : (0 < ny)%nat -> (0 < nx)%nat -> acf_new (grid_of (fun _ _ => k) ny nx) = Ok d ->
  labels label (length d) (length (hd [] d)) (fun i j => Rltb (level_of d s) (at2 d i j)) ->
  Sal spline label d sx sy s = Err ValueError /\ Str spline label d sx sy s = Err ValueError.
Proof.
  intros Hy Hx E HL. destruct (C41_shape _ ny nx Hy Hx d E) as [S1 S2].
  assert (S3 : length (hd [] d) = (2 * nx - 1)%nat) by (destruct d as [|r d']; [cbn [length] in S1; lia|apply S2; left; reflexivity]).
  assert (Z0 : forall i j, (i < length d)%nat -> (j < length (hd [] d))%nat -> at2 d i j = 0) by (intros i j Hi Hj; rewrite S1 in Hi; rewrite S3 in Hj; exact (flat_acf k ny nx d i j Hy Hx E Hi Hj)).
  assert (Ci : inside (length d) (length (hd [] d)) (centre d)) by (unfold inside, centre; cbn [fst snd]; split; apply Nat.div_lt; lia).
  assert (Lv : level_of d s = 0) by (unfold level_of; rewrite (Z0 _ _ (proj1 Ci) (proj2 Ci)); lra).
  assert (Lab : forall i j, (i < length d)%nat -> (j < length (hd [] d))%nat -> label (fun i j => Rltb (level_of d s) (at2 d i j)) i j = 0%nat).
  { intros i j Hi Hj. apply (proj1 HL (i, j)); [split; assumption|]. cbn [fst snd]. rewrite Lv, Z0 by assumption. unfold Rltb. destruct (Rlt_dec 0 0); [lra|reflexivity]. }
  assert (D : decay_lengths spline label d sx sy s = Err ValueError).
  { unfold decay_lengths. cbv zeta. change (Nat.div (mrows d) 2, Nat.div (mcols d) 2) with (centre d). change (s * point_data d (centre d)) with (level_of d s).
    set (idx := argwhere _ _ _). assert (Ei : idx = []).
    { destruct idx as [|e l] eqn:Ei; [reflexivity|]. exfalso. assert (Hi : In e idx) by (rewrite Ei; left; reflexivity). unfold idx in Hi. apply in_argwhere in Hi. destruct Hi as [[H1 H2] Hb].
      change (mrows d) with (length d) in *. change (mcols d) with (length (hd [] d)) in *. cbv beta in Hb. unfold dilate in Hb. rewrite (Lab (fst e) (snd e) H1 H2) in Hb. rewrite (Lab _ _ (proj1 Ci) (proj2 Ci)) in Hb. discriminate Hb. }
    rewrite Ei. reflexivity. }
  unfold Sal, Str. rewrite D. split; reflexivity.
Qed.
Example C41_flat_example : exists d, acf_new (grid_of (fun _ _ => 3) 2 2) = Ok d /\
  labels wall_label (length d) (length (hd [] d)) (fun i j => Rltb (level_of d (1 / 5)) (at2 d i j)).
Proof.
  destruct (acf_new (grid_of (fun _ _ => 3) 2 2)) as [d|er] eqn:E; [|unfold acf_new in E; rewrite has_missing_grid_of in E; discriminate E].
  exists d. split; [reflexivity|].
  destruct (C41_shape _ 2 2 ltac:(lia) ltac:(lia) d E) as [S1 S2].
  assert (S3 : length (hd [] d) = 3%nat) by (destruct d as [|r d']; [discriminate S1|apply S2; left; reflexivity]). cbn [Nat.mul Nat.add Nat.sub] in S1. rewrite S1, S3.
  assert (Z1 : forall i j, (i < 3)%nat -> (j < 3)%nat -> at2 d i j = 0) by (intros i j Hi Hj; exact (flat_acf 3 2 2 d i j ltac:(lia) ltac:(lia) E Hi Hj)).
  assert (Mf : forall i j, (i < 3)%nat -> (j < 3)%nat -> Rltb (level_of d (1 / 5)) (at2 d i j) = false).
  { intros i j Hi Hj. rewrite Z1 by assumption. unfold level_of, centre. rewrite S1, S3. change (3 / 2)%nat with 1%nat. cbn [fst snd]. rewrite Z1 by lia. unfold Rltb. destruct (Rlt_dec _ _); [lra|reflexivity]. }
  split.
  - intros e He. unfold wall_label. destruct (Rltb _ _); split; congruence.
  - intros e f He Hf Me Mf'. exfalso. rewrite (Mf (fst e) (snd e) (proj1 He) (proj2 He)) in Me. discriminate Me.
Qed.
