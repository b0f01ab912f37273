(** Property theorems C16, C37, C38, C39 (mathutils.py, filter.py). *)
From Coq Require Import Reals List ZArith Lra Lia Permutation.
From Verif Require Import Base RList ModelMath ProofMath.
Import ListNotations.
Local Open Scope R_scope.

(** C16: [transmission sigma lambda] = exp(-(2 pi sigma / lambda)^2 / 2), the amplitude transmission of a Gaussian
    kernel with standard deviation sigma (both in pixels). *)
Theorem C16_half_at_cutoff : forall cutoff step, 0 < cutoff -> 0 < step ->
  exp (- (2 * PI * gauss_sigma_px cutoff step / (cutoff / step)) *
         (2 * PI * gauss_sigma_px cutoff step / (cutoff / step)) / 2) = 1 / 2.
Proof. exact transmission_half. Qed.
(** ... it does not depend on the pixel size, and longer waves pass better. *)
Theorem C16_pixel_size_irrelevant : forall cutoff step step' lambda,
  0 < cutoff -> 0 < step -> 0 < step' -> 0 < lambda ->
  transmission (gauss_sigma_px cutoff step) (lambda / step) = transmission (gauss_sigma_px cutoff step') (lambda / step').
Proof. intros. rewrite !transmission_general; auto. Qed.
Theorem C16_monotone : forall cutoff step l l', 0 < cutoff -> 0 < step -> 0 < l -> l < l' ->
  transmission (gauss_sigma_px cutoff step) (l / step) < transmission (gauss_sigma_px cutoff step) (l' / step).
Proof. exact transmission_mono. Qed.
Example ex_C16 : 0 < gauss_sigma_px 5 (1/2).
Proof.
  unfold gauss_sigma_px, gauss_sigma. assert (P := PI_RGT_0). assert (L := ln2_pos).
  apply Rmult_lt_0_compat; [apply Rdiv_lt_0_compat; lra|apply sqrt_lt_R0; lra].
Qed.

(** C37 *)
Theorem C37_argclosest : forall x xs, xs <> [] ->
  exists i, argclosest x xs = Ok i /\ (i < length xs)%nat /\
    (forall j, (j < length xs)%nat -> Rabs (nth i xs 0 - x) <= Rabs (nth j xs 0 - x)) /\
    (forall j, (j < i)%nat -> Rabs (nth i xs 0 - x) < Rabs (nth j xs 0 - x)).
Proof.
  intros x xs H. destruct (argclosest_ok x xs H) as [i E]. exists i. split; [exact E|]. apply argclosest_spec, E.
Qed.
Theorem C37_argclosest_empty : forall x, argclosest x [] = Err ValueError.
Proof. reflexivity. Qed.
Theorem C37_closest : forall x xs v, closest x xs = Ok v ->
  In v xs /\ forall y, In y xs -> Rabs (v - x) <= Rabs (y - x).
Proof. exact closest_spec. Qed.
Theorem C37_closest_member : forall x xs, In x xs -> closest x xs = Ok x.
Proof. exact closest_member. Qed.
Example ex_C37 : argclosest 2 [1; 4; 3] = Ok 0%nat.
Proof.
  apply argclosest_complete; cbn [length nth]; [lia| |intros; lia].
  intros [|[|[|j]]] Hj; cbn [nth]; try (cbn in Hj; lia); unfold Rabs; repeat destruct Rcase_abs; lra.
Qed.

(** C38: [interp1d xs ys] for distinct nodes *)
Theorem C38_passes_through_nodes : forall xs ys i, length xs = length ys -> NoDup xs -> (i < length xs)%nat ->
  interp1d xs ys (nth i xs 0) = nth i ys 0.
Proof. intros. apply interp1d_node; auto. Qed.
Theorem C38_linear_between_neighbours : forall xs ys i j x, length xs = length ys -> NoDup xs ->
  (i < length xs)%nat -> (j < length xs)%nat -> nth i xs 0 < nth j xs 0 ->
  (forall k, (k < length xs)%nat -> ~ (nth i xs 0 < nth k xs 0 < nth j xs 0)) ->
  nth i xs 0 <= x <= nth j xs 0 ->
  interp1d xs ys x = nth i ys 0 + (nth j ys 0 - nth i ys 0) * ((x - nth i xs 0) / (nth j xs 0 - nth i xs 0)).
Proof. intros. apply interp1d_segment; auto. Qed.
Theorem C38_within_bounds : forall xs ys lo hi x, length xs = length ys -> NoDup xs -> xs <> [] ->
  (forall i, (i < length xs)%nat -> lo <= nth i ys 0 <= hi) -> lo <= interp1d xs ys x <= hi.
Proof. intros. apply interp1d_bounds; auto. Qed.
Theorem C38_preserves_increasing : forall xs ys x x', length xs = length ys -> NoDup xs ->
  (forall i j, (i < length xs)%nat -> (j < length xs)%nat -> nth i xs 0 < nth j xs 0 -> nth i ys 0 <= nth j ys 0) ->
  x <= x' -> interp1d xs ys x <= interp1d xs ys x'.
Proof. intros. apply interp1d_mono; auto. Qed.
Theorem C38_preserves_decreasing : forall xs ys x x', length xs = length ys -> NoDup xs ->
  (forall i j, (i < length xs)%nat -> (j < length xs)%nat -> nth i xs 0 < nth j xs 0 -> nth j ys 0 <= nth i ys 0) ->
  x <= x' -> interp1d xs ys x' <= interp1d xs ys x.
Proof. intros. apply interp1d_anti; auto. Qed.
Theorem C38_clamped_left : forall xs ys i x, length xs = length ys -> NoDup xs -> (i < length xs)%nat ->
  (forall k, (k < length xs)%nat -> nth i xs 0 <= nth k xs 0) -> x <= nth i xs 0 -> interp1d xs ys x = nth i ys 0.
Proof. intros. apply interp1d_left; auto. Qed.
Theorem C38_clamped_right : forall xs ys i x, length xs = length ys -> NoDup xs -> (i < length xs)%nat ->
  (forall k, (k < length xs)%nat -> nth k xs 0 <= nth i xs 0) -> nth i xs 0 <= x -> interp1d xs ys x = nth i ys 0.
Proof. intros. apply interp1d_right; auto. Qed.
Theorem C38_order_irrelevant : forall xs ys xs' ys' x, length xs = length ys -> NoDup xs ->
  Permutation (combine xs ys) (combine xs' ys') -> interp1d xs ys x = interp1d xs' ys' x.
Proof. exact interp1d_order. Qed.
Example ex_C38 : interp1d [3; 1; 2] [30; 10; 50] (3 / 2) = 30.
Proof.
  rewrite (interp1d_segment [3; 1; 2] [30; 10; 50]) with (i := 1%nat) (j := 2%nat); cbn; try lia; try lra.
  - repeat constructor; cbn; intros [|[|[]]] || intros []; try lra; intros [|]; lra.
  - intros [|[|[|k]]] Hk; cbn; try lra. lia.
Qed.

(** C39: for every result of the (external) fit with non-zero period, normalising the sign keeps the function. *)
Theorem C39_normalisation_keeps_function : forall a p x0 y0 x, p <> 0 ->
  sin_at (from_popt a p x0 y0) x = a * sin ((x - x0) / p * 2 * PI) + y0 /\ 0 <= s_a (from_popt a p x0 y0).
Proof. intros. split; [apply from_popt_same; auto|apply from_popt_amp]. Qed.
(** Partial: positive period.  first_extremum is the smallest non-negative position of a global extremum. *)
Theorem C39_first_extremum_partial : forall s, 0 < s_a s -> 0 < s_p s ->
  let ext x := (forall z, sin_at s z <= sin_at s x) \/ (forall z, sin_at s x <= sin_at s z) in
  0 <= first_extremum s /\ ext (first_extremum s) /\ forall x, 0 <= x -> ext x -> first_extremum s <= x.
Proof.
  intros s Ha Hp ext. destruct (first_extremum_ok s Hp) as [[A B] C]. unfold ext. repeat split; auto.
  - apply sin_value_extremum; auto.
  - intros x Hx He. apply first_extremum_least; auto. apply sin_value_extremum; auto.
Qed.
Theorem C39_first_peak_partial : forall s, 0 < s_a s -> 0 < s_p s ->
  let peak x := forall z, sin_at s z <= sin_at s x in
  0 <= first_peak s /\ peak (first_peak s) /\ forall x, 0 <= x -> peak x -> first_peak s <= x.
Proof.
  intros s Ha Hp peak. destruct (first_peak_ok s Hp) as [[A B] C]. unfold peak.
  repeat split; auto.
  - intros z. apply sin_value_peak in C; auto. rewrite C. destruct (sin_at_bound s z); lra.
  - intros x Hx He. apply first_peak_least; auto. apply sin_value_peak; auto.
    assert (P : is_peak s (s_x0 s + s_p s / 4)).
    { unfold is_peak, phase. replace ((s_x0 s + s_p s / 4 - s_x0 s) / s_p s * 2 * PI) with (PI / 2) by (field; lra). apply sin_PI2. }
    apply sin_value_peak in P; auto. specialize (He (s_x0 s + s_p s / 4)). rewrite P in He.
    destruct (sin_at_bound s x); lra.
Qed.
(** Refuted for a negative fitted period (the unbounded fit may return one, and it is not normalised). *)
Theorem C39_negative_period_refuted : exists a p x0 y0, p <> 0 /\ 0 < a /\
  first_extremum (from_popt a p x0 y0) < 0 /\ first_peak (from_popt a p x0 y0) < 0.
Proof.
  exists 1, (-4), 0, 0. unfold from_popt. destruct (Rlt_dec 1 0); [lra|].
  unfold first_extremum, first_peak, floordiv; cbn [s_x0 s_p].
  rewrite (Int_part_unique ((0 + -4 / 4) / (-4 / 2)) 0) by lra.
  rewrite (Int_part_unique ((0 + -4 / 4) / -4) 0) by lra. lra.
Qed.
Example ex_C39 : first_peak (from_popt (-2) 4 0 0) = 3.
Proof.
  unfold from_popt. destruct (Rlt_dec (-2) 0); [|lra]. unfold first_peak, floordiv; cbn [s_x0 s_p].
  rewrite (Int_part_unique ((0 - 4 / 2 + 4 / 4) / 4) (-1)) by lra. lra.
Qed.

Print Assumptions C16_half_at_cutoff.
Print Assumptions C16_pixel_size_irrelevant.
Print Assumptions C16_monotone.
Print Assumptions C37_argclosest.
Print Assumptions C37_argclosest_empty.
Print Assumptions C37_closest.
Print Assumptions C37_closest_member.
Print Assumptions C38_passes_through_nodes.
Print Assumptions C38_linear_between_neighbours.
Print Assumptions C38_within_bounds.
Print Assumptions C38_preserves_increasing.
Print Assumptions C38_preserves_decreasing.
Print Assumptions C38_clamped_left.
Print Assumptions C38_clamped_right.
Print Assumptions C38_order_irrelevant.
Print Assumptions C39_normalisation_keeps_function.
Print Assumptions C39_first_extremum_partial.
Print Assumptions C39_first_peak_partial.
Print Assumptions C39_negative_period_refuted.
