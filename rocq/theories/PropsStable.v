(** C108: parameters are stable: heights that differ by at most e have parameters that differ by at most a few e. *)
From Coq Require Import String Reals List Bool Arith ZArith Lra Lia Permutation.
From Verif Require Import Base RList ModelMath ProofMath ModelHeights ModelParams ProofParams ModelDetrend ModelAfc.
Import ListNotations.
Local Open Scope R_scope.

(** *** Specification *)
(** two numbers at most e apart *)
Definition close (e x y : R) : Prop := Rabs (y - x) <= e.
(** two lists of heights, point by point at most e apart; two grids *)
Definition within (e : R) : list R -> list R -> Prop := Forall2 (close e).
(** the same for grids *)
Definition within2 (e : R) : rgrid -> rgrid -> Prop := Forall2 (within e).
(** a grid of ny rows of nx points *)
Definition shape (g : rgrid) (ny nx : nat) : Prop := length g = ny /\ forall r, In r g -> length r = nx.

(** *** Elementary lemmas *)
Lemma close_iff e x y : close e x y <-> x - e <= y <= x + e.
Proof. unfold close, Rabs. destruct Rcase_abs; split; intros; lra. Qed.
Ltac cl := rewrite ?close_iff in *.
Lemma Forall2_len {A B} (P : A -> B -> Prop) l l' : Forall2 P l l' -> length l = length l'.
Proof. induction 1; cbn; congruence. Qed.
Lemma sum_close e u v : within e u v -> Rabs (sumR v - sumR u) <= INR (length u) * e.
Proof.
  induction 1 as [|x y u v H _ IH]; [cbn; rewrite Rminus_0_r, Rabs_R0; lra|]. rewrite !sumR_cons. cbn [length]. rewrite S_INR. cl.
  apply Rabs_le. unfold Rabs in IH. destruct Rcase_abs in IH; lra.
Qed.
Lemma mean_close e u v : u <> [] -> within e u v -> close e (meanR u) (meanR v).
Proof.
  intros N H. pose proof (sum_close _ _ _ H) as S. unfold meanR. rewrite <- (Forall2_len _ _ _ H).
  assert (P : 0 < INR (length u)) by (apply lt_0_INR; destruct u; [congruence|cbn; lia]).
  unfold close. replace (sumR v / INR (length u) - sumR u / INR (length u)) with ((sumR v - sumR u) / INR (length u)) by (field; lra).
  unfold Rdiv. rewrite Rabs_mult, (Rabs_pos_eq (/ _)) by (apply Rlt_le, Rinv_0_lt_compat, P).
  apply Rmult_le_reg_r with (INR (length u)); [exact P|]. rewrite Rmult_assoc, Rinv_l, Rmult_1_r by lra. lra.
Qed.
Lemma within_map (f g : R -> R) e d u v : (forall x y, close e x y -> close d (f x) (g y)) -> within e u v -> within d (map f u) (map g v).
Proof. intros F. induction 1; cbn; constructor; auto. Qed.
Lemma within_e0 e u v : u <> [] -> within e u v -> 0 <= e.
Proof. intros N H. destruct H as [|x y u v H _]; [congruence|]. unfold close in H. pose proof (Rabs_pos (y - x)). lra. Qed.
Lemma center_close e u v : u <> [] -> within e u v -> within (2 * e) (map (fun x => x - meanR u) u) (map (fun x => x - meanR v) v).
Proof. intros N H. pose proof (mean_close e u v N H) as M. eapply within_map; [|exact H]. intros x y C. cl. lra. Qed.
Lemma max_close e u v m m' : within e u v -> lmax u = Some m -> lmax v = Some m' -> close e m m'.
Proof.
  intros H A B. apply lmax_spec in A as [A1 A2]. apply lmax_spec in B as [B1 B2]. apply In_nth_error in A1 as [i A1]. apply In_nth_error in B1 as [j B1].
  assert (X : forall k x, nth_error u k = Some x -> exists y, nth_error v k = Some y /\ close e x y).
  { clear - H. induction H as [|x y u v C _ IH]; intros [|k] z Hz; try discriminate; [injection Hz as <-; exists y; auto|apply IH, Hz]. }
  assert (Y : forall k y, nth_error v k = Some y -> exists x, nth_error u k = Some x /\ close e x y).
  { clear - H. induction H as [|x y u v C _ IH]; intros [|k] z Hz; try discriminate; [injection Hz as <-; exists x; auto|apply IH, Hz]. }
  destruct (X i m A1) as (y & Hy & Cy). destruct (Y j m' B1) as (x & Hx & Cx). specialize (B2 y (nth_error_In _ _ Hy)). specialize (A2 x (nth_error_In _ _ Hx)). cl. lra.
Qed.
Lemma min_close e u v m m' : within e u v -> lmin u = Some m -> lmin v = Some m' -> close e m m'.
Proof.
  intros H A B. apply lmin_spec in A as [A1 A2]. apply lmin_spec in B as [B1 B2]. apply In_nth_error in A1 as [i A1]. apply In_nth_error in B1 as [j B1].
  assert (X : forall k x, nth_error u k = Some x -> exists y, nth_error v k = Some y /\ close e x y).
  { clear - H. induction H as [|x y u v C _ IH]; intros [|k] z Hz; try discriminate; [injection Hz as <-; exists y; auto|apply IH, Hz]. }
  assert (Y : forall k y, nth_error v k = Some y -> exists x, nth_error u k = Some x /\ close e x y).
  { clear - H. induction H as [|x y u v C _ IH]; intros [|k] z Hz; try discriminate; [injection Hz as <-; exists x; auto|apply IH, Hz]. }
  destruct (X i m A1) as (y & Hy & Cy). destruct (Y j m' B1) as (x & Hx & Cx). specialize (B2 y (nth_error_In _ _ Hy)). specialize (A2 x (nth_error_In _ _ Hx)). cl. lra.
Qed.
(** the triangle inequality *)
Lemma triangle2 a b c d : 0 <= c -> 0 <= d -> sqrt ((a + b) ^ 2 + (c + d) ^ 2) <= sqrt (a ^ 2 + c ^ 2) + sqrt (b ^ 2 + d ^ 2).
Proof.
  intros Hc Hd. pose proof (sqrt_pos (a ^ 2 + c ^ 2)) as P1. pose proof (sqrt_pos (b ^ 2 + d ^ 2)) as P2.
  assert (Q1 : 0 <= a ^ 2 + c ^ 2) by (pose proof (pow2_ge_0 a); pose proof (pow2_ge_0 c); lra).
  assert (Q2 : 0 <= b ^ 2 + d ^ 2) by (pose proof (pow2_ge_0 b); pose proof (pow2_ge_0 d); lra).
  rewrite <- (sqrt_pow2 (sqrt (a ^ 2 + c ^ 2) + sqrt (b ^ 2 + d ^ 2))) by lra. apply sqrt_le_1_alt.
  replace ((sqrt (a ^ 2 + c ^ 2) + sqrt (b ^ 2 + d ^ 2)) ^ 2) with (sqrt (a ^ 2 + c ^ 2) ^ 2 + sqrt (b ^ 2 + d ^ 2) ^ 2 + 2 * (sqrt (a ^ 2 + c ^ 2) * sqrt (b ^ 2 + d ^ 2))) by ring.
  rewrite !pow2_sqrt by assumption. rewrite <- sqrt_mult by assumption.
  assert (K : a * b + c * d <= sqrt ((a ^ 2 + c ^ 2) * (b ^ 2 + d ^ 2))).
  { apply Rle_trans with (Rabs (a * b + c * d)); [apply Rle_abs|]. rewrite <- sqrt_Rsqr_abs. apply sqrt_le_1_alt. unfold Rsqr. pose proof (pow2_ge_0 (a * d - b * c)). nra. }
  lra.
Qed.
Definition ssq (l : list R) : R := sumR (map (fun x => x ^ 2) l).
Lemma ssq_nonneg l : 0 <= ssq l.
Proof. apply sumR_nonneg. intros x Hx. apply in_map_iff in Hx as (y & <- & _). apply pow2_ge_0. Qed.
Lemma norm_close1 e u v : 0 <= e -> within e u v -> sqrt (ssq v) <= sqrt (ssq u) + sqrt (INR (length u)) * e.
Proof.
  intros E. induction 1 as [|x y u v C _ IH]; [unfold ssq; cbn; rewrite sqrt_0; lra|].
  unfold ssq in *. cbn [map length]. rewrite !sumR_cons, S_INR. set (U := sumR (map (fun x => x ^ 2) u)) in *. set (V := sumR (map (fun x => x ^ 2) v)) in *.
  assert (PU : 0 <= U) by apply ssq_nonneg. assert (PV : 0 <= V) by apply ssq_nonneg. pose proof (pos_INR (length u)) as PN.
  apply Rle_trans with (sqrt ((x + (y - x)) ^ 2 + (sqrt U + sqrt (INR (length u)) * e) ^ 2)).
  { apply sqrt_le_1_alt. replace (x + (y - x)) with y by ring. apply Rplus_le_compat_l. rewrite <- (pow2_sqrt V PV). apply pow_incr. split; [apply sqrt_pos|exact IH]. }
  eapply Rle_trans; [apply triangle2; [apply sqrt_pos|apply Rmult_le_pos; [apply sqrt_pos|exact E]]|].
  rewrite pow2_sqrt by exact PU. apply Rplus_le_compat_l.
  rewrite Rpow_mult_distr, pow2_sqrt by exact PN.
  apply Rle_trans with (sqrt ((INR (length u) + 1) * e ^ 2)).
  - apply sqrt_le_1_alt. assert (D : (y - x) ^ 2 <= e ^ 2) by (cl; nra). lra.
  - rewrite sqrt_mult by (try apply pow2_ge_0; lra). rewrite sqrt_pow2 by exact E. apply Rle_refl.
Qed.
Lemma within_sym e u v : within e u v -> within e v u.
Proof. induction 1; constructor; auto. unfold close in *. rewrite Rabs_minus_sym. assumption. Qed.
Lemma norm_close e u v : 0 <= e -> within e u v -> close (sqrt (INR (length u)) * e) (sqrt (ssq u)) (sqrt (ssq v)).
Proof.
  intros E H. pose proof (norm_close1 e u v E H) as A. pose proof (norm_close1 e v u E (within_sym _ _ _ H)) as B. rewrite <- (Forall2_len _ _ _ H) in B. cl. lra.
Qed.
(** root mean square over n numbers, at least as many as there are *)
Lemma rms_close e u v n : 0 < n -> INR (length u) <= n -> 0 <= e -> within e u v -> close e (sqrt (ssq u / n)) (sqrt (ssq v / n)).
Proof.
  intros P L E H. pose proof (norm_close e u v E H) as C.
  rewrite !sqrt_div_alt by exact P. unfold close in *. replace (sqrt (ssq v) / sqrt n - sqrt (ssq u) / sqrt n) with ((sqrt (ssq v) - sqrt (ssq u)) / sqrt n) by (unfold Rdiv; ring).
  assert (Q : 0 < sqrt n) by (apply sqrt_lt_R0, P). unfold Rdiv. rewrite Rabs_mult, (Rabs_pos_eq (/ _)) by (apply Rlt_le, Rinv_0_lt_compat, Q).
  apply Rmult_le_reg_r with (sqrt n); [exact Q|]. rewrite Rmult_assoc, Rinv_l, Rmult_1_r by lra.
  eapply Rle_trans; [exact C|]. rewrite Rmult_comm. apply Rmult_le_compat_l; [exact E|]. apply sqrt_le_1_alt, L.
Qed.

(** *** Height parameters *)
Theorem C108_height (e : R) (d d' : list R) (p : hparams) : within e d d' -> height_parameters d = Ok p ->
  exists p', height_parameters d' = Ok p' /\ close (2 * e) (Sa p) (Sa p') /\ close (2 * e) (Sq p) (Sq p') /\ close (2 * e) (Sp p) (Sp p') /\ close (2 * e) (Sv p) (Sv p') /\
    close (2 * e) (Sz p) (Sz p').
Proof.
  intros H E. assert (N : d <> []) by (intros ->; discriminate). assert (N' : d' <> []) by (intros ->; inversion H; congruence).
  assert (E0 := within_e0 _ _ _ N H). assert (C := center_close e d d' N H). assert (M := mean_close e d d' N H).
  unfold height_parameters in *. set (c := map (fun x => x - meanR d) d) in *. set (c' := map (fun x => x - meanR d') d') in *.
  assert (Nc : c <> []) by (unfold c; destruct d; [congruence|discriminate]). assert (Nc' : c' <> []) by (unfold c'; destruct d'; [congruence|discriminate]).
  destruct (lmin c) as [lo|] eqn:Elo; [|discriminate]. destruct (lmax c) as [hi|] eqn:Ehi; [|discriminate]. injection E as <-.
  destruct (lmin_ex c' Nc') as [lo' Elo']. destruct (lmax_ex c' Nc') as [hi' Ehi']. rewrite Elo', Ehi'. eexists. split; [reflexivity|]. cbn [Sa Sq Sp Sv Sz].
  assert (Lc : length c = length d) by apply map_length. assert (Ld : length d' = length d) by (symmetry; apply (Forall2_len _ _ _ H)).
  assert (P : 0 < INR (length d)) by (apply lt_0_INR; destruct d; [congruence|cbn; lia]).
  split; [|split; [|split; [|split]]].
  - assert (A : within (2 * e) (map Rabs c) (map Rabs c')).
    { eapply within_map; [|exact C]. intros x y K. unfold close in *. eapply Rle_trans; [apply Rabs_triang_inv2|exact K]. }
    apply (mean_close _ (map Rabs c) (map Rabs c')) in A; [|destruct c; [congruence|discriminate]]. unfold meanR in A. rewrite !map_length in A. rewrite Lc in A. replace (length c') with (length d') in A by (symmetry; apply map_length). exact A.
  - assert (Sc : forall l, sumR (map (fun x => x * x) (map Rabs l)) = ssq l).
    { intros l. unfold ssq. rewrite map_map. apply sumR_ext. intros x _. rewrite <- Rabs_mult, Rabs_pos_eq by (replace (x * x) with (x ^ 2) by ring; apply pow2_ge_0). ring. }
    rewrite !Sc, Ld. apply rms_close; [exact P|rewrite Lc; apply Rle_refl|lra|exact C].
  - exact (max_close _ _ _ _ _ C Ehi Ehi').
  - pose proof (min_close _ _ _ _ _ C Elo Elo') as K. unfold close in *. eapply Rle_trans; [apply Rabs_triang_inv2|exact K].
  - assert (Z : forall l lo hi, l <> [] -> lmin (map (fun x => x - meanR l) l) = Some lo -> lmax (map (fun x => x - meanR l) l) = Some hi ->
        exists a b, lmin l = Some a /\ lmax l = Some b /\ hi + Rabs lo = b - a).
    { clear. intros l lo hi N A B. destruct (lmin_ex l N) as [a Ea]. destruct (lmax_ex l N) as [b Eb]. exists a, b. split; [exact Ea|]. split; [exact Eb|].
      apply lmin_spec in Ea as [Ea1 Ea2]. apply lmax_spec in Eb as [Eb1 Eb2]. apply lmin_spec in A as [A1 A2]. apply lmax_spec in B as [B1 B2].
      apply in_map_iff in A1 as (x & <- & A1). apply in_map_iff in B1 as (y & <- & B1).
      assert (X1 := A2 (a - meanR l) ltac:(apply in_map_iff; exists a; auto)). assert (X2 := Ea2 x A1). assert (X3 := B2 (b - meanR l) ltac:(apply in_map_iff; exists b; auto)). assert (X4 := Eb2 y B1).
      destruct (meanR_between l a b N) as [X5 _]; [intros z Hz; split; [apply Ea2, Hz|apply Eb2, Hz]|]. rewrite Rabs_left1 by lra. lra. }
    destruct (Z d lo hi N Elo Ehi) as (a & b & Ea & Eb & ->). destruct (Z d' lo' hi' N' Elo' Ehi') as (a' & b' & Ea' & Eb' & ->).
    pose proof (min_close _ _ _ _ _ H Ea Ea'). pose proof (max_close _ _ _ _ _ H Eb Eb'). cl. lra.
Qed.

(** *** Hybrid parameters *)
Lemma diff1_close e u v : within e u v -> within (2 * e) (diff1 u) (diff1 v).
Proof.
  induction 1 as [|x y u v C H IH]; [constructor|]. destruct H as [|x1 y1 u v C1 H]; [constructor|]. cbn [diff1] in *. constructor; [cl; lra|exact IH].
Qed.
Lemma zip2_close {A B} (P : A -> A -> Prop) (Q : B -> B -> Prop) (f : A -> B -> R) e : (forall a a' b b', P a a' -> Q b b' -> close e (f a b) (f a' b')) ->
  forall u v u' v', Forall2 P u v -> Forall2 Q u' v' -> within e (zip2 f u u') (zip2 f v v').
Proof. intros F u v u' v' H. revert u' v'. induction H as [|x y u v C H IH]; intros u' v' H'; destruct H'; cbn; constructor; auto. apply IH; assumption. Qed.
Lemma diff0_close e g h : within2 e g h -> within2 (2 * e) (diff0 g) (diff0 h).
Proof.
  induction 1 as [|x y g h C H IH]; [constructor|]. destruct H as [|x1 y1 g h C1 H]; [constructor|]. cbn [diff0] in *. constructor; [|exact IH].
  apply (zip2_close (close e) (close e)); [|exact C|exact C1]. intros a a' b b' A B. cl. lra.
Qed.
Lemma diffx_close e g h : within2 e g h -> within2 (2 * e) (diffx g) (diffx h).
Proof. induction 1; cbn; constructor; auto. apply diff1_close. assumption. Qed.
Lemma within_concat e g h : within2 e g h -> within e (concat g) (concat h).
Proof. induction 1 as [|x y g h C H IH]; cbn; [constructor|]. apply Forall2_app; assumption. Qed.
Lemma within2_map (f : R -> R) e d g h : (forall x y, close e x y -> close d (f x) (f y)) -> within2 e g h -> within2 d (map (map f) g) (map (map f) h).
Proof. intros F. induction 1; cbn; constructor; auto. eapply within_map; eassumption. Qed.
Lemma ssq_app u v : ssq (u ++ v) = ssq u + ssq v.
Proof. unfold ssq. rewrite map_app, sumR_app. reflexivity. Qed.
Lemma sum2_concat g : sum2 g = sumR (concat g).
Proof. unfold sum2. induction g as [|r g IH]; [reflexivity|]. cbn [map concat]. rewrite sumR_cons, sumR_app, IH. reflexivity. Qed.
Lemma diff1_length l : length (diff1 l) = (length l - 1)%nat.
Proof. induction l as [|x [|y l] IH]; try reflexivity. cbn [diff1 length] in *. rewrite IH. lia. Qed.
Lemma concat_len {A} (g : list (list A)) nx : (forall r, In r g -> (length r <= nx)%nat) -> (length (concat g) <= length g * nx)%nat.
Proof. induction g as [|r g IH]; intros H; [cbn; lia|]. cbn [concat length]. rewrite app_length. specialize (IH ltac:(intros; apply H; right; assumption)). specialize (H r (or_introl eq_refl)). cbn. lia. Qed.
Lemma zip2_length_le {A B C} (f : A -> B -> C) u v : (length (zip2 f u v) <= length u)%nat.
Proof. revert v. induction u as [|x u IH]; intros [|y v]; cbn; try lia. specialize (IH v). lia. Qed.
Lemma diff0_length_le g : (length (diff0 g) <= length g)%nat.
Proof. induction g as [|x [|y g] IH]; cbn [diff0 length] in *; lia. Qed.
Lemma diff0_rows g nx : (forall r, In r g -> length r = nx) -> forall r, In r (diff0 g) -> (length r <= nx)%nat.
Proof.
  induction g as [|x [|y g] IH]; intros H r Hr; try contradiction. cbn [diff0] in Hr. destruct Hr as [<-|Hr].
  - rewrite <- (H x (or_introl eq_refl)). apply zip2_length_le.
  - apply IH; [intros; apply H; right; assumption|exact Hr].
Qed.
Theorem C108_gradient (e sx sy : R) (g g' : rgrid) (ny nx : nat) : shape g ny nx -> (0 < ny)%nat -> (0 < nx)%nat -> 0 < sx -> 0 < sy -> within2 e g g' ->
  close (3 * e / Rmin sx sy) (Sdq g ny nx sx sy) (Sdq g' ny nx sx sy).
Proof.
  intros [Lg Rg] Py Px Hx Hy H. set (s := Rmin sx sy). assert (Hs : 0 < s) by (unfold s; apply Rmin_glb_lt; assumption).
  assert (S1 : s <= sx) by apply Rmin_l. assert (S2 : s <= sy) by apply Rmin_r.
  assert (E0 : 0 <= e).
  { destruct H as [|r r' g g' C _]; [cbn in Lg; lia|]. apply (within_e0 e r r'); [|exact C]. intros ->. specialize (Rg [] (or_introl eq_refl)). cbn in Rg. lia. }
  set (L := fun h : rgrid => concat (map (map (fun d => d / sx)) (diffx h)) ++ concat (map (map (fun d => d / sy)) (diff0 h))).
  assert (Eq : forall h, Sdq h ny nx sx sy = sqrt (ssq (L h) / (INR ny * INR nx))).
  { intros h. unfold Sdq, L. rewrite ssq_app. do 2 f_equal. unfold ssq. rewrite !sum2_concat. f_equal; (f_equal; rewrite concat_map, map_map; f_equal; apply map_ext; intros r; rewrite map_map; reflexivity). }
  assert (W : within (2 * e / s) (L g) (L g')).
  { assert (D : forall t x y, 0 < t -> s <= t -> close (2 * e) x y -> close (2 * e / s) (x / t) (y / t)).
    { intros t x y Ht Hst C. unfold close in *. replace (y / t - x / t) with ((y - x) * / t) by (unfold Rdiv; ring). rewrite Rabs_mult, (Rabs_pos_eq (/ t)) by (apply Rlt_le, Rinv_0_lt_compat, Ht).
      apply Rmult_le_compat; [apply Rabs_pos|apply Rlt_le, Rinv_0_lt_compat, Ht|exact C|apply Rinv_le_contravar; assumption]. }
    unfold L. apply Forall2_app; apply within_concat.
    - eapply within2_map; [|apply diffx_close; exact H]. intros x y. apply D; assumption.
    - eapply within2_map; [|apply diff0_close; exact H]. intros x y. apply D; assumption. }
  set (n := INR ny * INR nx). assert (P : 0 < n) by (apply Rmult_lt_0_compat; apply lt_0_INR; assumption).
  assert (Len : INR (length (L g)) <= 2 * n).
  { unfold n. rewrite <- mult_INR. change 2 with (INR 2). rewrite <- mult_INR. apply le_INR. unfold L. rewrite app_length.
    assert (A : (length (concat (map (map (fun d => (d / sx)%R)) (diffx g))) <= ny * nx)%nat).
    { eapply Nat.le_trans; [apply (concat_len _ nx)|]; [|unfold diffx; rewrite !map_length, Lg; lia]. intros r Hr. apply in_map_iff in Hr as (q & <- & Hr). unfold diffx in Hr. apply in_map_iff in Hr as (w & <- & Hr).
      rewrite map_length, diff1_length, (Rg w Hr). lia. }
    assert (B : (length (concat (map (map (fun d => (d / sy)%R)) (diff0 g))) <= ny * nx)%nat).
    { eapply Nat.le_trans; [apply (concat_len _ nx)|]; [|rewrite map_length; pose proof (diff0_length_le g); rewrite <- Lg; apply Nat.mul_le_mono_r; assumption].
      intros r Hr. apply in_map_iff in Hr as (q & <- & Hr). rewrite map_length. apply (diff0_rows g nx Rg q Hr). }
    lia. }
  rewrite !Eq. fold n. assert (E1 : 0 <= 2 * e / s) by (apply Rmult_le_pos; [lra|apply Rlt_le, Rinv_0_lt_compat, Hs]).
  assert (C := rms_close _ _ _ (2 * n) ltac:(lra) Len E1 W).
  assert (Sc : forall x, 0 <= x -> sqrt (x / n) = sqrt 2 * sqrt (x / (2 * n))).
  { intros x Hx0. rewrite <- sqrt_mult; [f_equal; field; lra|lra|]. apply Rmult_le_pos; [exact Hx0|apply Rlt_le, Rinv_0_lt_compat; lra]. }
  rewrite !Sc by apply ssq_nonneg. unfold close in *. rewrite <- Rmult_minus_distr_l, Rabs_mult, (Rabs_pos_eq (sqrt 2)) by apply sqrt_pos.
  apply Rle_trans with (3 / 2 * (2 * e / s)); [|right; field; lra].
  apply Rmult_le_compat; [apply sqrt_pos|apply Rabs_pos| |exact C]. rewrite <- (sqrt_pow2 (3 / 2)) by lra. apply sqrt_le_1_alt. lra.
Qed.
Lemma quad_close e sx sy a a' b b' : 0 <= sx -> 0 <= sy -> close (2 * e) a a' -> close (2 * e) b b' -> close (e * (sx + sy)) (quad sx sy a b) (quad sx sy a' b').
Proof.
  intros Hx Hy A B. assert (G : forall a a' b b', close (2 * e) a a' -> close (2 * e) b b' -> quad sx sy a' b' <= quad sx sy a b + e * (sx + sy)).
  { clear a a' b b' A B. intros a a' b b' A B. unfold quad. set (k := sx * sy). set (r := sqrt ((sx * a) ^ 2 + k ^ 2)). set (r' := sqrt ((sx * a') ^ 2 + k ^ 2)).
    assert (N : forall x y z, 0 <= z -> sqrt (x ^ 2 + z) <= sqrt (y ^ 2 + z) + Rabs (x - y)).
    { intros x y z Hz. replace x with (y + (x - y)) at 1 by ring. replace z with ((sqrt z + 0) ^ 2) at 1 by (rewrite Rplus_0_r; apply pow2_sqrt; exact Hz).
      eapply Rle_trans; [apply triangle2; [apply sqrt_pos|lra]|]. rewrite pow2_sqrt by exact Hz. replace ((x - y) ^ 2 + 0 ^ 2) with (Rsqr (x - y)) by (unfold Rsqr; ring). rewrite sqrt_Rsqr_abs. lra. }
    assert (X1 : sqrt ((sy * b') ^ 2 + (sx * a') ^ 2 + k ^ 2) <= sqrt ((sy * b) ^ 2 + (sx * a') ^ 2 + k ^ 2) + Rabs (sy * b' - sy * b)).
    { rewrite !Rplus_assoc. apply N. pose proof (pow2_ge_0 (sx * a')). pose proof (pow2_ge_0 k). lra. }
    assert (X2 : sqrt ((sy * b) ^ 2 + (sx * a') ^ 2 + k ^ 2) <= sqrt ((sy * b) ^ 2 + (sx * a) ^ 2 + k ^ 2) + Rabs (sx * a' - sx * a)).
    { replace ((sy * b) ^ 2 + (sx * a') ^ 2 + k ^ 2) with ((sx * a') ^ 2 + ((sy * b) ^ 2 + k ^ 2)) by ring. replace ((sy * b) ^ 2 + (sx * a) ^ 2 + k ^ 2) with ((sx * a) ^ 2 + ((sy * b) ^ 2 + k ^ 2)) by ring.
      apply N. pose proof (pow2_ge_0 (sy * b)). pose proof (pow2_ge_0 k). lra. }
    assert (Y1 : Rabs (sy * b' - sy * b) <= sy * (2 * e)) by (rewrite <- Rmult_minus_distr_l, Rabs_mult, (Rabs_pos_eq sy) by exact Hy; apply Rmult_le_compat_l; assumption).
    assert (Y2 : Rabs (sx * a' - sx * a) <= sx * (2 * e)) by (rewrite <- Rmult_minus_distr_l, Rabs_mult, (Rabs_pos_eq sx) by exact Hx; apply Rmult_le_compat_l; assumption).
    lra. }
  pose proof (G a a' b b' A B). assert (A' : close (2 * e) a' a) by (unfold close in *; rewrite Rabs_minus_sym; assumption). assert (B' : close (2 * e) b' b) by (unfold close in *; rewrite Rabs_minus_sym; assumption).
  pose proof (G a' a b' b A' B'). cl. lra.
Qed.
Lemma Forall2_removelast {A B} (P : A -> B -> Prop) u v : Forall2 P u v -> Forall2 P (removelast u) (removelast v).
Proof. induction 1 as [|x y u v C H IH]; [constructor|]. destruct H; [constructor|]. cbn [removelast] in *. constructor; [exact C|exact IH]. Qed.
Theorem C108_area (e sx sy : R) (g g' : rgrid) (ny nx : nat) : shape g ny nx -> (0 < ny)%nat -> (0 < nx)%nat -> 0 < sx -> 0 < sy -> within2 e g g' ->
  close (2 * (INR ny * INR nx) * e * (sx + sy)) (surface_area g sx sy) (surface_area g' sx sy).
Proof.
  intros [Lg Rg] Py Px Hx Hy H.
  assert (E0 : 0 <= e).
  { destruct H as [|r r' g g' C _]; [cbn in Lg; lia|]. apply (within_e0 e r r'); [|exact C]. intros ->. specialize (Rg [] (or_introl eq_refl)). cbn in Rg. lia. }
  assert (W : within2 (e * (sx + sy)) (areas g sx sy) (areas g' sx sy)).
  { unfold areas. assert (A : within2 (2 * e) (map (@removelast R) (diff0 g)) (map (@removelast R) (diff0 g'))).
    { pose proof (diff0_close e g g' H) as D. induction D; cbn; constructor; auto. apply Forall2_removelast. assumption. }
    assert (B : within2 (2 * e) (removelast (diffx g)) (removelast (diffx g'))) by (apply Forall2_removelast, diffx_close, H).
    revert B. generalize (removelast (diffx g)) (removelast (diffx g')). induction A as [|x y u v C A IH]; intros u' v' B; destruct B as [|x' y' u' v' C' B]; cbn; constructor; [|apply IH; assumption].
    apply (zip2_close (close (2 * e)) (close (2 * e))); [|exact C|exact C']. intros a a' b b' Ha Hb. apply quad_close; try lra; assumption. }
  apply within_concat, sum_close in W. unfold surface_area. rewrite !sum2_concat. unfold close.
  rewrite <- Rmult_minus_distr_l, Rabs_mult, (Rabs_pos_eq 2) by lra. set (k := e * (sx + sy)) in *. assert (Hk : 0 <= k) by (apply Rmult_le_pos; lra).
  assert (Len : INR (length (concat (areas g sx sy))) <= INR ny * INR nx).
  { rewrite <- mult_INR. apply le_INR. eapply Nat.le_trans; [apply (concat_len _ nx)|].
    - intros r Hr. assert (Z : forall u v, In r (zip2 (zip2 (fun dzy dzx => quad sx sy dzx dzy)) u v) -> exists q, In q u /\ (length r <= length q)%nat).
      { clear. induction u as [|x u IH]; intros [|y v] Hr; try contradiction. destruct Hr as [<-|Hr]; [exists x; split; [left; reflexivity|apply zip2_length_le]|]. destruct (IH v Hr) as (q & A & B). exists q. split; [right; exact A|exact B]. }
      apply Z in Hr as (q & A & B). apply in_map_iff in A as (w & <- & A). pose proof (diff0_rows g nx Rg w A). assert (RL : (length (removelast w) <= length w)%nat) by (clear; induction w as [|x [|y w] IH]; cbn [removelast length] in *; lia). lia.
    - apply Nat.mul_le_mono_r. unfold areas. eapply Nat.le_trans; [apply zip2_length_le|]. rewrite map_length. pose proof (diff0_length_le g). lia. }
  replace (2 * (INR ny * INR nx) * e * (sx + sy)) with (2 * (INR ny * INR nx * k)) by (unfold k; ring).
  apply Rmult_le_compat_l; [lra|]. eapply Rle_trans; [exact W|]. apply Rmult_le_compat_r; assumption.
Qed.
Theorem C108_Sdr (e sx sy : R) (g g' : rgrid) (ny nx : nat) (a : R) : shape g ny nx -> (0 < ny)%nat -> (0 < nx)%nat -> 0 < sx -> 0 < sy -> within2 e g g' ->
  Sdr g ny nx sx sy = Some a -> exists a', Sdr g' ny nx sx sy = Some a' /\ close (100 * (2 * (INR ny * INR nx) * e * (sx + sy)) / Rabs (projected_area ny nx sx sy)) a a'.
Proof.
  intros S0 Py Px Hx Hy H. pose proof (C108_area e sx sy g g' ny nx S0 Py Px Hx Hy H) as K. unfold Sdr, ndiv. set (p := projected_area ny nx sx sy). set (A := surface_area g sx sy) in *. set (A' := surface_area g' sx sy) in *.
  destruct (Req_EM_T p 0) as [Z|Z]; [discriminate|]. cbn [option_map]. intros [= <-]. eexists. split; [reflexivity|]. unfold close in *.
  replace ((A' / p - 1) * 100 - (A / p - 1) * 100) with ((A' - A) * (100 * / p)) by (field; exact Z).
  rewrite Rabs_mult, Rabs_mult, Rabs_inv, (Rabs_pos_eq 100) by lra. pose proof (Rabs_pos_lt p Z) as P. apply Rinv_0_lt_compat in P.
  set (B := 2 * (INR ny * INR nx) * e * (sx + sy)) in *. unfold Rdiv. replace (100 * B * / Rabs p) with (B * (100 * / Rabs p)) by ring.
  apply Rmult_le_compat_r; [lra|exact K].
Qed.

(** *** The material ratio curve *)
Lemma insert_close e : forall u v a b, sorted u -> sorted v -> within e u v -> close e a b -> within e (insertR a u) (insertR b v).
Proof.
  induction u as [|x u IH]; intros v a b Su Sv H C; inversion H as [|x' y u' v' Cx Hv]; subst; cbn [insertR]; [constructor; [exact C|constructor]|].
  assert (Si : forall z l, sorted (z :: l) -> (forall w, In w l -> z <= w) /\ sorted l) by (intros z l Hz; inversion Hz; auto).
  apply Si in Su as [Su1 Su2]. apply Si in Sv as [Sv1 Sv2].
  assert (Ix : forall z l, sorted l -> (forall w, In w l -> z <= w) -> insertR z l = z :: l).
  { intros z [|w l] _ Hw; [reflexivity|]. cbn. destruct (Rle_dec z w); [reflexivity|]. exfalso. specialize (Hw w (or_introl eq_refl)). lra. }
  destruct (Rle_dec a x) as [L|L], (Rle_dec b y) as [L'|L'].
  - constructor; [exact C|constructor; assumption].
  - constructor; [cl; lra|]. rewrite <- (Ix x u Su2 Su1). apply IH; try assumption. cl. lra.
  - constructor; [cl; lra|]. rewrite <- (Ix y v' Sv2 Sv1). apply IH; try assumption. cl. lra.
  - constructor; [exact Cx|]. apply IH; assumption.
Qed.
Lemma sort_close e u v : within e u v -> within e (sortR u) (sortR v).
Proof. induction 1 as [|x y u v C H IH]; cbn [sortR]; [constructor|]. apply insert_close; auto using sortR_sorted. Qed.
Lemma nth_close e u v k : within e u v -> (k < length u)%nat -> close e (nth k u 0) (nth k v 0).
Proof. intros H. revert k. induction H as [|x y u v C H IH]; intros [|k] L; cbn in *; try lia; [exact C|]. apply IH. lia. Qed.
Lemma quantile_close e u v q : u <> [] -> 0 <= q <= 1 -> within e u v -> close e (quantile u q) (quantile v q).
Proof.
  intros N Q H. pose proof (sort_close _ _ _ H) as So. pose proof (Forall2_len _ _ _ So) as L. unfold quantile. rewrite <- L. set (n := length (sortR u)) in *.
  assert (Hn : (1 <= n)%nat) by (unfold n; rewrite sortR_length; destruct u; [congruence|cbn; lia]).
  set (w := q * (INR n - 1)). assert (K1 : 1 <= INR n) by (apply (le_INR 1); exact Hn).
  assert (W : 0 <= w <= INR n - 1) by (unfold w; split; nra).
  destruct (base_Int_part w) as [B1 B2]. assert (Zp : (0 <= Int_part w)%Z). { apply le_IZR. apply Rnot_lt_le. intros X. assert (Y : (Int_part w <= -1)%Z) by (apply lt_IZR in X; lia). apply IZR_le in Y. lra. }
  set (k := Z.to_nat (Int_part w)). assert (Ek : INR k = IZR (Int_part w)) by (unfold k; rewrite INR_IZR_INZ, Z2Nat.id by exact Zp; reflexivity).
  assert (Kn : (k < n)%nat). { apply INR_lt. rewrite Ek. lra. }
  pose proof (nth_close e _ _ k So Kn) as C1. pose proof (nth_close e _ _ (Nat.min (S k) (n - 1)) So ltac:(fold n; lia)) as C2.
  assert (T : 0 <= w - INR k < 1) by (rewrite Ek; lra). revert C1 C2. generalize (nth k (sortR u) 0) (nth k (sortR v) 0) (nth (Nat.min (S k) (n - 1)) (sortR u) 0) (nth (Nat.min (S k) (n - 1)) (sortR v) 0).
  intros a a' b b' C1 C2. cl. nra.
Qed.
Definition close_pt (e : R) (p q : R * R) : Prop := fst p = fst q /\ close e (snd p) (snd q).
Lemma insert_pt_close e p q l l' : Forall2 (close_pt e) l l' -> close_pt e p q -> Forall2 (close_pt e) (insert_pt p l) (insert_pt q l').
Proof.
  intros H. revert p q. induction H as [|x y l l' C H IH]; intros p q K; cbn [insert_pt]; [constructor; [exact K|constructor]|].
  destruct K as [K1 K2], C as [C1 C2]. rewrite K1, C1. destruct (Rle_dec (fst q) (fst y)); constructor; try (split; assumption); [constructor; [split; assumption|exact H]|]. apply IH. split; assumption.
Qed.
Lemma interp_close e l l' x : Forall2 (close_pt e) l l' -> 0 <= e -> close e (interp l x) (interp l' x).
Proof.
  intros H E. induction H as [|[x0 y0] [x0' y0'] l l' [C1 C2] H IH]; [cbn; cl; lra|]. cbn in C1, C2. subst x0'.
  destruct H as [|[x1 y1] [x1' y1'] l l' [D1 D2] H]; [exact C2|]. cbn in D1, D2. subst x1'. cbn [interp]. destruct (Rlt_dec x x1) as [L|L]; [|exact IH]. destruct (Rle_dec x x0) as [L'|L']; [exact C2|].
  assert (P : 0 < x1 - x0) by lra. set (t := (x - x0) / (x1 - x0)).
  assert (T : 0 <= t <= 1). { unfold t. split; [apply Rmult_le_pos; [lra|apply Rlt_le, Rinv_0_lt_compat, P]|]. apply Rmult_le_reg_r with (x1 - x0); [exact P|]. unfold Rdiv. rewrite Rmult_assoc, Rinv_l by lra. lra. }
  replace ((y1 - y0) / (x1 - x0) * (x - x0) + y0) with (y0 + t * (y1 - y0)) by (unfold t; field; lra). replace ((y1' - y0') / (x1 - x0) * (x - x0) + y0') with (y0' + t * (y1' - y0')) by (unfold t; field; lra).
  clear IH. cl. nra.
Qed.
(** every height read off the material ratio curve *)
Theorem C108_curve (e : R) (nbins : nat) (d d' : list R) (p : R) : d <> [] -> within e d d' -> close e (mc (material_curve nbins d) p) (mc (material_curve nbins d') p).
Proof.
  intros N H. assert (E0 := within_e0 _ _ _ N H). unfold mc, interp1d. apply interp_close; [|exact E0].
  assert (K : forall l l', Forall2 (close_pt e) l l' -> Forall2 (close_pt e) (sort_pts l) (sort_pts l')) by (induction 1; cbn [sort_pts]; [constructor|apply insert_pt_close; assumption]).
  apply K. assert (Cm : forall l : list (R * R), combine (map fst l) (map snd l) = l) by (induction l as [|[a b] l IH]; cbn; congruence). rewrite !Cm.
  unfold material_curve. assert (B : forall m, In m (linspace 0 100 nbins) -> 0 <= m <= 100).
  { intros m Hm. unfold linspace in Hm. apply in_map_iff in Hm as (i & <- & Hi). apply in_seq in Hi. assert (Hi' : (i <= nbins - 1)%nat) by lia. apply le_INR in Hi'. rewrite minus_INR in Hi' by lia. cbn [INR] in Hi'. pose proof (pos_INR i) as Pi.
    destruct (Req_EM_T (INR nbins - 1) 0) as [Z|Z].
    - unfold Rdiv. replace (INR i) with 0 by lra. lra.
    - assert (P : 0 < INR nbins - 1) by lra. assert (T : 0 <= INR i / (INR nbins - 1) <= 1). { split; [apply Rmult_le_pos; [lra|apply Rlt_le, Rinv_0_lt_compat, P]|]. apply Rmult_le_reg_r with (INR nbins - 1); [exact P|]. unfold Rdiv. rewrite Rmult_assoc, Rinv_l by lra. lra. }
      replace (0 + (100 - 0) * INR i / (INR nbins - 1)) with (100 * (INR i / (INR nbins - 1))) by (field; lra). lra. }
  induction (linspace 0 100 nbins) as [|m l IH]; cbn [map]; constructor.
  - split; [reflexivity|]. cbn [fst snd]. apply quantile_close; [exact N| |exact H]. specialize (B m (or_introl eq_refl)). lra.
  - apply IH. intros; apply B; right; assumption.
Qed.
Lemma afc_curve polyfit nbins h a : afc_init polyfit nbins h = Ok a -> a_curve a = material_curve nbins (measured h).
Proof.
  unfold afc_init. destruct (existsb is_nan h); [discriminate|]. destruct (measured h) as [|x d]; [discriminate|]. destruct (central _ _ _ _ _); [|discriminate]. cbn [rbind]. intros [= <-]. reflexivity.
Qed.
(** so Sdc and Sxp *)
Theorem C108_Sdc (e : R) (polyfit : lsq_solver) (nbins : nat) (d d' : list R) (a a' : afc) (p q : R) : d <> [] -> within e d d' ->
  afc_init polyfit nbins (map Some d) = Ok a -> afc_init polyfit nbins (map Some d') = Ok a' -> close (2 * e) (dc a p q) (dc a' p q) /\ close (2 * e) (sxp a p q) (sxp a' p q).
Proof.
  intros N H A B. unfold dc, sxp. apply afc_curve in A. apply afc_curve in B. rewrite A, B.
  assert (M : forall l : list R, measured (map Some l) = l) by (induction l as [|x l IH]; cbn; [reflexivity|now f_equal]). rewrite !M.
  pose proof (C108_curve e nbins d d' p N H). pose proof (C108_curve e nbins d d' q N H). split; cl; lra.
Qed.

(** *** Profiles *)
Lemma split_close e : forall sizes u v, within e u v -> Forall2 (within e) (split_sizes u sizes) (split_sizes v sizes).
Proof.
  assert (F : forall k u v, within e u v -> within e (firstn k u) (firstn k v) /\ within e (skipn k u) (skipn k v)).
  { induction k as [|k IH]; intros u v H; [split; [constructor|exact H]|]. destruct H as [|x y u v C H]; [split; constructor|]. destruct (IH u v H) as [A B]. split; [constructor; assumption|exact B]. }
  induction sizes as [|k ks IH]; intros u v H; cbn [split_sizes]; constructor; [apply F, H|apply IH, F, H].
Qed.
Lemma getmax_close e u v : 0 <= e -> within e u v -> close e (getmax u) (getmax v).
Proof.
  intros E H. unfold getmax. destruct (lmax u) as [m|] eqn:A, (lmax v) as [m'|] eqn:B; [exact (max_close _ _ _ _ _ H A B)| | |cl; lra];
  destruct H; cbn in A, B; discriminate.
Qed.
Lemma getmin_close e u v : 0 <= e -> within e u v -> close e (getmin u) (getmin v).
Proof.
  intros E H. unfold getmin. destruct (lmin u) as [m|] eqn:A, (lmin v) as [m'|] eqn:B; [exact (min_close _ _ _ _ _ H A B)| | |cl; lra];
  destruct H; cbn in A, B; discriminate.
Qed.
Lemma mean_close0 e u v : 0 <= e -> within e u v -> close e (meanR u) (meanR v).
Proof. intros E H. destruct H as [|x y u v C H]; [cl; lra|]. apply mean_close; [discriminate|constructor; assumption]. Qed.
Theorem C108_sections (e : R) (d d' : list R) (n : Z) (r : R) : d <> [] -> within e d d' ->
  (Rp d n = Ok r -> exists r', Rp d' n = Ok r' /\ close (2 * e) r r') /\ (Rv d n = Ok r -> exists r', Rv d' n = Ok r' /\ close (2 * e) r r') /\
  (Rz d n = Ok r -> exists r', Rz d' n = Ok r' /\ close (4 * e) r r') /\ (Rt d = Ok r -> exists r', Rt d' = Ok r' /\ close (2 * e) r r').
Proof.
  intros N H. assert (E0 := within_e0 _ _ _ N H). pose proof (Forall2_len _ _ _ H) as L.
  assert (Sd : forall s, sectioned_data d n = Ok s -> exists s', sectioned_data d' n = Ok s' /\ Forall2 (within (2 * e)) s s').
  { intros s Es. unfold sectioned_data in *. rewrite <- L. destruct (n <? 1)%Z; [discriminate|]. destruct (_ <? n)%Z; [discriminate|]. injection Es as <-. eexists. split; [reflexivity|]. apply split_close, center_close; assumption. }
  assert (Mp : forall (f : list R -> R) k, (forall u v, within (2 * e) u v -> close k (f u) (f v)) -> forall s s', Forall2 (within (2 * e)) s s' -> within k (map f s) (map f s')) by (intros f k F; induction 1; cbn; constructor; auto).
  split; [|split; [|split]].
  - unfold Rp. destruct (sectioned_data d n) as [s|]; [|discriminate]. destruct (Sd s eq_refl) as (s' & -> & C). cbn [rbind]. intros [= <-]. eexists. split; [reflexivity|]. apply mean_close0; [lra|].
    apply Mp; [|exact C]. intros u v Hu. apply getmax_close; [lra|exact Hu].
  - unfold Rv. destruct (sectioned_data d n) as [s|]; [|discriminate]. destruct (Sd s eq_refl) as (s' & -> & C). cbn [rbind]. intros [= <-]. eexists. split; [reflexivity|]. apply mean_close0; [lra|].
    apply Mp; [|exact C]. intros u v Hu. pose proof (getmin_close (2 * e) u v ltac:(lra) Hu) as K. unfold close in *. eapply Rle_trans; [apply Rabs_triang_inv2|exact K].
  - unfold Rz. destruct (sectioned_data d n) as [s|]; [|discriminate]. destruct (Sd s eq_refl) as (s' & -> & C). cbn [rbind]. intros [= <-]. eexists. split; [reflexivity|]. apply mean_close0; [lra|].
    apply Mp; [|exact C]. intros u v Hu. pose proof (getmin_close (2 * e) u v ltac:(lra) Hu). pose proof (getmax_close (2 * e) u v ltac:(lra) Hu). cl. lra.
  - unfold Rt. destruct (lmax d) as [a|] eqn:A; [|discriminate]. destruct (lmin d) as [b|] eqn:B; [|discriminate]. intros [= <-]. assert (N' : d' <> []) by (intros ->; inversion H; congruence).
    destruct (lmax_ex d' N') as [a' A']. destruct (lmin_ex d' N') as [b' B']. rewrite A', B'. eexists. split; [reflexivity|]. pose proof (max_close _ _ _ _ _ H A A'). pose proof (min_close _ _ _ _ _ H B B'). cl. lra.
Qed.
Theorem C108_profile (e step : R) (d d' : list R) : d <> [] -> within e d d' -> 0 < step ->
  close (2 * e) (Ra d) (Ra d') /\ close (2 * e) (Rq d) (Rq d') /\ close (2 * e / step) (Rdq d step) (Rdq d' step).
Proof.
  intros N H Hs. assert (E0 := within_e0 _ _ _ N H). pose proof (Forall2_len _ _ _ H) as L. pose proof (center_close e d d' N H) as C.
  assert (P : 0 < INR (length d)) by (apply lt_0_INR; destruct d; [congruence|cbn; lia]).
  split; [|split].
  - unfold Ra. rewrite <- L. assert (A : within (2 * e) (map (fun x => Rabs (x - meanR d)) d) (map (fun x => Rabs (x - meanR d')) d')).
    { rewrite <- (map_map (fun x => x - meanR d) Rabs), <- (map_map (fun x => x - meanR d') Rabs). eapply within_map; [|exact C]. intros x y K. unfold close in *. eapply Rle_trans; [apply Rabs_triang_inv2|exact K]. }
    apply mean_close0 in A; [|lra]. unfold meanR at 1 3 in A. rewrite !map_length, <- L in A. exact A.
  - unfold Rq. rewrite <- L. assert (Sc : forall l m, sumR (map (fun x => (x - m) ^ 2) l) = ssq (map (fun x => x - m) l)) by (intros; unfold ssq; rewrite map_map; reflexivity).
    rewrite !Sc. apply rms_close; [exact P|rewrite map_length; apply Rle_refl|lra|exact C].
  - unfold Rdq. pose proof (diff1_close e d d' H) as D. assert (D' : within (2 * e / step) (map (fun x => x / step) (diff1 d)) (map (fun x => x / step) (diff1 d'))).
    { eapply within_map; [|exact D]. intros x y K. unfold close in *. replace (y / step - x / step) with ((y - x) * / step) by (unfold Rdiv; ring). rewrite Rabs_mult, (Rabs_pos_eq (/ step)) by (apply Rlt_le, Rinv_0_lt_compat, Hs).
      apply Rmult_le_compat_r; [apply Rlt_le, Rinv_0_lt_compat, Hs|exact K]. }
    assert (E1 : 0 <= 2 * e / step) by (apply Rmult_le_pos; [lra|apply Rlt_le, Rinv_0_lt_compat, Hs]).
    unfold meanR. rewrite !map_length, !diff1_length, <- L.
    assert (Sc : forall l, sumR (map (fun x => (x / step) ^ 2) l) = ssq (map (fun x => x / step) l)) by (intros; unfold ssq; rewrite map_map; reflexivity). rewrite !Sc.
    destruct (Nat.eq_dec (length d - 1) 0) as [Z|Z].
    + assert (Z1 : forall l, (length l - 1 = 0)%nat -> diff1 l = []) by (intros [|x [|y l]]; cbn; intros; try reflexivity; lia). rewrite !Z1 by lia. cl. lra.
    + apply rms_close; [apply lt_0_INR; lia|rewrite map_length, diff1_length; apply Rle_refl|exact E1|exact D'].
Qed.

(** Skewness is not stable: near flatness an arbitrarily small change turns it from more than 1 to less than -1. *)
Theorem C108_skewness_refuted : forall e, 0 < e -> exists d d' p p', within e d d' /\ height_parameters d = Ok p /\ height_parameters d' = Ok p' /\
  exists a b, Ssk p = Some a /\ Ssk p' = Some b /\ a - b > 2.
Proof.
  intros e He. exists [0; 0; 0; e], [0; e; e; e].
  assert (Q3 : sqrt 3 * sqrt 3 = 3) by (apply sqrt_sqrt; lra). pose proof (sqrt_lt_R0 3 ltac:(lra)) as P3.
  assert (L3 : sqrt 3 < 2) by (rewrite <- (sqrt_pow2 2) by lra; apply sqrt_lt_1_alt; lra).
  assert (M1 : meanR [0; 0; 0; e] = e / 4) by (unfold meanR, sumR; cbn; lra). assert (M2 : meanR [0; e; e; e] = 3 * e / 4) by (unfold meanR, sumR; cbn; lra).
  unfold height_parameters. rewrite M1, M2. cbn [map lmin lmax length].
  eexists. eexists. split; [do 4 (apply Forall2_cons; [cl; lra|]); apply Forall2_nil|]. split; [reflexivity|]. split; [reflexivity|]. cbn [Ssk].
  assert (S1 : sqrt (sumR [Rabs (0 - e / 4) * Rabs (0 - e / 4); Rabs (0 - e / 4) * Rabs (0 - e / 4); Rabs (0 - e / 4) * Rabs (0 - e / 4); Rabs (e - e / 4) * Rabs (e - e / 4)] / INR 4) = e * sqrt 3 / 4).
  { rewrite (Rabs_left (0 - e / 4)), (Rabs_pos_eq (e - e / 4)) by lra. replace (_ / INR 4) with ((e * sqrt 3 / 4) ^ 2); [apply sqrt_pow2; nra|]. unfold sumR. cbn [fold_right INR]. replace ((e * sqrt 3 / 4) ^ 2) with (e * e * (sqrt 3 * sqrt 3) / 16) by field. rewrite Q3. field. }
  assert (S2 : sqrt (sumR [Rabs (0 - 3 * e / 4) * Rabs (0 - 3 * e / 4); Rabs (e - 3 * e / 4) * Rabs (e - 3 * e / 4); Rabs (e - 3 * e / 4) * Rabs (e - 3 * e / 4); Rabs (e - 3 * e / 4) * Rabs (e - 3 * e / 4)] / INR 4) = e * sqrt 3 / 4).
  { rewrite (Rabs_left (0 - 3 * e / 4)), (Rabs_pos_eq (e - 3 * e / 4)) by lra. replace (_ / INR 4) with ((e * sqrt 3 / 4) ^ 2); [apply sqrt_pow2; nra|]. unfold sumR. cbn [fold_right INR]. replace ((e * sqrt 3 / 4) ^ 2) with (e * e * (sqrt 3 * sqrt 3) / 16) by field. rewrite Q3. field. }
  rewrite S1, S2. assert (P : 0 < e * sqrt 3 / 4) by nra. assert (P' : 0 < (e * sqrt 3 / 4) ^ 3) by (apply pow_lt, P).
  unfold ndiv. destruct (Req_EM_T _ 0); [lra|]. eexists. eexists. split; [reflexivity|]. split; [reflexivity|].
  rewrite (Rabs_left (0 - e / 4)), (Rabs_pos_eq (e - e / 4)), (Rabs_left (0 - 3 * e / 4)), (Rabs_pos_eq (e - 3 * e / 4)) by lra.
  unfold sumR. cbn [fold_right INR].
  match goal with |- ?A / ?D - ?B / ?D > 2 => replace (A / D - B / D) with ((A - B) / D) by (field; lra) end.
  apply Rlt_gt, Rmult_lt_reg_r with ((e * sqrt 3 / 4) ^ 3); [exact P'|]. unfold Rdiv at 2. rewrite Rmult_assoc, Rinv_l, Rmult_1_r by lra.
  replace ((e * sqrt 3 / 4) ^ 3) with (e ^ 3 * (sqrt 3 * sqrt 3) * sqrt 3 / 64) by field. rewrite Q3. assert (E3 : 0 < e ^ 3) by (apply pow_lt, He). nra.
Qed.

(** *** Example: a tilted row of three points, measured twice with a noise of 1/10 *)
Example C108_example : within (1 / 10) [0; 1; 2] [0; 11 / 10; 19 / 10] /\ [0; 1; 2] <> [] /\
  (exists p, height_parameters [0; 1; 2] = Ok p /\ Sz p = 2) /\ within2 (1 / 10) [[0; 1]; [1; 2]] [[0; 11 / 10]; [1; 19 / 10]] /\ shape [[0; 1]; [1; 2]] 2 2 /\
  (exists r, Rp [0; 1; 2] 1 = Ok r).
Proof.
  split; [do 3 (apply Forall2_cons; [cl; lra|]); apply Forall2_nil|]. split; [discriminate|]. split.
  - assert (M : meanR [0; 1; 2] = 1) by (unfold meanR, sumR; cbn; lra). unfold height_parameters. rewrite M.
    assert (A : lmin (map (fun x => x - 1) [0; 1; 2]) = Some (-1)) by (apply lmin_spec; split; [left; lra|intros y [<-|[<-|[<-|[]]]]; lra]).
    assert (B : lmax (map (fun x => x - 1) [0; 1; 2]) = Some 1) by (apply lmax_spec; split; [right; right; left; lra|intros y [<-|[<-|[<-|[]]]]; lra]).
    rewrite A, B. eexists. split; [reflexivity|]. cbn [Sz]. rewrite Rabs_left1 by lra. lra.
  - split; [do 2 (apply Forall2_cons; [do 2 (apply Forall2_cons; [cl; lra|]); apply Forall2_nil|]); apply Forall2_nil|].
    split; [split; [reflexivity|intros r [<-|[<-|[]]]; reflexivity]|]. eexists. reflexivity.
Qed.
