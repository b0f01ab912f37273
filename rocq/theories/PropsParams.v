(** Property theorems C22-C26, C29, C30 (surface.py:864-1040, 1457-1529, profile.py:286-447). *)
From Coq Require Import String Reals List Bool Arith ZArith Lra Lia Permutation.
From Verif Require Import Base RList ModelMath ModelParams ProofParams.
Import ListNotations.
Local Open Scope R_scope.

(** ** C22 *)
Definition flat (d : list R) : Prop := forall x y, In x d -> In y d -> x = y.
Theorem C22_range : forall d h lo hi, height_parameters d = Ok h -> is_min lo d -> is_max hi d ->
  Sp h = hi - meanR d /\ Sv h = meanR d - lo /\ Sz h = Sp h + Sv h /\ Sz h = hi - lo /\ 0 <= Sp h /\ 0 <= Sv h.
Proof.
  intros d h lo hi E Hlo Hhi. assert (H : d <> []) by (intros ->; destruct Hlo as [[] _]).
  assert (A : is_min (lo - meanR d) (centered d)) by (apply (is_min_map_mono (fun x => x - meanR d)); [intros; lra|exact Hlo]).
  assert (B : is_max (hi - meanR d) (centered d)) by (apply (is_max_map_mono (fun x => x - meanR d)); [intros; lra|exact Hhi]).
  rewrite (hp_spec d _ _ A B) in E. injection E as <-. assert (S := centered_sign d _ _ H A B). cbn.
  rewrite Rabs_left1 by lra. lra.
Qed.
Theorem C22_means : forall d h, d <> [] -> height_parameters d = Ok h ->
  Sa h = meanR (map (fun x => Rabs (x - meanR d)) d) /\
  Sq h = sqrt (meanR (map (fun x => (x - meanR d) ^ 2) d)).
Proof.
  intros d h H E. destruct (hp_ok d H) as (lo & hi & A & B & E'). rewrite E' in E. injection E as <-. cbn.
  unfold mom, centered. rewrite !map_map. split; reflexivity.
Qed.
Theorem C22_inequalities : forall d h, d <> [] -> height_parameters d = Ok h ->
  0 <= Sa h /\ Sa h <= Sq h /\ Sq h <= Rmax (Sp h) (Sv h).
Proof.
  intros d h H E. destruct (hp_ok d H) as (lo & hi & A & B & E'). rewrite E' in E. injection E as <-. cbn.
  assert (Hc : centered d <> []) by (apply map_ne', H). assert (S := centered_sign d _ _ H A B). split; [|split].
  - apply meanR_nonneg. intros x Hx. apply in_map_iff in Hx as (y & <- & _). apply Rabs_pos.
  - apply mean_abs_sq, Hc.
  - apply sq_bound; [exact Hc|]. intros x Hx. destruct A as [_ A], B as [_ B]. specialize (A x Hx). specialize (B x Hx).
    rewrite (Rabs_left1 lo) by lra. unfold Rabs. destruct (Rcase_abs x);
    [apply Rle_trans with (- lo); [lra|apply Rmax_r]|apply Rle_trans with hi; [lra|apply Rmax_l]].
Qed.
Theorem C22_Sq_zero_iff_flat : forall d h, d <> [] -> height_parameters d = Ok h -> (Sq h = 0 <-> flat d).
Proof.
  intros d h H E. destruct (hp_ok d H) as (lo & hi & A & B & E'). rewrite E' in E. injection E as <-. cbn.
  assert (Hc : centered d <> []) by (apply map_ne', H). assert (P := mom2_nonneg (centered d)). split.
  - intros Z. apply sqrt_eq_0 in Z; [|exact P]. assert (Z' := proj1 (mom2_zero _ Hc) Z). intros x y Hx Hy.
    assert (Zx := Z' _ (in_map (fun x => x - meanR d) _ _ Hx)). assert (Zy := Z' _ (in_map (fun x => x - meanR d) _ _ Hy)). cbn in *. lra.
  - intros F. rewrite (proj2 (mom2_zero _ Hc)); [apply sqrt_0|]. intros x Hx. apply in_map_iff in Hx as (y & <- & Hy).
    assert (M : y <= meanR d <= y) by (apply meanR_between; [exact H|]; intros z Hz; rewrite (F z y Hz Hy); lra). lra.
Qed.
(** On a non-flat surface Ssk and Sku are numbers, and obey Pearson's inequality; on a flat one both are nan. *)
Theorem C22_shape : forall d h, d <> [] -> height_parameters d = Ok h ->
  (~ flat d -> exists s k, Ssk h = Some s /\ Sku h = Some k /\ 1 + s ^ 2 <= k) /\
  (flat d -> Ssk h = None /\ Sku h = None).
Proof.
  intros d h H E. assert (F := C22_Sq_zero_iff_flat d h H E).
  destruct (hp_ok d H) as (lo & hi & A & B & E'). rewrite E' in E. injection E as <-. cbn in *.
  assert (Hc : centered d <> []) by (apply map_ne', H). split.
  - intros N. assert (Nz : sqrt (mom 2 (centered d)) <> 0) by tauto.
    assert (S : forall x n, ndiv x (sqrt (mom 2 (centered d)) ^ n) = Some (x / sqrt (mom 2 (centered d)) ^ n)).
    { intros x n. unfold ndiv. destruct (Req_EM_T _ 0) as [Z|Z]; [|reflexivity]. exfalso. exact (pow_nonzero _ _ Nz Z). }
    do 2 eexists. split; [apply (S _ 3%nat)|]. split; [apply (S _ 4%nat)|].
    eapply Rle_trans; [|eapply kurtosis_skewness; [exact Hc|apply mean_centered, H|apply (S _ 3%nat)|apply (S _ 4%nat)]].
    apply Req_le. ring.
  - intros Fl. apply F in Fl. rewrite Fl. unfold ndiv. cbn. rewrite !Rmult_0_l.
    destruct (Req_EM_T 0 0) as [_|N]; [|congruence]. auto.
Qed.
Theorem C22_defined : forall d, (exists h, height_parameters d = Ok h) <-> d <> [].
Proof.
  intros d. split.
  - intros [h E] ->. discriminate.
  - intros H. destruct (hp_ok d H) as (lo & hi & _ & _ & E). eauto.
Qed.
Theorem C22_example : exists h, height_parameters [1; 2; 6] = Ok h /\ Sp h = 3 /\ Sv h = 2 /\ Sz h = 5 /\ ~ flat [1; 2; 6].
Proof.
  assert (M : meanR [1; 2; 6] = 3) by (unfold meanR; cbn; lra).
  assert (A : is_min 1 [1; 2; 6]) by (split; [left; reflexivity|intros y [<-|[<-|[<-|[]]]]; lra]).
  assert (B : is_max 6 [1; 2; 6]) by (split; [do 2 right; left; reflexivity|intros y [<-|[<-|[<-|[]]]]; lra]).
  destruct (proj2 (C22_defined [1; 2; 6]) ltac:(discriminate)) as [h E]. exists h. split; [exact E|].
  destruct (C22_range _ _ _ _ E A B) as (P & V & _ & Z & _). rewrite M in *. repeat split; try lra.
  intros F. assert (X := F 1 2 (or_introl eq_refl) (or_intror (or_introl eq_refl))). lra.
Qed.

(** ** C23 *)
Theorem C23_shift : forall d k, d <> [] -> height_parameters (map (fun x => x + k) d) = height_parameters d.
Proof.
  intros d k H. destruct (hp_ok d H) as (lo & hi & A & B & E). rewrite E.
  rewrite <- (centered_shift d k H) in *. rewrite (hp_spec (map (fun x => x + k) d) lo hi A B). reflexivity.
Qed.
Theorem C23_permutation : forall d d', Permutation d d' -> height_parameters d' = height_parameters d.
Proof.
  intros d d' P. destruct d as [|x d0] eqn:Ed; [apply Permutation_nil in P; subst; reflexivity|]. rewrite <- Ed in *. clear Ed x d0.
  destruct (list_eq_dec Req_EM_T d []) as [->|H]; [apply Permutation_nil in P; subst; reflexivity|].
  destruct (hp_ok d H) as (lo & hi & A & B & E). rewrite E. assert (Pc := centered_perm _ _ P).
  rewrite (hp_spec d' lo hi (is_min_perm _ _ _ Pc A) (is_max_perm _ _ _ Pc B)). unfold hp_of.
  rewrite !(mom_perm _ _ _ Pc). rewrite (meanR_perm _ _ (Permutation_map Rabs Pc)). reflexivity.
Qed.
Definition oscale (k : R) (o : option R) : option R := option_map (fun x => k * x) o.
Lemma ndiv_scale a x y s : s <> 0 -> a = s -> ndiv (a * x) (s * y) = ndiv x y.
Proof.
  intros H ->. unfold ndiv. destruct (Req_EM_T y 0) as [->|N].
  - rewrite Rmult_0_r. destruct (Req_EM_T 0 0); [reflexivity|congruence].
  - destruct (Req_EM_T (s * y) 0) as [Z|_]; [apply Rmult_integral in Z as [|]; congruence|]. f_equal. field. auto.
Qed.
Lemma ndiv_neg x y : ndiv (- x) y = oscale (-1) (ndiv x y).
Proof. unfold ndiv. destruct (Req_EM_T y 0); [reflexivity|]. cbn. f_equal. field. assumption. Qed.
(** Multiplying by k <> 0; for k < 0 peaks and valleys trade places. *)
Theorem C23_scale : forall d h k, d <> [] -> k <> 0 -> height_parameters d = Ok h ->
  exists h', height_parameters (map (fun x => k * x) d) = Ok h' /\
    Sa h' = Rabs k * Sa h /\ Sq h' = Rabs k * Sq h /\ Sz h' = Rabs k * Sz h /\ Sku h' = Sku h /\
    (0 < k -> Sp h' = k * Sp h /\ Sv h' = k * Sv h /\ Ssk h' = Ssk h) /\
    (k < 0 -> Sp h' = - k * Sv h /\ Sv h' = - k * Sp h /\ Ssk h' = oscale (-1) (Ssk h)).
Proof.
  intros d h k H K E. destruct (hp_ok d H) as (lo & hi & A & B & E'). rewrite E' in E. injection E as <-.
  assert (S := centered_sign d _ _ H A B). assert (P := mom2_nonneg (centered d)).
  assert (Ka : 0 < Rabs k) by (apply Rabs_pos_lt, K).
  destruct (Rlt_or_le k 0) as [Kn|Kp].
  - assert (A' : is_min (k * hi) (centered (map (fun x => k * x) d))) by (rewrite centered_scale; apply (is_min_map_anti (fun x => k * x)); [intros; nra|exact B]).
    assert (B' : is_max (k * lo) (centered (map (fun x => k * x) d))) by (rewrite centered_scale; apply (is_max_map_anti (fun x => k * x)); [intros; nra|exact A]).
    eexists. split; [apply (hp_spec _ _ _ A' B')|]. unfold hp_of. cbn [Sa Sq Sv Sp Sz Ssk Sku].
    rewrite centered_scale, !mom_scale, abs_scale, sqrt_scale by exact P.
    assert (Kr : Rabs k = - k) by (apply Rabs_left1; lra).
    split; [reflexivity|]. split; [reflexivity|]. rewrite (Rabs_left1 lo), (Rabs_left1 (k * hi)) by nra. split; [rewrite Kr; ring|].
    rewrite !Rpow_mult_distr. split; [apply ndiv_scale; [apply pow_nonzero; lra|rewrite Kr; ring]|]. split; [intros; lra|].
    intros _. split; [ring|split; [ring|]]. rewrite <- ndiv_neg. rewrite Kr.
    replace (k ^ 3 * mom 3 (centered d)) with ((- k) ^ 3 * - mom 3 (centered d)) by ring.
    apply ndiv_scale; [apply pow_nonzero; lra|reflexivity].
  - assert (A' : is_min (k * lo) (centered (map (fun x => k * x) d))) by (rewrite centered_scale; apply (is_min_map_mono (fun x => k * x)); [intros; nra|exact A]).
    assert (B' : is_max (k * hi) (centered (map (fun x => k * x) d))) by (rewrite centered_scale; apply (is_max_map_mono (fun x => k * x)); [intros; nra|exact B]).
    eexists. split; [apply (hp_spec _ _ _ A' B')|]. unfold hp_of. cbn [Sa Sq Sv Sp Sz Ssk Sku].
    rewrite centered_scale, !mom_scale, abs_scale, sqrt_scale by exact P.
    assert (Kr : Rabs k = k) by (apply Rabs_right; lra).
    split; [reflexivity|]. split; [reflexivity|]. rewrite (Rabs_left1 lo), (Rabs_left1 (k * lo)) by nra. split; [rewrite Kr; ring|].
    rewrite !Rpow_mult_distr. split; [apply ndiv_scale; [apply pow_nonzero; lra|rewrite Kr; ring]|]. split; [|intros; lra].
    intros _. split; [ring|split; [ring|]]. rewrite Kr. apply ndiv_scale; [apply pow_nonzero; lra|reflexivity].
Qed.
Theorem C23_invert : forall d h, d <> [] -> height_parameters d = Ok h ->
  exists h', height_parameters (map Ropp d) = Ok h' /\ Sa h' = Sa h /\ Sq h' = Sq h /\ Sz h' = Sz h /\
    Sp h' = Sv h /\ Sv h' = Sp h /\ Sku h' = Sku h /\ Ssk h' = oscale (-1) (Ssk h).
Proof.
  intros d h H E. destruct (C23_scale d h (-1) H ltac:(lra) E) as (h' & E' & A1 & A2 & A3 & A4 & _ & A5). exists h'.
  rewrite (map_ext Ropp (fun x => -1 * x)) by (intros; ring). destruct (A5 ltac:(lra)) as (B1 & B2 & B3).
  assert (K : Rabs (-1) = 1) by (rewrite Rabs_left by lra; lra). rewrite K in *. repeat split; try assumption; lra.
Qed.

(** ** C24 *)
Lemma rect_bounds (ny nx : nat) : (2 <= ny)%nat -> (2 <= nx)%nat ->
  INR (ny - 1) = INR ny - 1 /\ INR (nx - 1) = INR nx - 1 /\ 2 <= INR ny /\ 2 <= INR nx.
Proof.
  intros A B. rewrite !minus_INR by lia. cbn [INR]. replace 2 with (INR 2) by (cbn; lra). repeat split; try (cbn; lra); apply le_INR; lia.
Qed.
(** the area of the sampled rectangle, between the first and the last sample in each direction *)
Definition rectangle (ny nx : nat) (sx sy : R) : R := ((INR nx - 1) * sx) * ((INR ny - 1) * sy).
Theorem C24_lower_bound : forall g ny nx sx sy, rrect g ny nx -> (2 <= ny)%nat -> (2 <= nx)%nat -> 0 < sx -> 0 < sy ->
  rectangle ny nx sx sy <= surface_area g sx sy.
Proof.
  intros g ny nx sx sy Hr Hy Hx Sx Sy. rewrite (surface_area_dbl g ny nx sx sy Hr).
  destruct (rect_bounds ny nx Hy Hx) as (E1 & E2 & _).
  assert (L := dbl_le (ny - 1) (nx - 1) (fun _ _ => 1 / 2 * (sx * sy)) (fun i j => quad sx sy (dzx g i j) (dzy g i j))
                 (fun i j _ _ => quad_lower sx sy _ _ Sx Sy)).
  rewrite dbl_const, E1, E2 in L. unfold rectangle. lra.
Qed.
Definition const_on (g : rgrid) (P : nat -> nat -> Prop) : Prop :=
  forall i j i' j', P i j -> P i' j' -> at_ g i j = at_ g i' j'.
Lemma chain_const (f : nat -> R) n : (forall i, (S i < n)%nat -> f (S i) - f i = 0) -> forall i, (i < n)%nat -> f i = f 0%nat.
Proof. intros H i. induction i as [|i IH]; intros Hi; [reflexivity|]. specialize (H i ltac:(lia)). rewrite <- IH by lia. lra. Qed.
(** Equality holds exactly when every point EXCEPT the last one of the last row has the same height: that
    point enters no triangle (surface.py:1001 uses dz_y[:, :-1] and dz_x[:-1, :]). *)
Theorem C24_equality_partial : forall g ny nx sx sy, rrect g ny nx -> (2 <= ny)%nat -> (2 <= nx)%nat -> 0 < sx -> 0 < sy ->
  (surface_area g sx sy = rectangle ny nx sx sy <->
   const_on g (fun i j => (i < ny)%nat /\ (j < nx)%nat /\ ~ (i = ny - 1 /\ j = nx - 1)%nat)).
Proof.
  intros g ny nx sx sy Hr Hy Hx Sx Sy. rewrite (surface_area_dbl g ny nx sx sy Hr).
  destruct (rect_bounds ny nx Hy Hx) as (E1 & E2 & _). unfold rectangle.
  set (F := fun i j => quad sx sy (dzx g i j) (dzy g i j)).
  assert (D := dbl_minus (ny - 1) (nx - 1) F (fun _ _ => 1 / 2 * (sx * sy))). rewrite dbl_const, E1, E2 in D. split.
  - intros E. assert (Z : dbl (ny - 1) (nx - 1) (fun i j => F i j - 1 / 2 * (sx * sy)) = 0) by (rewrite D; lra).
    assert (Q : forall i j, (i < ny - 1)%nat -> (j < nx - 1)%nat -> dzx g i j = 0 /\ dzy g i j = 0).
    { intros i j Hi Hj. apply (quad_eq sx sy _ _ Sx Sy).
      assert (Z' := dbl_zero _ _ (fun i j => F i j - 1 / 2 * (sx * sy)) ltac:(intros a b _ _; unfold F; assert (QQ := quad_lower sx sy (dzx g a b) (dzy g a b) Sx Sy); lra) Z i j Hi Hj).
      cbn in Z'. unfold F in Z'. lra. }
    assert (R0 : forall i j, (i < ny - 1)%nat -> (j < nx)%nat -> at_ g i j = at_ g i 0).
    { intros i j Hi Hj. apply (chain_const (fun j => at_ g i j) nx); [|exact Hj]. intros k Hk. apply (Q i k Hi). lia. }
    assert (C0 : forall i j, (i < ny)%nat -> (j < nx - 1)%nat -> at_ g i j = at_ g 0 j).
    { intros i j Hi Hj. apply (chain_const (fun i => at_ g i j) ny); [|exact Hi]. intros k Hk. apply (Q k j); lia. }
    assert (All : forall i j, (i < ny)%nat -> (j < nx)%nat -> ~ (i = ny - 1 /\ j = nx - 1)%nat -> at_ g i j = at_ g 0 0).
    { intros i j Hi Hj N. destruct (Nat.eq_dec j (nx - 1)) as [->|Nj].
      - rewrite R0 by lia. apply C0; lia.
      - rewrite C0 by lia. apply R0; lia. }
    intros i j i' j' (A1 & A2 & A3) (B1 & B2 & B3). rewrite (All i j), (All i' j') by auto. reflexivity.
  - intros C. assert (Z : dbl (ny - 1) (nx - 1) (fun i j => F i j) = dbl (ny - 1) (nx - 1) (fun _ _ => 1 / 2 * (sx * sy))).
    { apply dbl_ext. intros i j Hi Hj. apply (quad_eq sx sy _ _ Sx Sy).
      unfold dzx, dzy. rewrite (C i (S j) i j), (C (S i) j i j) by lia. lra. }
    change (dbl (ny - 1) (nx - 1) (fun i j => F i j)) with (dbl (ny - 1) (nx - 1) F) in Z. rewrite Z, dbl_const, E1, E2. lra.
Qed.
Definition flat_grid (g : rgrid) (ny nx : nat) : Prop := const_on g (fun i j => (i < ny)%nat /\ (j < nx)%nat).
Theorem C24_flat : forall g ny nx sx sy, rrect g ny nx -> (2 <= ny)%nat -> (2 <= nx)%nat -> 0 < sx -> 0 < sy ->
  flat_grid g ny nx -> surface_area g sx sy = rectangle ny nx sx sy.
Proof.
  intros g ny nx sx sy Hr Hy Hx Sx Sy Fl. apply C24_equality_partial; auto. intros i j i' j' (A & B & _) (A' & B' & _). apply Fl; auto.
Qed.
(** refuted: "equality iff flat" *)
Theorem C24_equality_iff_flat_refuted : exists g ny nx, rrect g ny nx /\ (2 <= ny)%nat /\ (2 <= nx)%nat /\
  surface_area g 1 1 = rectangle ny nx 1 1 /\ ~ flat_grid g ny nx.
Proof.
  exists [[0; 0]; [0; 5]], 2%nat, 2%nat.
  assert (Hr : rrect [[0; 0]; [0; 5]] 2 2) by (split; [reflexivity|intros r [<-|[<-|[]]]; reflexivity]).
  split; [exact Hr|]. split; [lia|]. split; [lia|]. split.
  - apply C24_equality_partial; [exact Hr|lia|lia|lra|lra|]. 
    intros i j i' j' (A1 & A2 & A3) (B1 & B2 & B3).
    assert (Z : forall i j, (i < 2)%nat -> (j < 2)%nat -> ~ (i = 2 - 1 /\ j = 2 - 1)%nat -> at_ [[0; 0]; [0; 5]] i j = 0).
    { intros [|[|a]] [|[|b]] X Y N; cbn; try lia; try reflexivity. }
    rewrite (Z i j), (Z i' j') by auto. reflexivity.
  - intros F. assert (X := F 0%nat 0%nat 1%nat 1%nat ltac:(split; lia) ltac:(split; lia)). cbn in X. lra.
Qed.
(** z = a*x + b*y *)
Definition plane (ny nx : nat) (a b sx sy : R) : rgrid :=
  map (fun i => map (fun j => a * (INR j * sx) + b * (INR i * sy)) (seq 0 nx)) (seq 0 ny).
Lemma plane_rect ny nx a b sx sy : rrect (plane ny nx a b sx sy) ny nx.
Proof.
  split; [unfold plane; rewrite map_length; apply seq_length|]. intros r Hr. apply in_map_iff in Hr as (i & <- & _).
  rewrite map_length; apply seq_length.
Qed.
Lemma plane_at ny nx a b sx sy i j : (i < ny)%nat -> (j < nx)%nat -> at_ (plane ny nx a b sx sy) i j = a * (INR j * sx) + b * (INR i * sy).
Proof. intros Hi Hj. unfold at_, plane. rewrite nth_seq_map by exact Hi. rewrite nth_seq_map by exact Hj. reflexivity. Qed.
Theorem C24_plane_value : forall ny nx a b sx sy, (2 <= ny)%nat -> (2 <= nx)%nat ->
  surface_area (plane ny nx a b sx sy) sx sy =
  (INR nx - 1) * (INR ny - 1) * sqrt ((sy * (b * sy)) ^ 2 + (sx * (a * sx)) ^ 2 + (sx * sy) ^ 2).
Proof.
  intros ny nx a b sx sy Hy Hx. rewrite (surface_area_dbl _ ny nx sx sy (plane_rect ny nx a b sx sy)).
  destruct (rect_bounds ny nx Hy Hx) as (E1 & E2 & _).
  rewrite (dbl_ext _ _ _ (fun _ _ => quad sx sy (a * sx) (b * sy))).
  - rewrite dbl_const, E1, E2. unfold quad. lra.
  - intros i j Hi Hj. unfold dzx, dzy. rewrite !plane_at by lia. rewrite (S_INR i), (S_INR j). f_equal; ring.
Qed.
(** the true area of the tilted plane over the sampled rectangle *)
Definition plane_area (ny nx : nat) (a b sx sy : R) : R := rectangle ny nx sx sy * sqrt (1 + a ^ 2 + b ^ 2).
(** It is reproduced exactly when the two steps are equal ... *)
Theorem C24_plane_partial : forall ny nx a b s, (2 <= ny)%nat -> (2 <= nx)%nat -> 0 < s ->
  surface_area (plane ny nx a b s s) s s = plane_area ny nx a b s s.
Proof.
  intros ny nx a b s Hy Hx Hs. rewrite C24_plane_value by assumption. unfold plane_area, rectangle.
  replace ((s * (b * s)) ^ 2 + (s * (a * s)) ^ 2 + (s * s) ^ 2) with ((s * s) ^ 2 * (1 + a ^ 2 + b ^ 2)) by ring.
  assert (A := pow2_nonneg a). assert (B := pow2_nonneg b). assert (C := pow2_nonneg (s * s)).
  rewrite sqrt_mult by lra. rewrite sqrt_pow2 by nra. ring.
Qed.
(** ... but not when they differ, because the code multiplies the height difference in y by step_y (instead of step_x) and vice versa. *)
Theorem C24_plane_refuted : exists ny nx a b sx sy, (2 <= ny)%nat /\ (2 <= nx)%nat /\ 0 < sx /\ 0 < sy /\
  surface_area (plane ny nx a b sx sy) sx sy < plane_area ny nx a b sx sy.
Proof.
  exists 2%nat, 2%nat, 1, 0, 1, 2. split; [lia|]. split; [lia|]. split; [lra|]. split; [lra|].
  rewrite C24_plane_value by lia. unfold plane_area, rectangle. cbn [INR].
  replace ((2 * (0 * 2)) ^ 2 + (1 * (1 * 1)) ^ 2 + (1 * 2) ^ 2) with 5 by ring.
  replace (1 + 1 ^ 2 + 0 ^ 2) with 2 by ring.
  assert (A : sqrt 5 < sqrt 8) by (apply sqrt_lt_1; lra).
  assert (B : sqrt 8 = 2 * sqrt 2). { replace 8 with (2 ^ 2 * 2) by ring. rewrite sqrt_mult by lra. rewrite sqrt_pow2 by lra. reflexivity. }
  lra.
Qed.
(** Sdr: never negative from 3x3 points up; but positive for a flat surface, because projected_area
    (surface.py:975) shrinks each extent by one further step. *)
Theorem C24_Sdr_nonneg : forall g ny nx sx sy, rrect g ny nx -> (3 <= ny)%nat -> (3 <= nx)%nat -> 0 < sx -> 0 < sy ->
  exists v, Sdr g ny nx sx sy = Some v /\ 0 < v.
Proof.
  intros g ny nx sx sy Hr Hy Hx Sx Sy. assert (L := C24_lower_bound g ny nx sx sy Hr ltac:(lia) ltac:(lia) Sx Sy).
  assert (A : 3 <= INR ny) by (replace 3 with (INR 3) by (cbn; lra); apply le_INR; lia).
  assert (B : 3 <= INR nx) by (replace 3 with (INR 3) by (cbn; lra); apply le_INR; lia).
  assert (PP : projected_area ny nx sx sy = ((INR nx - 2) * sx) * ((INR ny - 2) * sy)) by (unfold projected_area; ring).
  assert (Pos : 0 < projected_area ny nx sx sy) by (rewrite PP; repeat apply Rmult_lt_0_compat; lra).
  assert (Lt : projected_area ny nx sx sy < rectangle ny nx sx sy).
  { rewrite PP. unfold rectangle.
    assert (X : 0 < (INR nx - 2) * sx) by (apply Rmult_lt_0_compat; lra). assert (Y : 0 < (INR ny - 2) * sy) by (apply Rmult_lt_0_compat; lra).
    apply Rmult_gt_0_lt_compat; nra. }
  unfold Sdr, ndiv. destruct (Req_EM_T _ 0) as [Z|Z]; [lra|]. cbn. eexists. split; [reflexivity|].
  assert (1 < surface_area g sx sy / projected_area ny nx sx sy); [|lra].
  apply Rmult_lt_reg_r with (projected_area ny nx sx sy); [exact Pos|]. unfold Rdiv. rewrite Rmult_assoc, Rinv_l by exact Z. lra.
Qed.
Theorem C24_Sdr_flat_refuted : forall g ny nx sx sy, rrect g ny nx -> (3 <= ny)%nat -> (3 <= nx)%nat -> 0 < sx -> 0 < sy ->
  flat_grid g ny nx -> Sdr g ny nx sx sy =
    Some (((INR nx - 1) * (INR ny - 1) / ((INR nx - 2) * (INR ny - 2)) - 1) * 100) /\ Sdr g ny nx sx sy <> Some 0.
Proof.
  intros g ny nx sx sy Hr Hy Hx Sx Sy Fl. split.
  - unfold Sdr. rewrite (C24_flat g ny nx sx sy) by (auto; lia).
    assert (A : 3 <= INR ny) by (replace 3 with (INR 3) by (cbn; lra); apply le_INR; lia).
    assert (B : 3 <= INR nx) by (replace 3 with (INR 3) by (cbn; lra); apply le_INR; lia).
    assert (PP : projected_area ny nx sx sy = ((INR nx - 2) * sx) * ((INR ny - 2) * sy)) by (unfold projected_area; ring).
    assert (Pos : 0 < projected_area ny nx sx sy) by (rewrite PP; repeat apply Rmult_lt_0_compat; lra).
    unfold ndiv. destruct (Req_EM_T _ 0) as [Z|Z]; [lra|]. cbn. f_equal. rewrite PP. unfold rectangle. field. lra.
  - destruct (C24_Sdr_nonneg g ny nx sx sy Hr Hy Hx Sx Sy) as (v & E & P). rewrite E. intros X. injection X as ->. lra.
Qed.
Theorem C24_Sdr_two_wide_undefined : forall g ny sx sy, Sdr g ny 2 sx sy = None.
Proof.
  intros. unfold Sdr, ndiv, projected_area. destruct (Req_EM_T _ 0) as [_|N]; [reflexivity|]. exfalso. apply N. cbn. ring.
Qed.

(** ** C25 *)
Lemma Sdq_arg_nonneg g ny nx sx sy : (1 <= ny)%nat -> (1 <= nx)%nat ->
  0 <= (dbl ny (nx - 1) (fun i j => (dzx g i j / sx) ^ 2) + dbl (ny - 1) nx (fun i j => (dzy g i j / sy) ^ 2)) / (INR ny * INR nx).
Proof.
  intros A B. apply Rmult_le_pos.
  - assert (P := dbl_nonneg ny (nx - 1) (fun i j => (dzx g i j / sx) ^ 2) (fun _ _ _ _ => pow2_nonneg _)).
    assert (Q := dbl_nonneg (ny - 1) nx (fun i j => (dzy g i j / sy) ^ 2) (fun _ _ _ _ => pow2_nonneg _)). lra.
  - apply Rlt_le, Rinv_0_lt_compat, Rmult_lt_0_compat; apply lt_0_INR; lia.
Qed.
Theorem C25_nonneg : forall g ny nx sx sy, 0 <= Sdq g ny nx sx sy.
Proof. intros. apply sqrt_pos. Qed.
Lemma sq_zero x : x ^ 2 = 0 -> x = 0.
Proof. cbn. rewrite Rmult_1_r. intros H. apply Rmult_integral in H. tauto. Qed.
Theorem C25_zero_iff_flat : forall g ny nx sx sy, rrect g ny nx -> (1 <= ny)%nat -> (1 <= nx)%nat -> 0 < sx -> 0 < sy ->
  (Sdq g ny nx sx sy = 0 <-> flat_grid g ny nx).
Proof.
  intros g ny nx sx sy Hr Hy Hx Sx Sy. rewrite (Sdq_dbl g ny nx sx sy Hr).
  assert (P := Sdq_arg_nonneg g ny nx sx sy Hy Hx).
  assert (N : 0 < INR ny * INR nx) by (apply Rmult_lt_0_compat; apply lt_0_INR; lia).
  assert (P1 := dbl_nonneg ny (nx - 1) (fun i j => (dzx g i j / sx) ^ 2) (fun _ _ _ _ => pow2_nonneg _)).
  assert (P2 := dbl_nonneg (ny - 1) nx (fun i j => (dzy g i j / sy) ^ 2) (fun _ _ _ _ => pow2_nonneg _)).
  split.
  - intros Z. apply sqrt_eq_0 in Z; [|exact P]. unfold Rdiv at 1 in Z. apply Rmult_integral in Z as [Z|Z].
    2:{ exfalso. apply Rinv_neq_0_compat in Z; [exact Z|lra]. }
    assert (Z1 : dbl ny (nx - 1) (fun i j => (dzx g i j / sx) ^ 2) = 0) by lra.
    assert (Z2 : dbl (ny - 1) nx (fun i j => (dzy g i j / sy) ^ 2) = 0) by lra.
    assert (R0 : forall i j, (i < ny)%nat -> (j < nx)%nat -> at_ g i j = at_ g i 0).
    { intros i j Hi Hj. apply (chain_const (fun j => at_ g i j) nx); [|exact Hj]. intros k Hk.
      assert (X := dbl_zero _ _ _ (fun _ _ _ _ => pow2_nonneg _) Z1 i k Hi ltac:(lia)). cbn beta in X. apply sq_zero in X.
      unfold dzx in X. unfold Rdiv in X. apply Rmult_integral in X as [X|X]; [exact X|]. apply Rinv_neq_0_compat in X; [destruct X|lra]. }
    assert (C0 : forall i j, (i < ny)%nat -> (j < nx)%nat -> at_ g i j = at_ g 0 j).
    { intros i j Hi Hj. apply (chain_const (fun i => at_ g i j) ny); [|exact Hi]. intros k Hk.
      assert (X := dbl_zero _ _ _ (fun _ _ _ _ => pow2_nonneg _) Z2 k j ltac:(lia) Hj). cbn beta in X. apply sq_zero in X.
      unfold dzy in X. unfold Rdiv in X. apply Rmult_integral in X as [X|X]; [exact X|]. apply Rinv_neq_0_compat in X; [destruct X|lra]. }
    intros i j i' j' [A B] [A' B']. rewrite (R0 i j), (R0 i' j'), (C0 i 0%nat), (C0 i' 0%nat) by (auto; lia). reflexivity.
  - intros F. rewrite (dbl_ext ny (nx - 1) _ (fun _ _ => 0)), (dbl_ext (ny - 1) nx _ (fun _ _ => 0)).
    + rewrite !dbl_const. rewrite !Rmult_0_r, Rplus_0_r. unfold Rdiv. rewrite Rmult_0_l. apply sqrt_0.
    + intros i j Hi Hj. unfold dzy. rewrite (F (S i) j i j) by (split; lia). unfold Rdiv. ring.
    + intros i j Hi Hj. unfold dzx. rewrite (F i (S j) i j) by (split; lia). unfold Rdiv. ring.
Qed.
Definition mapg (f : R -> R) (g : rgrid) : rgrid := map (map f) g.
Lemma mapg_rect f g ny nx : rrect g ny nx -> rrect (mapg f g) ny nx.
Proof.
  intros [L H]. split; [unfold mapg; now rewrite map_length|]. intros r Hr. apply in_map_iff in Hr as (q & <- & Hq). rewrite map_length. auto.
Qed.
Lemma mapg_at f g ny nx i j : rrect g ny nx -> (i < ny)%nat -> (j < nx)%nat -> at_ (mapg f g) i j = f (at_ g i j).
Proof.
  intros Hr Hi Hj. unfold at_, mapg. rewrite (nth_map_nil (map f)) by reflexivity.
  rewrite nth_indep with (d' := f 0) by (rewrite map_length, (rrect_row g ny nx) by auto; auto). apply map_nth.
Qed.
Theorem C25_shift : forall g ny nx sx sy k, rrect g ny nx -> Sdq (mapg (fun z => z + k) g) ny nx sx sy = Sdq g ny nx sx sy.
Proof.
  intros g ny nx sx sy k Hr. rewrite (Sdq_dbl _ ny nx sx sy (mapg_rect _ _ _ _ Hr)), (Sdq_dbl g ny nx sx sy Hr). do 2 f_equal. f_equal; apply dbl_ext; intros i j Hi Hj.
  - unfold dzx. rewrite !(mapg_at _ g ny nx) by (auto; lia). do 2 f_equal. lra.
  - unfold dzy. rewrite !(mapg_at _ g ny nx) by (auto; lia). do 2 f_equal. lra.
Qed.
Theorem C25_scale : forall g ny nx sx sy k, rrect g ny nx -> (1 <= ny)%nat -> (1 <= nx)%nat ->
  Sdq (mapg (fun z => k * z) g) ny nx sx sy = Rabs k * Sdq g ny nx sx sy.
Proof.
  intros g ny nx sx sy k Hr Hy Hx. rewrite (Sdq_dbl _ ny nx sx sy (mapg_rect _ _ _ _ Hr)), (Sdq_dbl g ny nx sx sy Hr).
  rewrite <- sqrt_scale by (apply Sdq_arg_nonneg; assumption). f_equal.
  rewrite (dbl_ext ny (nx - 1) _ (fun i j => k ^ 2 * (dzx g i j / sx) ^ 2)), (dbl_ext (ny - 1) nx _ (fun i j => k ^ 2 * (dzy g i j / sy) ^ 2)).
  - rewrite !dbl_scal. unfold Rdiv. ring.
  - intros i j Hi Hj. unfold dzy. rewrite !(mapg_at _ g ny nx) by (auto; lia). unfold Rdiv. ring.
  - intros i j Hi Hj. unfold dzx. rewrite !(mapg_at _ g ny nx) by (auto; lia). unfold Rdiv. ring.
Qed.
Theorem C25_plane : forall ny nx a b sx sy, (1 <= ny)%nat -> (1 <= nx)%nat -> 0 < sx -> 0 < sy ->
  Sdq (plane ny nx a b sx sy) ny nx sx sy = sqrt (a ^ 2 * ((INR nx - 1) / INR nx) + b ^ 2 * ((INR ny - 1) / INR ny)).
Proof.
  intros ny nx a b sx sy Hy Hx Sx Sy. rewrite (Sdq_dbl _ ny nx sx sy (plane_rect ny nx a b sx sy)). f_equal.
  rewrite (dbl_ext ny (nx - 1) _ (fun _ _ => a ^ 2)), (dbl_ext (ny - 1) nx _ (fun _ _ => b ^ 2)).
  - rewrite !dbl_const, !minus_INR by lia. cbn [INR]. assert (0 < INR ny) by (apply lt_0_INR; lia). assert (0 < INR nx) by (apply lt_0_INR; lia).
    field. lra.
  - intros i j Hi Hj. unfold dzy. rewrite !plane_at by lia. rewrite (S_INR i). f_equal. field. lra.
  - intros i j Hi Hj. unfold dzx. rewrite !plane_at by lia. rewrite (S_INR j). f_equal. field. lra.
Qed.

(** ** C29 *)
Theorem C29_sections : forall d n, (1 <= n <= Z.of_nat (length d))%Z ->
  exists s, sectioned_data d n = Ok s /\ Z.of_nat (length s) = n /\ concat s = map (fun x => x - meanR d) d /\
    (forall p, In p s -> p <> []) /\ (forall p q, In p s -> In q s -> (length p <= S (length q))%nat).
Proof.
  intros d n H. destruct (sections_ok d n H) as [s E]. exists s. split; [exact E|].
  destruct (sections_spec d n s E) as (_ & _ & L & C & N & D). split; [rewrite L; lia|]. split; [exact C|]. split; [|exact D].
  intros p Hp. apply (N p Hp).
Qed.
Theorem C29_rejects : forall d n, ~ (1 <= n <= Z.of_nat (length d))%Z ->
  sectioned_data d n = Err ValueError /\ Rz d n = Err ValueError /\ Rp d n = Err ValueError /\ Rv d n = Err ValueError.
Proof.
  intros d n H. assert (E : sectioned_data d n = Err ValueError).
  { unfold sectioned_data. destruct (Z.ltb_spec n 1); [reflexivity|]. destruct (Z.ltb_spec (Z.of_nat (length d)) n); [reflexivity|]. lia. }
  unfold Rz, Rp, Rv. rewrite E. auto.
Qed.

(** ** C30 *)
Theorem C30_Ra_Rq : forall d, d <> [] -> 0 <= Ra d <= Rq d.
Proof.
  intros d H. assert (Hc : centered d <> []) by (apply map_ne', H).
  assert (A : Ra d = meanR (map Rabs (centered d))) by (unfold Ra, meanR at 2, centered; rewrite map_map, map_length; reflexivity).
  assert (B : Rq d = sqrt (mom 2 (centered d))) by (unfold Rq, mom, meanR at 2, centered; rewrite map_map, map_length; reflexivity).
  rewrite A, B. split; [|apply mean_abs_sq, Hc]. apply meanR_nonneg. intros x Hx. apply in_map_iff in Hx as (y & <- & _). apply Rabs_pos.
Qed.
Theorem C30_Rku : forall d s k, d <> [] -> Rsk d = Some s -> Rku d = Some k -> 1 + s ^ 2 <= k.
Proof.
  intros d s k H Es Ek. assert (Hc : centered d <> []) by (apply map_ne', H).
  assert (B : Rq d = sqrt (mom 2 (centered d))) by (unfold Rq, mom, meanR at 2, centered; rewrite map_map, map_length; reflexivity).
  assert (M : forall n, sumR (map (fun x => (x - meanR d) ^ n) d) / INR (length d) = mom n (centered d)).
  { intros n. unfold mom, meanR at 2, centered. rewrite map_map, !map_length. reflexivity. }
  unfold Rsk, Rku in *. rewrite M, B in Es, Ek. replace (s ^ 2) with (s * s) by ring.
  apply (kurtosis_skewness (centered d)); auto. apply mean_centered, H.
Qed.
Lemma Rt_centered d : d <> [] -> Rt d = Ok (rng (centered d)).
Proof.
  intros H. assert (Hc : centered d <> []) by (apply map_ne', H). unfold Rt.
  destruct (lmax_ex d H) as [a Ea], (lmin_ex d H) as [b Eb]. rewrite Ea, Eb. f_equal.
  apply lmax_spec in Ea. apply lmin_spec in Eb.
  assert (A : getmax (centered d) = a - meanR d) by (apply (is_max_unique (centered d)); [apply getmax_is, Hc|apply (is_max_map_mono (fun x => x - meanR d)); [intros; lra|exact Ea]]).
  assert (B : getmin (centered d) = b - meanR d) by (apply (is_min_unique (centered d)); [apply getmin_is, Hc|apply (is_min_map_mono (fun x => x - meanR d)); [intros; lra|exact Eb]]).
  unfold rng. rewrite A, B. lra.
Qed.
Lemma sections_ne d n s : sectioned_data d n = Ok s -> s <> [].
Proof. intros E. destruct (sections_spec d n s E) as (B & _ & L & _). intros ->. cbn in L. lia. Qed.
(** a profile without points has no height difference: an exception *)
Theorem C30_Rt_empty : Rt [] = Err ValueError.
Proof. reflexivity. Qed.
Theorem C30_Rz_le_Rt : forall d n z t, Rz d n = Ok z -> Rt d = Ok t -> 0 <= z <= t.
Proof.
  intros d n z t Ez Et. unfold Rz in Ez. destruct (sectioned_data d n) as [s|] eqn:E; [|discriminate]. cbn in Ez. injection Ez as <-.
  assert (Hs := sections_ne d n s E). destruct (sections_spec d n s E) as (B & _ & L & C & N & _).
  assert (H : d <> []) by (intros ->; cbn in B; lia). rewrite (Rt_centered d H) in Et. injection Et as <-.
  apply meanR_between; [apply map_ne', Hs|]. intros x Hx. apply in_map_iff in Hx as (p & <- & Hp). destruct (N p Hp) as [Np Sp]. split.
  - destruct (getmax_is p Np) as [A1 A2], (getmin_is p Np) as [B1 B2]. specialize (A2 _ B1). lra.
  - apply (rng_sub p (centered d) Np Sp).
Qed.
Lemma sectioned_one d : d <> [] -> sectioned_data d 1 = Ok [centered d].
Proof.
  intros H. destruct (sections_ok d 1) as [s E]; [destruct d; [congruence|cbn [length]; lia]|].
  destruct (sections_spec d 1 s E) as (_ & _ & L & C & _). rewrite E. destruct s as [|p [|]]; cbn in L; try lia.
  cbn in C. rewrite app_nil_r in C. now subst.
Qed.
Theorem C30_single_section : forall d, d <> [] -> exists t p v, Rz d 1 = Ok t /\ Rt d = Ok t /\ Rp d 1 = Ok p /\ Rv d 1 = Ok v /\ t = p + v.
Proof.
  intros d H. rewrite (Rt_centered d H). unfold Rz, Rp, Rv. rewrite (sectioned_one d H). cbn.
  assert (Hc : centered d <> []) by (apply map_ne', H).
  assert (S := centered_sign d _ _ H (getmin_is _ Hc) (getmax_is _ Hc)).
  assert (M : forall x, meanR [x] = x) by (intros; unfold meanR; cbn; lra). rewrite !M. do 3 eexists.
  split; [reflexivity|]. split; [reflexivity|]. split; [reflexivity|]. split; [reflexivity|].
  rewrite Rabs_left1 by lra. unfold rng. lra.
Qed.
Theorem C30_Rz_le_sum : forall d n z p v, Rz d n = Ok z -> Rp d n = Ok p -> Rv d n = Ok v -> z <= p + v.
Proof.
  intros d n z p v Ez Ep Ev. unfold Rz, Rp, Rv in *. destruct (sectioned_data d n) as [s|] eqn:E; [|discriminate].
  cbn in *. injection Ez as <-. injection Ep as <-. injection Ev as <-. rewrite <- meanR_map_plus. apply meanR_le.
  intros x _. unfold Rabs. destruct (Rcase_abs (getmin x)); lra.
Qed.
(** Refinement: cut each of the n (equal) sections into k equal pieces. *)
Lemma repeat_app_mul {A} (x : A) n k : repeat x (n * k) = concat (repeat (repeat x k) n).
Proof. induction n; cbn; auto. rewrite repeat_app. now rewrite IHn. Qed.
Lemma split_repeat {A} n : forall (l : list A) k m,
  split_sizes l (repeat m (n * k)) = concat (map (fun p => split_sizes p (repeat m k)) (split_sizes l (repeat (k * m)%nat n))).
Proof.
  induction n as [|n IH]; intros l k m; cbn; auto. rewrite repeat_app, split_app, fold_repeat. f_equal. apply IH.
Qed.
Lemma sumR_concat_map {A} (f : A -> R) (l : list (list A)) : sumR (map f (concat l)) = sumR (map (fun p => sumR (map f p)) l).
Proof. induction l as [|a l IH]; cbn; auto. rewrite map_app, sumR_app. now rewrite IH. Qed.
Lemma split_In {A} sizes : forall (l : list A) p, In p (split_sizes l sizes) -> forall x, In x p -> In x l.
Proof.
  induction sizes as [|k ks IH]; intros l p Hp x Hx; cbn in Hp; [destruct Hp|]. destruct Hp as [<-|Hp].
  - rewrite <- (firstn_skipn k l). apply in_app_iff. auto.
  - rewrite <- (firstn_skipn k l). apply in_app_iff. right. apply (IH _ _ Hp _ Hx).
Qed.
Lemma split_len {A} sizes : forall (l : list A), length (split_sizes l sizes) = length sizes.
Proof. induction sizes; intros l; cbn; auto. Qed.
Lemma sections_exact n m : (1 <= n)%nat -> section_sizes (n * m) n = repeat m n.
Proof.
  intros H. unfold section_sizes. rewrite Nat.mul_comm, Nat.mod_mul, Nat.div_mul by lia. cbn. f_equal. lia.
Qed.
Theorem C30_refinement : forall d n k z z', (1 <= n)%nat -> (1 <= k)%nat -> Nat.divide (n * k) (length d) ->
  Rz d (Z.of_nat n) = Ok z -> Rz d (Z.of_nat (n * k)) = Ok z' -> z' <= z.
Proof.
  intros d n k z z' Hn Hk [m Hm] Ez Ez'. unfold Rz in *.
  destruct (sectioned_data d (Z.of_nat n)) as [s|] eqn:E; [|discriminate].
  destruct (sectioned_data d (Z.of_nat (n * k))) as [s'|] eqn:E'; [|discriminate].
  cbn in Ez, Ez'. injection Ez as <-. injection Ez' as <-.
  destruct (sections_spec _ _ _ E) as (_ & Es & L & _). destruct (sections_spec _ _ _ E') as (_ & Es' & L' & _ & N' & _).
  rewrite Nat2Z.id in *. assert (D1 : length d = (n * (k * m))%nat) by lia. assert (D2 : length d = ((n * k) * m)%nat) by lia.
  rewrite D1, sections_exact in Es by lia. rewrite D2, sections_exact in Es' by lia. rewrite (split_repeat n) in Es'.
  rewrite <- Es in Es'.
  change (fun x => getmax x - getmin x) with rng. unfold meanR. rewrite !map_length, L, L'.
  assert (S : sumR (map rng s') <= INR k * sumR (map rng s)).
  { rewrite Es', sumR_concat_map, map_map, <- sumR_map_scal. apply sumR_le. intros p Hp.
    assert (Lk : length (split_sizes p (repeat m k)) = k) by (rewrite split_len; apply repeat_length).
    rewrite <- Lk at 2. rewrite <- sumR_map_const. apply sumR_le. intros q Hq. apply rng_sub.
    - apply (N' q). rewrite Es'. apply in_concat. exists (split_sizes p (repeat m k)). split; [|exact Hq]. apply in_map_iff. eauto.
    - apply (split_In _ _ _ Hq). }
  rewrite mult_INR. assert (0 < INR n) by (apply lt_0_INR; lia). assert (0 < INR k) by (apply lt_0_INR; lia).
  apply Rmult_le_reg_r with (INR n * INR k); [apply Rmult_lt_0_compat; lra|].
  replace (sumR (map rng s') / (INR n * INR k) * (INR n * INR k)) with (sumR (map rng s')) by (field; lra).
  replace (sumR (map rng s) / INR n * (INR n * INR k)) with (INR k * sumR (map rng s)) by (field; lra). exact S.
Qed.
Theorem C30_example : exists z, Rz [0; 2; 1; 5] 2 = Ok z /\ Rz [0; 2; 1; 5] 4 = Ok 0 /\ z = 3.
Proof.
  unfold Rz, sectioned_data. cbn [length]. change (Z.of_nat 4 <? 2)%Z with false. change (2 <? 1)%Z with false.
  change (Z.of_nat 4 <? 4)%Z with false. change (4 <? 1)%Z with false.
  eexists. split; [reflexivity|]. change (section_sizes 4 (Z.to_nat 2)) with [2; 2]%nat. change (section_sizes 4 (Z.to_nat 4)) with [1; 1; 1; 1]%nat.
  unfold rbind, getmax, getmin, meanR. cbn. split.
  - f_equal. field.
  - unfold Rmin, Rmax. repeat destruct Rle_dec; lra.
Qed.
