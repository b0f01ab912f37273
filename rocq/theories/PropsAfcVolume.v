(** C34, C35: the volumes and areas of the material ratio curve in absolute terms. *)
From Coq Require Import String Reals Lra Lia List Bool.
From Verif Require Import Base RList ModelHeights ModelMath ModelDetrend ModelAfc ProofMath ProofAfc PropsAfc PropsAfc2.
Import ListNotations.
Local Open Scope R_scope.

(** *** Specification *)
(** the area between the polygon through the points (ratio, height) and height zero *)
Fixpoint area_under (l : list (R * R)) : R :=
  match l with
  | (m0, z0) :: ((m1, z1) :: _) as l' => (m1 - m0) * ((z0 + z1) / 2) + area_under l'
  | _ => 0
  end.
(** the k-th point of a curve *)
Definition ratio_at (c : list (R * R)) (k : nat) : R := fst (nth k c (0, 0)).
Definition height_at_ (c : list (R * R)) (k : nat) : R := snd (nth k c (0, 0)).
(** the material above the height of the k-th point: the curve up to there, less the rectangle under that height *)
Definition material_above (c : list (R * R)) (k : nat) : R := area_under (firstn (S k) c) - ratio_at c k * height_at_ c k.
(** the void below the height of the k-th point: the rectangle under that height, less the curve from there *)
Definition void_below (c : list (R * R)) (k : nat) : R := (100 - ratio_at c k) * height_at_ c k - area_under (skipn k c).
(** the (first) point of the curve whose height is nearest to z *)
Definition nearest_point (c : list (R * R)) (z : R) (k : nat) : Prop :=
  (k < length c)%nat /\ (forall j, (j < length c)%nat -> Rabs (height_at_ c k - z) <= Rabs (height_at_ c j - z)) /\
  (forall j, (j < k)%nat -> Rabs (height_at_ c k - z) < Rabs (height_at_ c j - z)).

Lemma last_step {A} (l : list A) : forall x p, last (x :: l) p = last l x.
Proof. induction l as [|q l IH]; intros x p; [reflexivity|]. change (last (x :: q :: l) p) with (last (q :: l) p). rewrite !IH. reflexivity. Qed.
Lemma parts (l : list (R * R)) : forall p,
  trapezoid (map (fun p => (snd p, fst p)) (p :: l)) + area_under (p :: l) = fst (last l p) * snd (last l p) - fst p * snd p.
Proof.
  induction l as [|q l IH]; intros [m0 z0]; [cbn; lra|]. destruct q as [m1 z1]. specialize (IH (m1, z1)).
  rewrite last_step. cbn [map trapezoid area_under fst snd] in *. lra.
Qed.
Lemma parts_void (l : list (R * R)) : forall p,
  - trapezoid (map (fun p => (snd p, 100 - fst p)) (p :: l)) + area_under (p :: l) =
    (100 - fst p) * snd p - (100 - fst (last l p)) * snd (last l p).
Proof.
  induction l as [|q l IH]; intros [m0 z0]; [cbn; lra|]. destruct q as [m1 z1]. specialize (IH (m1, z1)).
  rewrite last_step. cbn [map trapezoid area_under fst snd] in *. lra.
Qed.
Lemma last_nth {A} (l : list A) : forall p d, last l p = nth (length l) (p :: l) d.
Proof. induction l as [|q l IH]; intros p d; [reflexivity|]. cbn [length nth]. rewrite last_step. apply IH. Qed.
Lemma firstn_nth {A} (l : list A) d : forall k j, (j < k)%nat -> nth j (firstn k l) d = nth j l d.
Proof. induction l as [|x l IH]; intros [|k] [|j] H; cbn; auto; try lia. apply IH. lia. Qed.

Section Curve.
Variables (n : nat) (d : list R).
Hypothesis Hn : (2 <= n)%nat.
Hypothesis Hd : d <> [].
Let c := material_curve n d.

Lemma above_value k : (k < n)%nat -> area_above c (S k) = material_above c k.
Proof.
  intros Hk. unfold c. rewrite (area_above_eq n d Hn Hd). unfold material_above, up_pts. rewrite firstn_map. fold c.
  assert (L : length c = n) by apply (c_length n d).
  destruct (firstn (S k) c) as [|p l] eqn:E. { apply (f_equal (@length _)) in E. rewrite firstn_length, L in E. cbn [length] in E. lia. }
  pose proof (parts l p) as P. rewrite (last_nth l p (0, 0)), <- E in P.
  assert (Ll : length l = k). { apply (f_equal (@length _)) in E. rewrite firstn_length, L in E. cbn [length] in E. lia. }
  rewrite Ll, firstn_nth in P by lia.
  assert (P0 : fst p = 0). { replace p with (nth 0 c (0, 0)); [unfold c; rewrite (c_nth n d 0) by lia; cbn; apply (Mi_0 n Hn)|].
    rewrite <- (firstn_nth c (0, 0) (S k) 0) by lia. rewrite E. reflexivity. }
  rewrite P0 in P. rewrite E in P. unfold ratio_at, height_at_. lra.
Qed.
Lemma below_value k : (k < n)%nat -> area_below c k = void_below c k.
Proof.
  intros Hk. unfold c. rewrite (area_below_eq n d Hn Hd). unfold void_below, lo_pts. rewrite skipn_map. fold c.
  assert (L : length c = n) by apply (c_length n d).
  destruct (skipn k c) as [|p l] eqn:E. { apply (f_equal (@length _)) in E. rewrite skipn_length, L in E. cbn [length] in E. lia. }
  pose proof (parts_void l p) as P. rewrite (last_nth l p (0, 0)), <- E in P.
  assert (Ll : length l = (n - 1 - k)%nat). { apply (f_equal (@length _)) in E. rewrite skipn_length, L in E. cbn [length] in E. lia. }
  assert (N : forall j, nth j (skipn k c) (0, 0) = nth (k + j) c (0, 0)).
  { intros j. apply nth_skipn_g. }
  rewrite N, Ll in P. replace (k + (n - 1 - k))%nat with (n - 1)%nat in P by lia.
  assert (Pl : fst (nth (n - 1) c (0, 0)) = 100) by (unfold c; rewrite (c_nth n d (n - 1)) by lia; cbn; apply (Mi_last n Hn)).
  rewrite Pl in P.
  assert (Pp : nth k c (0, 0) = p) by (replace k with (k + 0)%nat by lia; rewrite <- N, E; reflexivity).
  unfold ratio_at, height_at_. rewrite Pp. rewrite E in P. lra.
Qed.
Lemma idx_nearest z : nearest_point c z (idx_of c z).
Proof.
  assert (X := idx_ok n d Hn z). apply argclosest_spec in X. fold c in X. rewrite map_length in X.
  assert (Nh : forall j, nth j (map snd c) 0 = height_at_ c j) by (intros j; apply (map_nth snd c (0, 0) j)).
  destruct X as (A & B & C). split; [exact A|]. split; intros j Hj; rewrite <- !Nh; auto.
Qed.
Lemma area_above_0 : area_above c 0 = 0. Proof. unfold area_above. cbn. apply Rabs_R0. Qed.
End Curve.

(** *** Void: the value is exactly the void below the curve point nearest to mc(p), as a height (volume per area) *)
Theorem C34_void_value : forall polyfit n data a p, (2 <= n)%nat -> afc_init polyfit n data = Ok a ->
  exists k, nearest_point (a_curve a) (mc (a_curve a) p) k /\ Vv a p = void_below (a_curve a) k / 100.
Proof.
  intros polyfit n data a p Hn E. destruct (init_inv _ _ _ _ E) as (d & _ & Hd & _ & _ & Ec & _).
  exists (idx_of (a_curve a) (mc (a_curve a) p)). unfold Vv. rewrite Ec.
  pose proof (idx_nearest n d Hn (mc (material_curve n d) p)) as N. split; [exact N|].
  rewrite (below_value n d Hn Hd); [reflexivity|]. destruct N as [N _]. rewrite (c_length n d) in N. exact N.
Qed.
(** *** Material: the value is the material above the curve point BEFORE the one nearest to mc(p); the last strip is left out *)
Theorem C34_material_value_partial : forall polyfit n data a p, (2 <= n)%nat -> afc_init polyfit n data = Ok a ->
  exists k, nearest_point (a_curve a) (mc (a_curve a) p) k /\ Vm a p = (if Nat.eqb k 0 then 0 else material_above (a_curve a) (k - 1)) / 100.
Proof.
  intros polyfit n data a p Hn E. destruct (init_inv _ _ _ _ E) as (d & _ & Hd & _ & _ & Ec & _).
  exists (idx_of (a_curve a) (mc (a_curve a) p)). unfold Vm. rewrite Ec.
  pose proof (idx_nearest n d Hn (mc (material_curve n d) p)) as N. split; [exact N|]. f_equal.
  destruct N as [N _]. rewrite (c_length n d) in N. destruct (idx_of (material_curve n d) (mc (material_curve n d) p)) as [|k]; cbn [Nat.eqb].
  - apply area_above_0. - rewrite (above_value n d Hn Hd) by lia. f_equal. lia.
Qed.
(** the strip that is left out: its size, never more than one step of the curve *)
Theorem C34_material_error : forall polyfit n data a p k, (2 <= n)%nat -> afc_init polyfit n data = Ok a ->
  nearest_point (a_curve a) (mc (a_curve a) p) (S k) ->
  let c := a_curve a in let strip := (height_at_ c k - height_at_ c (S k)) * (ratio_at c k + ratio_at c (S k)) / 200 in
  material_above c (S k) / 100 - Vm a p = strip /\ 0 <= strip <= height_at_ c k - height_at_ c (S k).
Proof.
  intros polyfit n data a p k Hn E NP c strip. destruct (C34_material_value_partial _ _ _ _ p Hn E) as (k' & NP' & V).
  assert (k' = S k) as ->.
  { destruct NP as (A & B & C). destruct NP' as (A' & B' & C'). destruct (Nat.lt_trichotomy k' (S k)) as [H|[H|H]]; auto.
    - specialize (C k' H). specialize (B' (S k) A). lra.
    - specialize (C' (S k) H). specialize (B k' A'). lra. }
  cbn [Nat.eqb] in V. replace (S k - 1)%nat with k in V by lia. fold c in V. rewrite V.
  destruct (init_inv _ _ _ _ E) as (d & _ & Hd & _ & _ & Ec & _).
  assert (L : (S k < n)%nat). { destruct NP as [A _]. fold c in A. unfold c in A. rewrite Ec, (c_length n d) in A. exact A. }
  assert (S1 : material_above c (S k) = material_above c k + (height_at_ c k - height_at_ c (S k)) * (ratio_at c k + ratio_at c (S k)) / 2).
  { unfold material_above.
    assert (U : forall (l : list (R * R)) j, (S j < length l)%nat -> area_under (firstn (S (S j)) l) =
        area_under (firstn (S j) l) + (ratio_at l (S j) - ratio_at l j) * ((height_at_ l j + height_at_ l (S j)) / 2)).
    { clear. induction l as [|[m0 z0] l IH]; intros j H; [cbn in H; lia|]. destruct l as [|[m1 z1] l]; [cbn in H; lia|].
      destruct j as [|j]; [unfold ratio_at, height_at_; cbn; lra|].
      change (firstn (S (S (S j))) ((m0, z0) :: (m1, z1) :: l)) with ((m0, z0) :: (m1, z1) :: firstn (S j) l).
      change (firstn (S (S j)) ((m0, z0) :: (m1, z1) :: l)) with ((m0, z0) :: (m1, z1) :: firstn j l).
      specialize (IH j ltac:(cbn in *; lia)).
      change (firstn (S (S j)) ((m1, z1) :: l)) with ((m1, z1) :: firstn (S j) l) in IH.
      change (firstn (S j) ((m1, z1) :: l)) with ((m1, z1) :: firstn j l) in IH.
      assert (A : forall q qs, area_under ((m0, z0) :: q :: qs) = (fst q - m0) * ((z0 + snd q) / 2) + area_under (q :: qs)) by (intros [? ?] ?; reflexivity).
      rewrite !A, IH. unfold ratio_at, height_at_. cbn [nth]. lra. }
    rewrite U by (unfold c; rewrite Ec, (c_length n d); exact L). lra. }
  assert (H1 : height_at_ c (S k) <= height_at_ c k).
  { unfold height_at_, c. rewrite Ec, !(c_nth n d) by lia. cbn. apply (Hi_le n d Hn Hd). lia. }
  assert (H2 : 0 <= ratio_at c k + ratio_at c (S k) <= 200).
  { unfold ratio_at, c. rewrite Ec, !(c_nth n d) by lia. cbn. pose proof (Mi_range n Hn k ltac:(lia)). pose proof (Mi_range n Hn (S k) L). lra. }
  split; [rewrite S1; unfold strip; lra|]. unfold strip. split.
  - apply Rmult_le_pos; [|lra]. apply Rmult_le_pos; lra.
  - assert (X : (height_at_ c k - height_at_ c (S k)) * (ratio_at c k + ratio_at c (S k)) <= (height_at_ c k - height_at_ c (S k)) * 200)
      by (apply Rmult_le_compat_l; lra). lra.
Qed.
(** all of the void: the height of the surface less the mean of the curve *)
Theorem C34_total_void : forall polyfit n data a hi, (2 <= n)%nat -> afc_init polyfit n data = Ok a -> is_max hi (a_data a) ->
  Vv a 0 = hi - area_under (a_curve a) / 100.
Proof.
  intros polyfit n data a hi Hn E M. destruct (C34_void_value _ _ _ _ 0 Hn E) as (k & (A & B & C) & V). rewrite V.
  destruct (init_inv _ _ _ _ E) as (d & _ & Hd & _ & Ed & Ec & _). rewrite Ed in M.
  assert (k = 0%nat) as ->.
  { destruct k as [|k]; auto. exfalso. specialize (C 0%nat ltac:(lia)). rewrite Ec in C, A. rewrite (mc_left n d Hn 0) in C by lra.
    assert (X0 : height_at_ (material_curve n d) 0 = Hi n d 0) by (unfold height_at_; rewrite (c_nth n d) by lia; reflexivity).
    rewrite X0 in C. replace (Hi n d 0 - Hi n d 0) with 0 in C by lra. rewrite Rabs_R0 in C. pose proof (Rabs_pos (height_at_ (material_curve n d) (S k) - Hi n d 0)). lra. }
  unfold void_below. cbn [skipn]. unfold ratio_at, height_at_. rewrite Ec, (c_nth n d) by lia. cbn [fst snd].
  rewrite (Mi_0 n Hn), (Hi_first n d Hn hi M). lra.
Qed.

(** for a surface with the heights 0 and 1 the material volume at 100 % is too small, for every number of bins *)
Theorem C34_material_refuted : forall polyfit n, (3 <= n)%nat -> exists a, afc_init polyfit n [Some 0; Some 1] = Ok a /\
  nearest_point (a_curve a) (mc (a_curve a) 100) (n - 1) /\ Vm a 100 < material_above (a_curve a) (n - 1) / 100.
Proof.
  intros polyfit n Hn. assert (Hn2 : (2 <= n)%nat) by lia.
  destruct (proj2 (C32_defined polyfit n (map Some [0; 1]))) as [a E]; [repeat split; [lia|discriminate|intros X; apply in_map_iff in X as (? & ? & _); discriminate]|].
  exists a. split; [exact E|]. destruct (init_inv _ _ _ _ E) as (d & Ed & Hd & _ & _ & Ec & _). apply map_Some_inj in Ed. subst d.
  assert (H : forall i, (i < n)%nat -> height_at_ (a_curve a) i = 1 - Mi n i / 100).
  { intros i Hi. unfold height_at_. rewrite Ec, (c_nth n [0; 1]) by exact Hi. cbn. apply Hi_01; auto. }
  assert (Z : mc (a_curve a) 100 = 0). { rewrite Ec, (mc_right n [0; 1] Hn2 100) by lra. rewrite Hi_01 by lia. rewrite (Mi_last n Hn2). lra. }
  assert (NP : nearest_point (a_curve a) (mc (a_curve a) 100) (n - 1)).
  { assert (Lc : length (a_curve a) = n) by (rewrite Ec; apply (c_length n [0; 1])). unfold nearest_point. rewrite Lc, Z. rewrite H by lia. rewrite (Mi_last n Hn2).
    replace (1 - 100 / 100 - 0) with 0 by lra. rewrite Rabs_R0. split; [lia|]. split; intros j Hj; [apply Rabs_pos|].
    rewrite H by lia. apply Rabs_pos_lt. pose proof (Mi_lt n Hn2 j (n - 1) Hj) as L. rewrite (Mi_last n Hn2) in L. lra. }
  split; [exact NP|]. destruct n as [|[|[|m]]]; try lia. replace (S (S (S m)) - 1)%nat with (S (S m)) in * by lia.
  destruct (C34_material_error polyfit _ _ a 100 (S m) Hn2 E NP) as [D _]. rewrite !H in D by lia.
  pose proof (Mi_lt _ Hn2 (S m) (S (S m)) ltac:(lia)) as L. pose proof (Mi_range _ Hn2 (S m) ltac:(lia)) as R1. pose proof (Mi_range _ Hn2 (S (S m)) ltac:(lia)) as R2.
  assert (P : 0 < (1 - Mi (S (S (S m))) (S m) / 100 - (1 - Mi (S (S (S m))) (S (S m)) / 100)) * (ratio_at (a_curve a) (S m) + ratio_at (a_curve a) (S (S m))) / 200).
  { apply Rmult_lt_0_compat; [|lra]. apply Rmult_lt_0_compat; [lra|]. unfold ratio_at. rewrite Ec, !(c_nth _ [0; 1]) by lia. cbn [fst]. lra. }
  lra.
Qed.

(** *** C35: Sak1 and Sak2 in the same terms: the material above (a step before) the curve point nearest to the upper end of the core line, and the
    void below the point nearest to the lower end *)
Theorem C35_area_values : forall polyfit ord n data a x, sorter_ok ord -> (2 <= n)%nat -> afc_init polyfit n data = Ok a ->
  (ak1 ord a = Some x -> exists k, nearest_point (a_curve a) (yupper a) k /\ x = if Nat.eqb k 0 then 0 else material_above (a_curve a) (k - 1)) /\
  (ak2 ord a = Some x -> exists k, nearest_point (a_curve a) (ylower a) k /\ x = void_below (a_curve a) k).
Proof.
  intros polyfit ord n data a x Ho Hn E. destruct (init_inv _ _ _ _ E) as (d & _ & Hd & _ & _ & Ec & _). split; intros H.
  - assert (Hp : exists y, pk ord a = Some y) by (unfold ak1 in H; destruct (pk ord a); [eauto | discriminate]). destruct Hp as [y Hp].
    destruct (C35_triangle_areas _ _ _ _ _ x y Ho Hn E) as [T _]. destruct (T H Hp) as [_ ->].
    exists (idx_of (a_curve a) (yupper a)). rewrite Ec. pose proof (idx_nearest n d Hn (yupper a)) as N. split; [exact N|].
    destruct N as [N _]. rewrite (c_length n d) in N. destruct (idx_of (material_curve n d) (yupper a)) as [|k]; cbn [Nat.eqb].
    + apply area_above_0. + rewrite (above_value n d Hn Hd) by lia. f_equal. lia.
  - assert (Hp : exists y, vk ord a = Some y) by (unfold ak2 in H; destruct (vk ord a); [eauto | discriminate]). destruct Hp as [y Hp].
    destruct (C35_triangle_areas _ _ _ _ _ x y Ho Hn E) as [_ T]. destruct (T H Hp) as [_ ->].
    exists (idx_of (a_curve a) (ylower a)). rewrite Ec. pose proof (idx_nearest n d Hn (ylower a)) as N. split; [exact N|].
    apply (below_value n d Hn Hd). destruct N as [N _]. rewrite (c_length n d) in N. exact N.
Qed.
