(** C41: the autocorrelation function. *)
From Coq Require Import Reals List Bool Arith ZArith Lia Lra Permutation.
From Verif Require Import Base RList ModelMath ModelHeights ModelGeom ModelDetrend ModelAfc ModelFill ModelAcf ProofMath ProofHeights ProofParams PropsFill PropsGeom.
Import ListNotations.
Local Open Scope R_scope.

(** *** Tables *)
Lemma nth_map_seq {A} (f : nat -> A) n i d : (i < n)%nat -> nth i (map f (seq 0 n)) d = f i.
Proof. intros H. rewrite nth_indep with (d' := f 0%nat) by (rewrite map_length, seq_length; exact H). rewrite map_nth, seq_nth by exact H. reflexivity. Qed.
Lemma at2_tab n m f i j : at2 (tabulate n m f) i j = if Nat.ltb i n && Nat.ltb j m then f i j else 0.
Proof.
  unfold at2, tabulate. destruct (Nat.ltb_spec i n) as [H|H].
  - rewrite nth_map_seq by exact H. destruct (Nat.ltb_spec j m) as [H'|H']; cbn [andb]; [apply nth_map_seq; exact H'|]. apply nth_overflow. rewrite map_length, seq_length. exact H'.
  - cbn [andb]. rewrite (nth_overflow (map _ _)) by (rewrite map_length, seq_length; exact H). destruct j; reflexivity.
Qed.
Lemma at2_in n m f i j : (i < n)%nat -> (j < m)%nat -> at2 (tabulate n m f) i j = f i j.
Proof. intros H H'. rewrite at2_tab. apply Nat.ltb_lt in H, H'. rewrite H, H'. reflexivity. Qed.
Lemma mrows_tab n m f : mrows (tabulate n m f) = n.
Proof. unfold mrows, tabulate. rewrite map_length, seq_length. reflexivity. Qed.
Lemma mcols_tab n m f : (0 < n)%nat -> mcols (tabulate n m f) = m.
Proof. intros H. unfold mcols, tabulate. destruct n; [lia|]. cbn [seq map hd]. rewrite map_length, seq_length. reflexivity. Qed.
Lemma reflect_tab n m f : reflect (tabulate n m f) = tabulate n m (fun i j => f (n - 1 - i)%nat (m - 1 - j)%nat).
Proof.
  assert (R : forall {B} k (h : nat -> B), rev (map h (seq 0 k)) = map (fun i => h (k - 1 - i)%nat) (seq 0 k)).
  { intros B k h. destruct k as [|k]; [reflexivity|]. apply nth_ext with (d := h 0%nat) (d' := h 0%nat); [rewrite rev_length, !map_length; reflexivity|].
    intros i Hi. rewrite rev_length, map_length, seq_length in Hi. rewrite rev_nth by (rewrite map_length, seq_length; exact Hi). rewrite map_length, seq_length.
    rewrite !nth_map_seq by lia. f_equal. lia. }
  unfold reflect, tabulate. rewrite map_map. rewrite R. apply map_ext. intros i. rewrite R. reflexivity.
Qed.
Lemma sum2_coords n m f : sum2 n m f = sumR (map (fun c => f (fst c) (snd c)) (coords n m)).
Proof.
  unfold sum2, coords. induction (seq 0 n) as [|i l IH]; [reflexivity|]. cbn [map flat_map]. rewrite map_app, sumR_app, sumR_cons, IH, map_map. reflexivity.
Qed.
Lemma sumR_filter {A} (p : A -> bool) (f : A -> R) l : sumR (map (fun x => if p x then f x else 0) l) = sumR (map f (List.filter p l)).
Proof. induction l as [|x l IH]; cbn [map List.filter]; [reflexivity|]. rewrite sumR_cons, IH. destruct (p x); cbn [map]; [rewrite sumR_cons; reflexivity|lra]. Qed.
Lemma sum_window n lo hi : (lo <= hi <= n)%nat -> sumR (map (fun i => if Nat.leb lo i && Nat.ltb i hi then 1 else 0) (seq 0 n)) = INR (hi - lo).
Proof.
  intros H. replace n with (lo + ((hi - lo) + (n - hi)))%nat by lia. rewrite !seq_app, !map_app, !sumR_app. cbn [Nat.add].
  assert (A : sumR (map (fun i => if Nat.leb lo i && Nat.ltb i hi then 1 else 0) (seq 0 lo)) = INR (length (seq 0 lo)) * 0).
  { rewrite <- sumR_map_const. apply sumR_ext. intros i Hi. apply in_seq in Hi. destruct (Nat.leb_spec lo i); [lia|reflexivity]. }
  assert (B : sumR (map (fun i => if Nat.leb lo i && Nat.ltb i hi then 1 else 0) (seq lo (hi - lo))) = INR (length (seq lo (hi - lo))) * 1).
  { rewrite <- sumR_map_const. apply sumR_ext. intros i Hi. apply in_seq in Hi. destruct (Nat.leb_spec lo i); [|lia]. destruct (Nat.ltb_spec i hi); [reflexivity|lia]. }
  assert (C : sumR (map (fun i => if Nat.leb lo i && Nat.ltb i hi then 1 else 0) (seq (lo + (hi - lo)) (n - hi))) = INR (length (seq (lo + (hi - lo)) (n - hi))) * 0).
  { rewrite <- sumR_map_const. apply sumR_ext. intros i Hi. apply in_seq in Hi. destruct (Nat.leb_spec lo i); [|reflexivity]. destruct (Nat.ltb_spec i hi); [lia|reflexivity]. }
  rewrite A, B, C, !seq_length. lra.
Qed.
(** i and i + (n - 1) - p are both indices of an axis of length n *)
Definition meets (n p i : nat) : bool := Nat.leb i p && Nat.ltb (p - i) n.
Lemma count_meets n p : (p < 2 * n - 1)%nat -> sumR (map (fun i => if meets n p i then 1 else 0) (seq 0 n)) = overlap n p.
Proof.
  intros H. set (lo := (p + 1 - n)%nat). set (hi := Nat.min (p + 1) n).
  rewrite sumR_ext with (g := fun i => if Nat.leb lo i && Nat.ltb i hi then 1 else 0).
  - rewrite sum_window by (unfold lo, hi; lia). unfold overlap, lo, hi. destruct (Nat.le_gt_cases (p + 1) n) as [L|L].
    + rewrite Nat.min_l by lia. replace (p + 1 - (p + 1 - n))%nat with (p + 1)%nat by lia. rewrite Rabs_left1; [rewrite plus_INR; cbn [INR]; lra|].
      apply le_INR in L. rewrite plus_INR in L. cbn [INR] in L. lra.
    + rewrite Nat.min_r by lia. replace (n - (p + 1 - n))%nat with (2 * n - 1 - p)%nat by lia. rewrite !minus_INR by lia. rewrite mult_INR. cbn [INR].
      rewrite Rabs_pos_eq; [lra|]. apply lt_INR in L. rewrite plus_INR in L. cbn [INR] in L. lra.
  - intros i Hi. apply in_seq in Hi. unfold meets, lo, hi.
    destruct (Nat.leb_spec i p), (Nat.ltb_spec (p - i) n), (Nat.leb_spec (p + 1 - n) i), (Nat.ltb_spec i (Nat.min (p + 1) n)); cbn [andb]; try reflexivity; lia.
Qed.
Lemma overlap_pos n p : (p < 2 * n - 1)%nat -> 0 < overlap n p.
Proof.
  intros H. unfold overlap. destruct (Rle_dec 0 (INR p - (INR n - 1))) as [L|L].
  - rewrite Rabs_pos_eq by exact L. assert (INR p < 2 * INR n - 1); [|lra]. replace (2 * INR n - 1) with (INR (2 * n - 1)) by (rewrite minus_INR, mult_INR by lia; cbn [INR]; lra). apply lt_INR. exact H.
  - rewrite Rabs_left1 by lra. pose proof (pos_INR p). lra.
Qed.

(** *** Specification: the grid of the heights z, its mean, and the pairs of cells at a given lag *)
Definition grid_of (z : nat -> nat -> R) (ny nx : nat) : grid := map (fun i => map (fun j => Some (z i j)) (seq 0 nx)) (seq 0 ny).
Definition mean_height (z : nat -> nat -> R) (ny nx : nat) : R := meanR (map (fun c => z (fst c) (snd c)) (coords ny nx)).
(** [L] lists every pair of cells of the grid whose positions differ by (dy, dx), each once *)
Definition enumerates (L : list ((nat * nat) * (nat * nat))) (ny nx : nat) (dy dx : Z) : Prop :=
  NoDup L /\ forall i j k l, In ((i, j), (k, l)) L <-> (i < ny /\ j < nx /\ k < ny /\ l < nx)%nat /\ (Z.of_nat k = Z.of_nat i + dy)%Z /\ (Z.of_nat l = Z.of_nat j + dx)%Z.
(** every complete rectangular grid is one of these *)
Lemma measured_all l : existsb is_nan l = false -> map (fun h => match h with Some x => x | None => 0 end) l = measured l.
Proof. induction l as [|[x|] l IH]; cbn [existsb is_nan orb]; intros H; [reflexivity| |discriminate]. cbn [map measured flat_map app]. f_equal. apply IH. exact H. Qed.
Theorem C41_all_grids (g : grid) : rect g -> has_missing g = false -> g = grid_of (at2 (matrix_of g)) (nrows g) (ncols g).
Proof.
  intros Hr Hm. unfold grid_of. apply (list_eq_seq _ []); [reflexivity|]. intros i Hi.
  assert (Hin : In (nth i g []) g) by (apply nth_In; exact Hi). apply (list_eq_seq _ None); [apply Hr; exact Hin|]. intros j Hj. unfold at2, matrix_of.
  set (f := fun h : option R => match h with Some x => x | None => 0 end).
  change (@nil R) with (map f []) at 1. rewrite map_nth. change 0 with (f None) at 1. rewrite map_nth.
  assert (Hj' : (j < length (nth i g []))%nat) by (rewrite (Hr _ Hin); exact Hj).
  destruct (nth j (nth i g []) None) as [x|] eqn:E; [etransitivity; [exact E|]; apply f_equal; symmetry; exact (f_equal f E)|]. exfalso. unfold has_missing in Hm.
  assert (existsb is_nan (flat g) = true); [|congruence]. apply existsb_exists. exists None. split; [|reflexivity]. unfold flat. apply in_concat. exists (nth i g []). split; [exact Hin|]. rewrite <- E. apply nth_In. exact Hj'.
Qed.

Lemma has_missing_grid_of z ny nx : has_missing (grid_of z ny nx) = false.
Proof.
  unfold has_missing. destruct (existsb is_nan (flat (grid_of z ny nx))) eqn:E; [|reflexivity]. apply existsb_exists in E. destruct E as (h & Hh & Hn).
  unfold flat, grid_of in Hh. apply in_concat in Hh. destruct Hh as (r & Hr & Hh). apply in_map_iff in Hr. destruct Hr as (i & <- & _). apply in_map_iff in Hh. destruct Hh as (j & <- & _). discriminate.
Qed.
Lemma measured_grid_of z ny nx : measured (flat (grid_of z ny nx)) = map (fun c => z (fst c) (snd c)) (coords ny nx).
Proof.
  unfold flat, grid_of, coords. induction (seq 0 ny) as [|i l IH]; [reflexivity|]. cbn [map concat flat_map]. unfold measured in *. rewrite flat_map_app, map_app. etransitivity; [|apply (f_equal (app _)); exact IH].
  f_equal. clear IH. induction (seq 0 nx) as [|j k IHk]; [reflexivity|]. cbn [map flat_map app fst snd]. f_equal. exact IHk.
Qed.
Lemma coords_nonempty ny nx : (0 < ny)%nat -> (0 < nx)%nat -> coords ny nx <> [].
Proof. intros H H' E. assert (I : In (0, 0)%nat (coords ny nx)) by (apply In_coords; lia). rewrite E in I. exact I. Qed.
Lemma matrix_center z ny nx : (0 < ny)%nat -> (0 < nx)%nat -> matrix_of (center (grid_of z ny nx)) = tabulate ny nx (fun i j => z i j - mean_height z ny nx).
Proof.
  intros H H'. unfold center, nanmean. rewrite measured_grid_of. destruct (map _ (coords ny nx)) as [|x l] eqn:E.
  - exfalso. apply map_eq_nil in E. exact (coords_nonempty ny nx H H' E).
  - rewrite <- E. fold (mean_height z ny nx). unfold matrix_of, gmap, grid_of, tabulate. rewrite !map_map. apply map_ext. intros i. rewrite !map_map. reflexivity.
Qed.
Lemma acf_at (w : nat -> nat -> R) ny nx p q : (0 < ny)%nat -> (0 < nx)%nat -> (p < 2 * ny - 1)%nat -> (q < 2 * nx - 1)%nat ->
  at2 (autocorrelation (tabulate ny nx w)) p q =
  sumR (map (fun c => w (fst c) (snd c) * w (fst c + (ny - 1) - p)%nat (snd c + (nx - 1) - q)%nat) (List.filter (fun c => meets ny p (fst c) && meets nx q (snd c)) (coords ny nx)))
  / (overlap ny p * overlap nx q).
Proof.
  intros Hy Hx Hp Hq. unfold autocorrelation. cbv zeta. rewrite reflect_tab. unfold convolve_full. rewrite !mrows_tab, !mcols_tab by (rewrite ?mrows_tab; lia).
  rewrite at2_in by lia. rewrite at2_in by lia. rewrite sum2_coords. f_equal. rewrite <- sumR_filter. apply sumR_ext. intros [i j] Hc. apply In_coords in Hc. destruct Hc as [Hi Hj]. cbn [fst snd].
  rewrite at2_in by assumption. rewrite at2_tab. unfold meets. destruct (Nat.leb_spec i p), (Nat.leb_spec j q), (Nat.ltb_spec (p - i) ny), (Nat.ltb_spec (q - j) nx); cbn [andb]; try lra.
  f_equal. f_equal; lia.
Qed.
Lemma pairs_enumerate ny nx p q : (p < 2 * ny - 1)%nat -> (q < 2 * nx - 1)%nat ->
  enumerates (map (fun c => (c, (fst c + (ny - 1) - p, snd c + (nx - 1) - q)%nat)) (List.filter (fun c => meets ny p (fst c) && meets nx q (snd c)) (coords ny nx)))
    ny nx (Z.of_nat ny - 1 - Z.of_nat p) (Z.of_nat nx - 1 - Z.of_nat q).
Proof.
  intros Hp Hq. split.
  - apply FinFun.Injective_map_NoDup; [intros a b E; congruence|]. apply NoDup_filter, NoDup_coords.
  - intros i j k l. rewrite in_map_iff. split.
    + intros ([a b] & E & Hi). apply filter_In in Hi. destruct Hi as [Hc Hm]. apply In_coords in Hc. cbn [fst snd] in *. injection E as -> -> <- <-.
      unfold meets in Hm. apply andb_true_iff in Hm. destruct Hm as [H1 H2]. apply andb_true_iff in H1, H2. destruct H1 as [L1 L2], H2 as [L3 L4].
      apply Nat.leb_le in L1, L3. apply Nat.ltb_lt in L2, L4. lia.
    + intros ((Hi & Hj & Hk & Hl) & E1 & E2). exists (i, j). cbn [fst snd]. split; [f_equal; f_equal; lia|]. apply filter_In. split; [apply In_coords; lia|]. cbn [fst snd].
      unfold meets. destruct (Nat.leb_spec i p); [|lia]. destruct (Nat.ltb_spec (p - i) ny); [|lia]. destruct (Nat.leb_spec j q); [|lia]. destruct (Nat.ltb_spec (q - j) nx); [reflexivity|lia].
Qed.
Lemma enumerates_perm L L' ny nx dy dx : enumerates L ny nx dy dx -> enumerates L' ny nx dy dx -> Permutation L L'.
Proof. intros [N H] [N' H']. apply NoDup_Permutation; [exact N|exact N'|]. intros [[i j] [k l]]. rewrite H, H'. reflexivity. Qed.
Lemma enumerates_swap L ny nx dy dx : enumerates L ny nx dy dx -> enumerates (map (fun c => (snd c, fst c)) L) ny nx (- dy) (- dx).
Proof.
  intros [N H]. split; [apply FinFun.Injective_map_NoDup; [intros [a b] [c d] E; cbn [fst snd] in E; congruence|exact N]|]. intros i j k l. rewrite in_map_iff. split.
  - intros ([[a b] [c d]] & E & Hi). cbn [fst snd] in E. injection E as -> -> -> ->. apply H in Hi. lia.
  - intros (Hb & E1 & E2). exists ((k, l), (i, j)). split; [reflexivity|]. apply H. lia.
Qed.
Lemma count_pairs ny nx p q : (p < 2 * ny - 1)%nat -> (q < 2 * nx - 1)%nat ->
  INR (length (List.filter (fun c => meets ny p (fst c) && meets nx q (snd c)) (coords ny nx))) = overlap ny p * overlap nx q.
Proof.
  intros Hp Hq. transitivity (sumR (map (fun _ => 1) (List.filter (fun c => meets ny p (fst c) && meets nx q (snd c)) (coords ny nx)))); [rewrite sumR_map_const; lra|].
  rewrite <- sumR_filter. rewrite <- (sum2_coords ny nx (fun i j => if meets ny p i && meets nx q j then 1 else 0)). unfold sum2.
  rewrite <- (count_meets ny p Hp), <- (count_meets nx q Hq). generalize (seq 0 nx) as xs. intros xs. induction (seq 0 ny) as [|i l IH]; cbn [map]; [cbn [sumR fold_right]; lra|].
  rewrite !sumR_cons, IH, Rmult_plus_distr_r. f_equal. destruct (meets ny p i); cbn [andb]; [lra|]. rewrite sumR_map_const. lra.
Qed.

Section Claims.
Variables (z : nat -> nat -> R) (ny nx : nat).
Hypotheses (Hy : (0 < ny)%nat) (Hx : (0 < nx)%nat).
Let mu := mean_height z ny nx.
Definition products (L : list ((nat * nat) * (nat * nat))) : list R :=
  map (fun c => (z (fst (fst c)) (snd (fst c)) - mu) * (z (fst (snd c)) (snd (snd c)) - mu)) L.
Lemma acf_swapped dy dx L : (Z.abs dy < Z.of_nat ny)%Z -> (Z.abs dx < Z.of_nat nx)%Z -> enumerates L ny nx (- dy) (- dx) ->
  at2 (autocorrelation (matrix_of (center (grid_of z ny nx)))) (Z.to_nat (Z.of_nat ny - 1 + dy)) (Z.to_nat (Z.of_nat nx - 1 + dx)) = meanR (products L).
Proof.
  intros Dy Dx HL. rewrite matrix_center by assumption. set (p := Z.to_nat (Z.of_nat ny - 1 + dy)). set (q := Z.to_nat (Z.of_nat nx - 1 + dx)).
  assert (Hp : (p < 2 * ny - 1)%nat) by (unfold p; lia). assert (Hq : (q < 2 * nx - 1)%nat) by (unfold q; lia).
  rewrite acf_at by assumption. rewrite <- count_pairs by assumption. set (F := List.filter _ _).
  pose proof (pairs_enumerate ny nx p q Hp Hq) as HE. fold F in HE.
  replace (Z.of_nat ny - 1 - Z.of_nat p)%Z with (- dy)%Z in HE by (unfold p; lia). replace (Z.of_nat nx - 1 - Z.of_nat q)%Z with (- dx)%Z in HE by (unfold q; lia).
  pose proof (enumerates_perm _ _ _ _ _ _ HL HE) as HP.
  transitivity (meanR (products (map (fun c => (c, (fst c + (ny - 1) - p, snd c + (nx - 1) - q)%nat)) F))).
  - unfold meanR, products. rewrite !map_map, !map_length. reflexivity.
  - apply meanR_perm. apply Permutation_map. apply Permutation_sym. exact HP.
Qed.
(** The value at lag (dy, dx) is the mean of the products of the centred heights over all pairs of points at that lag. *)
Theorem C41_lag (d : matrix) (dy dx : Z) (L : list ((nat * nat) * (nat * nat))) : acf_new (grid_of z ny nx) = Ok d ->
  (Z.abs dy < Z.of_nat ny)%Z -> (Z.abs dx < Z.of_nat nx)%Z -> enumerates L ny nx dy dx ->
  at2 d (Z.to_nat (Z.of_nat ny - 1 + dy)) (Z.to_nat (Z.of_nat nx - 1 + dx)) = meanR (products L).
Proof.
  intros E Dy Dx HL. unfold acf_new in E. rewrite has_missing_grid_of in E. assert (Ed : d = autocorrelation (matrix_of (center (grid_of z ny nx)))) by congruence. subst d.
  rewrite (acf_swapped dy dx _ Dy Dx (enumerates_swap _ _ _ _ _ HL)). unfold products. rewrite map_map. cbn [fst snd]. apply meanR_ext. intros c _. lra.
Qed.
(** It has one value for every lag ... *)
Theorem C41_shape (d : matrix) : acf_new (grid_of z ny nx) = Ok d -> length d = (2 * ny - 1)%nat /\ forall r, In r d -> length r = (2 * nx - 1)%nat.
Proof.
  intros E. unfold acf_new in E. rewrite has_missing_grid_of in E. assert (Ed : d = autocorrelation (matrix_of (center (grid_of z ny nx)))) by congruence. subst d.
  rewrite matrix_center by assumption. unfold autocorrelation. cbv zeta. rewrite reflect_tab. unfold convolve_full. rewrite !mrows_tab, !mcols_tab by (rewrite ?mrows_tab; lia).
  split; [lia|]. intros r Hr. unfold tabulate at 1 in Hr. apply in_map_iff in Hr. destruct Hr as (i & <- & _). rewrite map_length, seq_length. lia.
Qed.
(** ... is point symmetric about its centre ... *)
Theorem C41_symmetric (d : matrix) (p q : nat) : acf_new (grid_of z ny nx) = Ok d -> (p < 2 * ny - 1)%nat -> (q < 2 * nx - 1)%nat ->
  at2 d p q = at2 d (2 * (ny - 1) - p) (2 * (nx - 1) - q).
Proof.
  intros E Hp Hq. set (dy := (Z.of_nat p - (Z.of_nat ny - 1))%Z). set (dx := (Z.of_nat q - (Z.of_nat nx - 1))%Z).
  set (p' := (2 * (ny - 1) - p)%nat). set (q' := (2 * (nx - 1) - q)%nat).
  pose proof (pairs_enumerate ny nx p' q' ltac:(unfold p'; lia) ltac:(unfold q'; lia)) as HE. set (L := map _ _) in HE.
  replace (Z.of_nat ny - 1 - Z.of_nat p')%Z with dy in HE by (unfold dy, p'; lia). replace (Z.of_nat nx - 1 - Z.of_nat q')%Z with dx in HE by (unfold dx, q'; lia).
  pose proof (C41_lag d dy dx L E ltac:(unfold dy; lia) ltac:(unfold dx; lia) HE) as H1.
  pose proof (C41_lag d (- dy) (- dx) _ E ltac:(unfold dy; lia) ltac:(unfold dx; lia) (enumerates_swap _ _ _ _ _ HE)) as H2.
  replace (Z.to_nat (Z.of_nat ny - 1 + dy)) with p in H1 by (unfold dy; lia). replace (Z.to_nat (Z.of_nat nx - 1 + dx)) with q in H1 by (unfold dx; lia).
  replace (Z.to_nat (Z.of_nat ny - 1 + - dy)) with p' in H2 by (unfold dy, p'; lia). replace (Z.to_nat (Z.of_nat nx - 1 + - dx)) with q' in H2 by (unfold dx, q'; lia).
  rewrite H1, H2. unfold products. rewrite map_map. cbn [fst snd]. apply meanR_ext. intros c _. lra.
Qed.
(** ... and its centre value is the variance of the heights (Sq squared). *)
Theorem C41_centre (d : matrix) : acf_new (grid_of z ny nx) = Ok d ->
  at2 d (length d / 2) (length (hd [] d) / 2) = varR (measured (flat (grid_of z ny nx))).
Proof.
  intros E. destruct (C41_shape d E) as [S1 S2].
  assert (S3 : length (hd [] d) = (2 * nx - 1)%nat) by (destruct d as [|r d]; [cbn [length] in S1; lia|apply S2; left; reflexivity]). rewrite S1, S3.
  pose proof (pairs_enumerate ny nx (ny - 1) (nx - 1) ltac:(lia) ltac:(lia)) as HE. set (F := List.filter _ _) in HE.
  replace (Z.of_nat ny - 1 - Z.of_nat (ny - 1))%Z with 0%Z in HE by lia. replace (Z.of_nat nx - 1 - Z.of_nat (nx - 1))%Z with 0%Z in HE by lia.
  pose proof (C41_lag d 0 0 _ E ltac:(lia) ltac:(lia) HE) as H.
  replace (Z.to_nat (Z.of_nat ny - 1 + 0)) with ((2 * ny - 1) / 2)%nat in H.
  2: { replace (2 * ny - 1)%nat with (1 + (ny - 1) * 2)%nat by lia. rewrite Nat.div_add by lia. change (1 / 2)%nat with 0%nat. lia. }
  replace (Z.to_nat (Z.of_nat nx - 1 + 0)) with ((2 * nx - 1) / 2)%nat in H.
  2: { replace (2 * nx - 1)%nat with (1 + (nx - 1) * 2)%nat by lia. rewrite Nat.div_add by lia. change (1 / 2)%nat with 0%nat. lia. }
  rewrite H. rewrite measured_grid_of. unfold varR. fold (mean_height z ny nx). fold mu. unfold products. rewrite !map_map. cbn [fst snd].
  assert (EF : F = coords ny nx).
  { unfold F. clear. assert (G : forall l, (forall c, In c l -> meets ny (ny - 1) (fst c) && meets nx (nx - 1) (snd c) = true) -> List.filter (fun c => meets ny (ny - 1) (fst c) && meets nx (nx - 1) (snd c)) l = l).
    { induction l as [|c l IH]; intros H; [reflexivity|]. cbn [List.filter]. rewrite (H c (or_introl eq_refl)). f_equal. apply IH. intros c' Hc'. apply H. right. exact Hc'. }
    apply G. intros [i j] Hc. apply In_coords in Hc. cbn [fst snd]. unfold meets.
    destruct (Nat.leb_spec i (ny - 1)); [|lia]. destruct (Nat.ltb_spec (ny - 1 - i) ny); [|lia]. destruct (Nat.leb_spec j (nx - 1)); [|lia]. destruct (Nat.ltb_spec (nx - 1 - j) nx); [reflexivity|lia]. }
  rewrite EF. apply meanR_ext. intros [i j] Hc. apply In_coords in Hc. cbn [fst snd]. replace (i + (ny - 1) - (ny - 1))%nat with i by lia. replace (j + (nx - 1) - (nx - 1))%nat with j by lia. reflexivity.
Qed.
End Claims.
(** Surfaces with missing points are refused. *)
Theorem C41_missing (g : grid) : has_missing g = true -> acf_new g = Err ValueError.
Proof. intros H. unfold acf_new. rewrite H. reflexivity. Qed.
