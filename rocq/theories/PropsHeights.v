(** Property theorems C07, C08, C10-C15 (surface.py arithmetic and equality, base.py:199-404). *)
From Coq Require Import String Reals List Bool Arith Lra Lia.
From Verif Require Import Base RList ModelMath ProofMath ModelHeights ProofHeights.
Import ListNotations.
Local Open Scope R_scope.

(** Specification vocabulary: [cell g i j = Some None] means row i, column j exists and is non-measured;
    [Some (Some x)] means it holds the height x; [None] means outside the array. *)
Definition frame_eq (a b : surf) : Prop :=
  s_sx a = s_sx b /\ s_sy a = s_sy b /\ nrows (s_data a) = nrows (s_data b) /\ ncols (s_data a) = ncols (s_data b).
Definition same_cells (g g' : grid) : Prop := nrows g = nrows g' /\ ncols g = ncols g' /\
  forall i j, cell g i j = None <-> cell g' i j = None.
(** The heights of [g'] are those of [g] transformed by [f], gaps stay where they are. *)
Definition pointwise (f : R -> R) (g g' : grid) : Prop :=
  nrows g' = nrows g /\ ncols g' = ncols g /\
  forall i j, cell g' i j = match cell g i j with Some (Some x) => Some (Some (f x)) | o => o end.

(** ** C07 *)
Inductive bop := Add | Sub | Mul | Div.
Definition py_op (o : bop) : surf -> operand -> res surf :=
  match o with Add => s_add | Sub => s_sub | Mul => s_mul | Div => s_div end.
(** Ideal meaning of the operators on two measured heights; x / 0 has no finite value. *)
Definition meaning (o : bop) (x y : R) : option R :=
  match o with Add => Some (x + y) | Sub => Some (x - y) | Mul => Some (x * y)
             | Div => if Req_EM_T y 0 then None else Some (x / y) end.
Definition combine_h (m : R -> R -> option R) (h k : height) : height :=
  match h, k with Some x, Some y => m x y | _, _ => None end.

Lemma py_op_arith o : exists f, py_op o = arith f /\ forall h k, f h k = combine_h (meaning o) h k.
Proof.
  destruct o; eexists; (split; [reflexivity|]); intros [x|] [y|]; reflexivity.
Qed.
Theorem C07_surfaces : forall o a b, rect (s_data a) -> rect (s_data b) -> frame_eq a b ->
  exists c, py_op o a (OSurface b) = Ok c /\ frame_eq c a /\
    forall i j h k, cell (s_data a) i j = Some h -> cell (s_data b) i j = Some k ->
      cell (s_data c) i j = Some (combine_h (meaning o) h k).
Proof.
  intros o a b Ra Rb F. destruct (py_op_arith o) as (f & -> & Hf). unfold arith.
  assert (SF : same_frame a b = true) by (apply same_frame_spec, F). rewrite SF. eexists. split; [reflexivity|].
  destruct F as (F1 & F2 & F3 & F4).
  assert (Sh := rect_same_shape _ _ Ra Rb F3 F4). split.
  - unfold frame_eq. cbn. repeat split; apply shape_dims; apply gzip_shape, Sh.
  - intros i j h k Eh Ek. cbn. now rewrite cell_gzip, Eh, Ek, Hf.
Qed.
Theorem C07_mismatch : forall o a b, ~ frame_eq a b -> py_op o a (OSurface b) = Err ValueError.
Proof.
  intros o a b H. destruct (py_op_arith o) as (f & -> & _). unfold arith.
  destruct (same_frame a b) eqn:E; [|reflexivity]. apply same_frame_spec in E. contradiction.
Qed.
Theorem C07_other_type : forall o a, py_op o a OOther = Err ValueError.
Proof. intros [] a; reflexivity. Qed.
(** int/float operand; [k = None] is the float nan *)
Theorem C07_scalar : forall o a k, exists c, py_op o a (ONumber k) = Ok c /\ frame_eq c a /\
  forall i j, cell (s_data c) i j = option_map (fun h => combine_h (meaning o) h k) (cell (s_data a) i j).
Proof.
  intros o a k. destruct (py_op_arith o) as (f & -> & Hf). eexists. split; [reflexivity|]. split.
  - unfold frame_eq. cbn. repeat split; apply shape_dims, shape_gmap.
  - intros i j. cbn. rewrite cell_gmap. destruct (cell (s_data a) i j); cbn; [now rewrite Hf|reflexivity].
Qed.
(** Reflected operators: __radd__ = __add__, __rmul__ = __mul__ (same function), and c - a is the negative of a - c. *)
Theorem C07_reflected_sub : forall a k, exists c d, s_rsub a (ONumber k) = Ok c /\ s_sub a (ONumber k) = Ok d /\
  (forall i j h, cell (s_data a) i j = Some h -> cell (s_data c) i j = Some (combine_h (meaning Sub) k h)) /\
  s_mul d (ONumber (Some (-1))) = Ok c.
Proof.
  intros a k. do 2 eexists. split; [reflexivity|]. split; [reflexivity|]. split.
  - intros i j h E. cbn. rewrite cell_gmap, E. cbn. destruct h, k; reflexivity.
  - unfold s_mul, arith. cbn [s_data s_sx s_sy]. f_equal. f_equal. rewrite gmap_gmap. apply gmap_ext_in. intros [x|] _; destruct k as [k|]; cbn; auto. f_equal. lra.
Qed.
(** A gap in either operand is a gap in the result, and (except division by zero) there are no others. *)
Theorem C07_gaps : forall o a b c i j h k, rect (s_data a) -> rect (s_data b) -> py_op o a (OSurface b) = Ok c ->
  cell (s_data a) i j = Some h -> cell (s_data b) i j = Some k -> k <> Some 0 ->
  (cell (s_data c) i j = Some None <-> h = None \/ k = None).
Proof.
  intros o a b c i j h k Ra Rb E Eh Ek Hk.
  assert (F : frame_eq a b).
  { destruct (same_frame a b) eqn:S; [apply same_frame_spec, S|].
    rewrite C07_mismatch in E; [discriminate|]. intros X. apply same_frame_spec in X. congruence. }
  destruct (C07_surfaces o a b Ra Rb F) as (c' & E' & _ & H). rewrite E in E'. injection E' as <-.
  rewrite (H i j h k Eh Ek). destruct h as [x|], k as [y|]; cbn; [|split; auto..]. split.
  - intros X. destruct o; cbn in X; try discriminate X. destruct (Req_EM_T y 0) as [->|]; [congruence|discriminate].
  - intros [X|X]; discriminate X.
Qed.
Example ex_C07 : s_sub (mkSurf [[Some 5; None]] 1 2) (OSurface (mkSurf [[Some 2; Some 1]] 1 2))
  = Ok (mkSurf [[Some (5 - 2); None]] 1 2).
Proof.
  unfold s_sub, arith. replace (same_frame _ _) with true; [reflexivity|].
  symmetry. apply same_frame_spec. cbn. auto.
Qed.

(** ** C08 *)
Definition cells_close (h k : height) : Prop :=
  match h, k with Some x, Some y => Rabs (x - y) <= / 10 ^ 10 | None, None => True | _, _ => False end.
Theorem C08_characterised : forall a b, rect (s_data a) -> rect (s_data b) ->
  (s_eq a b = true <-> frame_eq a b /\
     forall i j h k, cell (s_data a) i j = Some h -> cell (s_data b) i j = Some k -> cells_close h k).
Proof.
  intros a b Ra Rb. rewrite s_eq_spec by auto. unfold frame_eq, cells_close. tauto.
Qed.
Theorem C08_reflexive : forall a, rect (s_data a) -> s_eq a a = true.
Proof.
  intros a Ra. apply C08_characterised; auto. split; [unfold frame_eq; auto|].
  intros i j h k E1 E2. assert (h = k) by congruence. subst k. destruct h as [x|]; cbn; auto.
  replace (x - x) with 0 by lra. rewrite Rabs_R0. assert (T := tol_pos). lra.
Qed.
Theorem C08_symmetric : forall a b, rect (s_data a) -> rect (s_data b) -> s_eq a b = s_eq b a.
Proof.
  assert (H : forall a b, rect (s_data a) -> rect (s_data b) -> s_eq a b = true -> s_eq b a = true).
  { intros a b Ra Rb E. apply C08_characterised in E as [F C]; auto. apply C08_characterised; auto.
    split; [unfold frame_eq in *; intuition congruence|]. intros i j h k E1 E2. specialize (C i j k h E2 E1).
    destruct h as [x|], k as [y|]; cbn in *; auto. rewrite Rabs_minus_sym. exact C. }
  intros a b Ra Rb. destruct (s_eq a b) eqn:E, (s_eq b a) eqn:E'; auto.
  - rewrite (H a b) in E'; auto.
  - rewrite (H b a) in E; auto.
Qed.
(** "Equal surfaces have equal hashes" is false of the code: the hash uses mean and std, equality a tolerance. *)
Theorem C08_hash_refuted : exists a b, s_eq a b = true /\ hash_key a <> hash_key b.
Proof.
  exists (mkSurf [[Some 0]] 1 1), (mkSurf [[Some (/ 10 ^ 10)]] 1 1). assert (T := tol_pos).
  assert (Hr : forall x, rect [[x : height]]) by (intros x r [<-|[]]; reflexivity).
  split.
  - apply C08_characterised; cbn; auto. split; [unfold frame_eq; cbn; auto|].
    intros [|[|i]] [|[|j]] h k Eh Ek; cbn in *; try discriminate. injection Eh as <-. injection Ek as <-. cbn -[pow].
    rewrite Rabs_minus_sym, Rminus_0_r, Rabs_right; lra.
  - unfold hash_key. cbn -[pow Rinv]. rewrite !pair_equal_spec. intros [[_ E] _].
    injection E as E. unfold meanR in E. cbn -[pow Rinv] in E. lra.
Qed.
(** Exactly identical data hash equally (the part that holds); equality is also not transitive. *)
Theorem C08_hash_identical_partial : forall a b,
  s_sx a = s_sx b -> s_sy a = s_sy b -> s_data a = s_data b -> hash_key a = hash_key b.
Proof. intros a b E1 E2 E3. unfold hash_key. now rewrite E1, E2, E3. Qed.
Theorem C08_not_transitive : exists a b c, s_eq a b = true /\ s_eq b c = true /\ s_eq a c = false.
Proof.
  exists (mkSurf [[Some 0]] 1 1), (mkSurf [[Some (/ 10 ^ 10)]] 1 1), (mkSurf [[Some (2 * / 10 ^ 10)]] 1 1).
  assert (T := tol_pos).
  assert (Hr : forall x, rect [[x : height]]) by (intros x r [<-|[]]; reflexivity).
  assert (K : forall x y, s_eq (mkSurf [[Some x]] 1 1) (mkSurf [[Some y]] 1 1) = true <-> Rabs (x - y) <= / 10 ^ 10).
  { intros x y. rewrite C08_characterised by (cbn; auto). split.
    - intros [_ C]. exact (C 0%nat 0%nat _ _ eq_refl eq_refl).
    - intros H. split; [unfold frame_eq; cbn; auto|].
      intros [|[|i]] [|[|j]] h k Eh Ek; cbn in *; try discriminate. injection Eh as <-. injection Ek as <-. exact H. }
  set (t := / 10 ^ 10) in *.
  split; [|split].
  - apply K. rewrite Rabs_minus_sym, Rminus_0_r, Rabs_right; lra.
  - apply K. rewrite Rabs_minus_sym. replace (2 * t - t) with t by lra. rewrite Rabs_right; lra.
  - destruct (s_eq _ _) eqn:E; auto. apply K in E. rewrite Rabs_minus_sym, Rminus_0_r, Rabs_right in E; lra.
Qed.

(** ** C10 *)
Lemma shift_pointwise c g : pointwise (fun x => x - c) g (shift_grid c g).
Proof.
  unfold pointwise, shift_grid. assert (S := shape_dims _ _ (shape_gmap (fun h => hsub h (Some c)) g)).
  destruct S as [S1 S2]. split; [exact S1|]. split; [exact S2|].
  intros i j. rewrite cell_gmap. destruct (cell g i j) as [[x|]|]; reflexivity.
Qed.
Theorem C10_center : forall g, measured (flat g) <> [] ->
  pointwise (fun x => x - meanR (measured (flat g))) g (center g) /\
  meanR (measured (flat (center g))) = 0 /\
  center (center g) = center g.
Proof.
  intros g H. split; [|split].
  - rewrite center_shift by exact H. apply shift_pointwise.
  - apply center_mean_zero, H.
  - apply center_idem.
Qed.
Theorem C10_differences : forall g i j i' j' x y x' y',
  cell g i j = Some (Some x) -> cell g i' j' = Some (Some y) ->
  cell (center g) i j = Some (Some x') -> cell (center g) i' j' = Some (Some y') -> x' - y' = x - y.
Proof.
  intros g i j i' j' x y x' y' Ex Ey Ex' Ey'.
  assert (H : measured (flat g) <> []).
  { intros E. assert (I : In x (measured (flat g))) by (apply measured_In, In_flat_cell; eauto). rewrite E in I. destruct I. }
  destruct (C10_center g H) as [(_ & _ & P) _]. rewrite P, Ex in Ex'. rewrite P, Ey in Ey'.
  injection Ex' as <-. injection Ey' as <-. lra.
Qed.
Theorem C10_absorbs_offset : forall g g' c, pointwise (fun x => x - c) g g' -> rect g -> rect g' -> center g' = center g.
Proof.
  intros g g' c (P1 & P2 & P3) R R'.
  assert (E : g' = shift_grid c g).
  { apply grid_ext.
    - rewrite (rect_same_shape g' g) by auto. symmetry. apply shape_gmap.
    - intros i j. rewrite P3. symmetry. apply (proj2 (proj2 (shift_pointwise c g))). }
  rewrite E. apply center_absorbs_shift.
Qed.
Example ex_C10 : center [[Some 1; None]; [Some 3; Some 5]] = [[Some (-2); None]; [Some 0; Some 2]].
Proof. unfold center, nanmean, meanR; cbn. repeat f_equal; lra. Qed.

(** ** C11 *)
Theorem C11_zero : forall g m, In m (measured (flat g)) -> (forall x, In x (measured (flat g)) -> m <= x) ->
  exists g', zero g = Ok g' /\ pointwise (fun x => x - m) g g' /\
    In 0 (measured (flat g')) /\ (forall x, In x (measured (flat g')) -> 0 <= x) /\ zero g' = Ok g'.
Proof.
  intros g m Hin Hle. assert (M : is_min m (measured (flat g))) by (split; auto).
  exists (shift_grid m g). split; [apply zero_shift, M|]. split; [apply shift_pointwise|].
  assert (M0 : is_min 0 (measured (flat (shift_grid m g)))).
  { replace 0 with (m - m) by lra. apply shift_is_min, M. }
  split; [apply M0|]. split; [apply M0|]. rewrite (zero_shift _ 0 M0). f_equal. apply shift_zero.
Qed.
Theorem C11_exists_minimum : forall g, measured (flat g) <> [] ->
  exists m, In m (measured (flat g)) /\ forall x, In x (measured (flat g)) -> m <= x.
Proof. intros g H. destruct (lmin_ex _ H) as [m M]. apply lmin_spec in M. exists m. exact M. Qed.
Theorem C11_absorbs_offset : forall g c, measured (flat g) <> [] -> zero (shift_grid c g) = zero g.
Proof.
  intros g c H. destruct (C11_exists_minimum g H) as (m & M).
  rewrite (zero_shift g m M). assert (M' := shift_is_min c g m M). rewrite (zero_shift _ _ M').
  f_equal. rewrite shift_shift. f_equal. lra.
Qed.
(** All heights missing: nothing changes. Empty array: ValueError. *)
Theorem C11_no_heights : forall g, measured (flat g) = [] ->
  zero g = match flat g with [] => Err ValueError | _ => Ok g end.
Proof.
  intros g H. destruct (flat g) eqn:E; [unfold zero; now rewrite E|]. apply zero_none; congruence.
Qed.
Example ex_C11 : zero [[Some 1; None]; [Some 3; Some 5]] = Ok [[Some 0; None]; [Some 2; Some 4]].
Proof.
  rewrite (zero_shift _ 1); [|split; cbn; [auto|intros x [<-|[<-|[<-|[]]]]; lra]].
  cbn. repeat f_equal; lra.
Qed.

(** ** C12 *)
Theorem C12_invert_partial : forall g, has_missing g = false -> flat g <> [] ->
  exists g' a b, invert g = Ok g' /\
    is_min a (measured (flat g)) /\ is_max b (measured (flat g)) /\
    pointwise (fun x => a + b - x) g g' /\
    is_min a (measured (flat g')) /\ is_max b (measured (flat g')) /\
    invert g' = Ok g.
Proof.
  intros g Hm Hne.
  assert (H : measured (flat g) <> []).
  { intros E. apply Hne. rewrite <- (measured_all _ Hm), E. reflexivity. }
  destruct (lmin_ex _ H) as [a A]. destruct (lmax_ex _ H) as [b B].
  apply lmin_spec in A. apply lmax_spec in B.
  set (f := option_map (fun x => a + b - x)). exists (gmap f g), a, b.
  assert (Mg : measured (flat (gmap f g)) = map (fun x => a + b - x) (measured (flat g))).
  { rewrite flat_gmap. apply measured_map; reflexivity. }
  assert (A' : is_min a (measured (flat (gmap f g)))).
  { rewrite Mg. destruct A as [A1 A2], B as [B1 B2]. split.
    - apply in_map_iff. exists b. split; [lra|exact B1].
    - intros x Hx. apply in_map_iff in Hx as (y & <- & Hy). specialize (B2 y Hy). lra. }
  assert (B' : is_max b (measured (flat (gmap f g)))).
  { rewrite Mg. destruct A as [A1 A2], B as [B1 B2]. split.
    - apply in_map_iff. exists a. split; [lra|exact A1].
    - intros x Hx. apply in_map_iff in Hx as (y & <- & Hy). specialize (A2 y Hy). lra. }
  split; [apply invert_ok; auto|]. split; [exact A|]. split; [exact B|]. split; [|split; [exact A'|split; [exact B'|]]].
  - unfold pointwise. assert (S := shape_dims _ _ (shape_gmap f g)). destruct S as [S1 S2].
    split; [exact S1|]. split; [exact S2|]. intros i j. rewrite cell_gmap. destruct (cell g i j) as [[x|]|]; reflexivity.
  - rewrite (invert_ok _ a b); auto.
    + f_equal. rewrite gmap_gmap. apply gmap_id_in. intros [x|] _; cbn; [f_equal; lra|reflexivity].
    + rewrite has_missing_gmap; auto. intros [x|]; reflexivity.
Qed.
(** With one non-measured point the code loses every height: the general claim is false. *)
Theorem C12_gaps_refuted : forall g, has_missing g = true ->
  exists g', invert g = Ok g' /\ forall i j h, cell g' i j = Some h -> h = None.
Proof. exact invert_missing. Qed.
Example ex_C12 : invert [[Some 1; Some 4]] = Ok [[Some 4; Some 1]].
Proof.
  rewrite (invert_ok _ 1 4); [cbn; repeat f_equal; lra|reflexivity| |];
    (split; cbn; [auto|intros x [<-|[<-|[]]]; lra]).
Qed.
Example ex_C12_gap : exists g', invert [[Some 1; None]] = Ok g' /\ cell g' 0 0 = Some None.
Proof.
  destruct (C12_gaps_refuted [[Some 1; None]] eq_refl) as (g' & E & H). exists g'. split; [exact E|].
  unfold invert in E. cbn in E. injection E as <-. reflexivity.
Qed.

(** ** C13.  [m] stands for the measured heights; sd is the population standard deviation, mad the median
    absolute distance to the median. *)
Definition criterion (method : string) (n : R) (m : list R) (x : R) : Prop :=
  if String.eqb method "mean" then Rabs (x - meanR m) > n * stdR m
  else Rabs (x - medianR m) > n * medianR (map (fun y => Rabs (y - medianR m)) m).
Theorem C13_exact : forall n method g, method = "mean"%string \/ method = "median"%string ->
  exists g', remove_outliers n method g = Ok g' /\ same_cells g g' /\
    forall i j, (forall x, cell g i j = Some (Some x) ->
                   (criterion method n (measured (flat g)) x -> cell g' i j = Some None) /\
                   (~ criterion method n (measured (flat g)) x -> cell g' i j = Some (Some x))) /\
                (cell g i j = Some None -> cell g' i j = Some None).
Proof.
  intros n method g H.
  assert (K : exists p, remove_outliers n method g = Ok (gmap (drop_if p) g) /\
                forall x, p x = true <-> criterion method n (measured (flat g)) x).
  { destruct H as [-> | ->]; unfold remove_outliers, criterion; cbn [String.eqb Ascii.eqb Bool.eqb];
      eexists; (split; [reflexivity|]); intros x; cbn beta; apply Rltb_spec. }
  destruct K as (p & E & Hp). exists (gmap (drop_if p) g). split; [exact E|]. split.
  - unfold same_cells. assert (S := shape_dims _ _ (shape_gmap (drop_if p) g)). destruct S as [S1 S2].
    split; [symmetry; exact S1|]. split; [symmetry; exact S2|]. intros i j. rewrite cell_gmap.
    destruct (cell g i j) as [h|]; cbn; split; congruence.
  - intros i j. rewrite cell_gmap. split.
    + intros x ->. cbn. split; intros C.
      * apply Hp in C. now rewrite C.
      * destruct (p x) eqn:Ep; [apply Hp in Ep; contradiction|reflexivity].
    + intros ->. reflexivity.
Qed.
Lemma medianR_nonneg l : (forall x, In x l -> 0 <= x) -> 0 <= medianR l.
Proof.
  intros H. destruct l as [|x l'] eqn:E; [unfold medianR; cbn; lra|]. rewrite <- E in *.
  assert (Hne : l <> []) by (subst; discriminate). destruct (lmax_ex _ Hne) as [b B]. apply lmax_spec in B.
  apply (medianR_between l 0 b Hne). intros y Hy. split; [apply H, Hy|apply B, Hy].
Qed.
Theorem C13_monotone : forall n n' method g g1 g2, n <= n' ->
  remove_outliers n method g = Ok g1 -> remove_outliers n' method g = Ok g2 ->
  forall i j, cell g2 i j = Some None -> cell g1 i j = Some None.
Proof.
  intros n n' method g g1 g2 Hn E1 E2 i j.
  assert (M : exists c d, 0 <= d /\ forall k, remove_outliers k method g =
            Ok (gmap (drop_if (fun x => Rltb (k * d) (Rabs (x - c)))) g)).
  { unfold remove_outliers in *. destruct (String.eqb method "mean").
    - exists (meanR (measured (flat g))), (stdR (measured (flat g))). split; [apply sqrt_pos|reflexivity].
    - destruct (String.eqb method "median"); [|discriminate].
      do 2 eexists. split; [|reflexivity]. apply medianR_nonneg. intros x Hx. apply in_map_iff in Hx as (y & <- & _). apply Rabs_pos. }
  destruct M as (c & d & Hd & M). rewrite M in E1, E2. injection E1 as <-. injection E2 as <-.
  rewrite !cell_gmap. destruct (cell g i j) as [[x|]|]; cbn; auto.
  destruct (Rltb (n' * d) _) eqn:A; [|discriminate]. intros _.
  apply Rltb_spec in A. assert (n * d <= n' * d) by (apply Rmult_le_compat_r; auto).
  assert (B : Rltb (n * d) (Rabs (x - c)) = true) by (apply Rltb_spec; lra). now rewrite B.
Qed.
Theorem C13_invalid : forall n method g, method <> "mean"%string -> method <> "median"%string ->
  remove_outliers n method g = Err ValueError.
Proof.
  intros n method g H1 H2. unfold remove_outliers.
  apply String.eqb_neq in H1, H2. now rewrite H1, H2.
Qed.
Example ex_C13 : exists g', remove_outliers 1 "median" [[Some 0; Some 1; Some 2; None; Some 9; Some 1]] = Ok g' /\
  criterion "median" 0 [0] 9.
Proof.
  destruct (C13_exact 1 "median" [[Some 0; Some 1; Some 2; None; Some 9; Some 1]]) as (g' & E & _); [auto|].
  exists g'. split; [exact E|]. unfold criterion. cbn [String.eqb Ascii.eqb Bool.eqb].
  replace (medianR [0]) with 0. - rewrite Rmult_0_l, Rabs_right; lra. - unfold medianR; cbn. lra.
Qed.

(** ** C14 *)
Theorem C14_threshold : forall u l g, measured (flat g) <> [] -> l + u < 100 ->
  let m := measured (flat g) in
  exists g' lo hi, threshold u l g = Ok g' /\ same_cells g g' /\
    In lo m /\ In hi m /\ lo <= hi /\
    (forall i j x, cell g' i j = Some (Some x) <-> cell g i j = Some (Some x) /\ lo <= x <= hi) /\
    (0 <= u -> INR (count (fun v => Rltb hi v) m) <= u / 100 * INR (length m)) /\
    (0 <= l -> INR (count (fun v => Rltb v lo) m) <= l / 100 * INR (length m) + 1 / 2) /\
    (** ... and no fewer: at least the requested share lies at or beyond the cut *)
    (u <= 100 -> u / 100 * INR (length m) - 1 / 2 <= INR (count (fun v => Rleb hi v) m)) /\
    (l <= 100 -> l / 100 * INR (length m) + 1 / 2 <= INR (count (fun v => Rleb v lo) m) \/
                 count (fun v => Rleb v lo) m = length m).
Proof.
  intros u l g H Hul m. destruct (threshold_main u l g H Hul) as (g' & lo & hi & E & L1 & H1 & LH & -> & U & D).
  exists (gmap (drop_if (fun v => Rltb hi v || Rltb v lo)) g), lo, hi. split; [exact E|]. split.
  - set (p := fun v => Rltb hi v || Rltb v lo). unfold same_cells.
    assert (S := shape_dims _ _ (shape_gmap (drop_if p) g)). destruct S as [S1 S2].
    split; [symmetry; exact S1|]. split; [symmetry; exact S2|]. intros i j. rewrite cell_gmap.
    destruct (cell g i j) as [h|]; cbn; split; congruence.
  - split; [exact L1|]. split; [exact H1|]. split; [exact LH|]. split; [|split; assumption].
    intros i j x. rewrite drop_keep, orb_false_iff, !Rltb_false. split; intros [A B]; split; auto; lra.
Qed.
Theorem C14_rejects : forall u l g, 100 <= u + l -> threshold u l g = Err ValueError.
Proof. intros u l g H. apply threshold_err. lra. Qed.
Theorem C14_keeps_something : forall u l g, measured (flat g) <> [] -> u + l < 100 ->
  exists g' x i j, threshold u l g = Ok g' /\ cell g' i j = Some (Some x).
Proof.
  intros u l g H Hul. destruct (C14_threshold u l g H) as (g' & lo & hi & E & _ & L1 & H1 & LH & K & _); [lra|].
  apply measured_In, In_flat_cell in L1 as (i & j & Ec). exists g', lo, i, j. split; [exact E|].
  apply K. split; [exact Ec|lra].
Qed.
Theorem C14_zero_is_identity : forall g, measured (flat g) <> [] -> threshold 0 0 g = Ok g.
Proof. exact threshold_zero. Qed.
Example ex_C14 : exists g', threshold 10 20 [[Some 1; None; Some 3]] = Ok g'.
Proof.
  destruct (C14_threshold 10 20 [[Some 1; None; Some 3]]) as (g' & _ & _ & E & _); [discriminate|lra|eauto].
Qed.

(** ** C15.  [G] is any smoothing that keeps the shape and creates no gaps (scipy.ndimage.gaussian_filter). *)
Definition smoothing (G : R -> R -> grid -> grid) : Prop :=
  (forall a b g, map (@length _) (G a b g) = map (@length _) g) /\
  (forall a b g, has_missing g = false -> has_missing (G a b g) = false).
Theorem C15_both : forall G c c2 s s' r, smoothing G ->
  filter G "both" c c2 false s = (s', Ok r) ->
  s' = s /\ exists high low, r = FTwo high low /\
    s_add high (OSurface low) = Ok s /\
    filter G "lowpass" c None false s = (s, Ok (FOne low)) /\
    filter G "highpass" c None false s = (s, Ok (FOne high)).
Proof.
  intros G c c2 s s' r [G1 G2]. unfold filter. cbn [existsb String.eqb Ascii.eqb Bool.eqb negb orb andb].
  destruct (has_missing (s_data s)) eqn:M; [discriminate|]. intros E. apply pair_equal_spec in E as [<- E].
  injection E as <-. split; [reflexivity|]. do 2 eexists. split; [reflexivity|]. split; [|split; reflexivity].
  apply both_sum; auto.
Qed.
Theorem C15_highpass_is_difference : forall G c s high low, smoothing G ->
  filter G "lowpass" c None false s = (s, Ok (FOne low)) ->
  filter G "highpass" c None false s = (s, Ok (FOne high)) ->
  s_sub s (OSurface low) = Ok high.
Proof.
  intros G c s high low [G1 G2]. unfold filter. cbn [existsb String.eqb Ascii.eqb Bool.eqb negb orb andb].
  destruct (has_missing (s_data s)) eqn:M; [discriminate|]. intros E1 E2. injection E1 as <-. injection E2 as <-.
  apply high_is_diff; auto.
Qed.
Theorem C15_bandpass : forall G c c2 s band, smoothing G ->
  filter G "bandpass" c (Some c2) false s = (s, Ok (FOne band)) ->
  c < c2 /\ exists low, filter G "lowpass" c None false s = (s, Ok (FOne low)) /\
    filter G "highpass" c2 None false low = (low, Ok (FOne band)).
Proof.
  intros G c c2 s band [G1 G2]. unfold filter. cbn [existsb String.eqb Ascii.eqb Bool.eqb negb orb andb].
  destruct (has_missing (s_data s)) eqn:M; [discriminate|]. destruct (Rle_dec c2 c); [discriminate|].
  intros E. injection E as <-. split; [lra|]. eexists. split; [reflexivity|].
  rewrite low_complete; auto.
Qed.
(** In place: the receiver becomes what the call would otherwise have returned. *)
Theorem C15_inplace : forall G t c c2 s out, filter G t c c2 false s = (s, Ok (FOne out)) ->
  filter G t c c2 true s = (out, Ok FSelf).
Proof.
  intros G t c c2 s out. unfold filter. destruct (has_missing _); [discriminate|].
  destruct (negb _) eqn:N; [discriminate|]. rewrite andb_false_r, andb_true_r.
  destruct (String.eqb t "both") eqn:Eb.
  - apply String.eqb_eq in Eb. subst t. cbn. discriminate.
  - destruct (String.eqb t "bandpass").
    + destruct c2 as [c2|]; [|discriminate]. destruct (Rle_dec c2 c); [discriminate|]. intros E; injection E as <-; reflexivity.
    + destruct (String.eqb t "lowpass"); [intros E; injection E as <-; reflexivity|].
      destruct (String.eqb t "highpass"); [intros E; injection E as <-; reflexivity|discriminate].
Qed.
(** Errors: exactly these conditions, always ValueError, receiver unchanged. *)
Theorem C15_errors : forall G t c c2 inplace s s' r, filter G t c c2 inplace s = (s', r) ->
  (r = Err ValueError <->
     has_missing (s_data s) = true \/
     ~ In t ["highpass"; "lowpass"; "both"; "bandpass"]%string \/
     (t = "both"%string /\ inplace = true) \/
     (t = "bandpass"%string /\ (c2 = None \/ exists k, c2 = Some k /\ k <= c))) /\
  (forall e, r = Err e -> e = ValueError /\ s' = s).
Proof.
  intros G t c c2 inplace s s' r. unfold filter.
  destruct (has_missing (s_data s)).
  { intros E. apply pair_equal_spec in E as [<- <-]. split; [tauto|]. intros e E; injection E as <-; auto. }
  destruct (existsb (String.eqb t) ["highpass"; "lowpass"; "both"; "bandpass"]%string) eqn:Ex; cbn [negb].
  2:{ intros E. apply pair_equal_spec in E as [<- <-]. split; [|intros e E; injection E as <-; auto]. split; auto. intros _.
      right; left. intros I. rewrite <- not_true_iff_false in Ex. apply Ex. apply existsb_exists. exists t. split; auto. apply String.eqb_refl. }
  apply existsb_exists in Ex as (t' & I & Et). apply String.eqb_eq in Et. subst t'.
  assert (IT := I). cbn in I.
  destruct I as [<- | [<- | [<- | [<- | []]]]]; destruct inplace;
    cbn [String.eqb Ascii.eqb Bool.eqb andb]; try (destruct c2 as [c2|]; [destruct (Rle_dec c2 c)|]);
    intros E; apply pair_equal_spec in E as [<- <-];
    (split; [split; [intros X; try discriminate X|
       intros [X|[X|[[X Y]|[X [Y|(k & Y & Z)]]]]]; try discriminate; try contradiction; auto; injection Y as <-; contradiction]
     |intros e X; try discriminate X; injection X as <-; auto]).
  all: try (right; right; left; auto; fail).
  all: right; right; right; split; auto; right; eexists; split; eauto.
Qed.
Example ex_C15 : smoothing (fun _ _ g => g) /\
  filter (fun _ _ g => g) "bandpass" 1 (Some 2) false (mkSurf [[Some 1]] 1 1) =
    (mkSurf [[Some 1]] 1 1, Ok (FOne (mkSurf [[Some (1 - 1)]] 1 1))).
Proof.
  split; [split; auto|]. unfold filter. cbn. destruct (Rle_dec 2 1); [lra|reflexivity].
Qed.

(** ** C16 for the filter itself: the kernel handed to scipy transmits, along each axis, the fraction
    exp(-ln 2 (cutoff/lambda)^2) of a wave of length lambda (in the unit of the steps), whatever the two steps are. *)
Theorem C16_filter_kernel : forall G c s low, 0 < c -> 0 < s_sx s -> 0 < s_sy s ->
  filter G "lowpass" c None false s = (s, Ok (FOne low)) ->
  exists ky kx, low = mkSurf (G ky kx (s_data s)) (s_sx s) (s_sy s) /\
    forall lambda, 0 < lambda ->
      transmission ky (lambda / s_sy s) = exp (- (ln 2 * ((c / lambda) * (c / lambda)))) /\
      transmission kx (lambda / s_sx s) = exp (- (ln 2 * ((c / lambda) * (c / lambda)))).
Proof.
  intros G c s low C X Y. unfold filter. cbn [existsb String.eqb Ascii.eqb Bool.eqb negb orb andb].
  destruct (has_missing (s_data s)) eqn:M; [discriminate|]. intros E. injection E as <-.
  unfold gaussian. do 2 eexists. split; [reflexivity|]. intros l L. split; apply transmission_general; auto.
Qed.
Example ex_C16_kernel : exists low, filter (fun _ _ g => g) "lowpass" 5 None false (mkSurf [[Some 1; Some 2]] 1 (1/2)) =
  (mkSurf [[Some 1; Some 2]] 1 (1/2), Ok (FOne low)).
Proof. eexists. reflexivity. Qed.

Print Assumptions C07_surfaces.
Print Assumptions C08_characterised.
Print Assumptions C10_center.
Print Assumptions C11_zero.
Print Assumptions C12_invert_partial.
Print Assumptions C13_exact.
Print Assumptions C14_threshold.
Print Assumptions C15_both.
Print Assumptions C15_errors.
