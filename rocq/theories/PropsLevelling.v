(** C107: levelling a step with stepheight_level, and the step height measured afterwards. *)
From Coq Require Import String Reals List Bool Arith ZArith Lra Lia.
From Verif Require Import Base RList ModelMath ProofMath ModelHeights ProofHeights ModelParams ProofParams ModelDetrend SpecDetrend ProofDetrend PropsDetrend.
From Verif Require Import ModelStep ProofStep PropsStep ModelLevelling.
Import ListNotations.
Local Open Scope R_scope.

(** *** Specification *)
(** the class of the point in row i and column j, classes being listed row by row *)
Definition in_class (mask : list bool) (nx : nat) (b : bool) (i j : nat) : Prop := (j < nx)%nat /\ nth_error mask (i * nx + j) = Some b.
(** three points of the class that do not lie on one line *)
Definition spanning (mask : list bool) (ny nx : nat) : Prop :=
  exists i1 j1 i2 j2 i3 j3, (i1 < ny)%nat /\ (i2 < ny)%nat /\ (i3 < ny)%nat /\ in_class mask nx true i1 j1 /\ in_class mask nx true i2 j2 /\ in_class mask nx true i3 j3 /\
    (INR j2 - INR j1) * (INR i3 - INR i1) - (INR j3 - INR j1) * (INR i2 - INR i1) <> 0.
(** one class for every point *)
Definition classes (mask : list bool) (g : grid) : Prop := length mask = (nrows g * ncols g)%nat.
(** the height of a measured point *)
Definition height_is (g : grid) (i j : nat) (z : R) : Prop := cell g i j = Some (Some z).

(** *** Points, classes, cells *)
Lemma coords_nth ny nx i j : (i < ny)%nat -> (j < nx)%nat -> nth_error (coords ny nx) (i * nx + j) = Some (i, j).
Proof.
  unfold coords. revert i. assert (G : forall a n i, (i < n)%nat -> (j < nx)%nat -> nth_error (flat_map (fun i => map (fun j => (i, j)) (seq 0 nx)) (seq a n)) (i * nx + j) = Some ((a + i)%nat, j)).
  { intros a n. revert a. induction n as [|n IH]; intros a i Hi Hj; [lia|]. cbn [seq flat_map]. destruct i as [|i].
    - rewrite nth_error_app1 by (rewrite map_length, seq_length; lia). cbn [Nat.mul Nat.add]. rewrite nth_error_map, (nth_error_nth' _ 0%nat) by (rewrite seq_length; lia). rewrite seq_nth by lia. cbn. do 2 f_equal. lia.
    - rewrite nth_error_app2 by (rewrite map_length, seq_length; cbn; lia). rewrite map_length, seq_length. replace (S i * nx + j - nx)%nat with (i * nx + j)%nat by (cbn; lia). rewrite IH by lia. do 2 f_equal. lia. }
  intros i Hi Hj. rewrite G by assumption. reflexivity.
Qed.
Lemma coords_length ny nx : length (coords ny nx) = (ny * nx)%nat.
Proof.
  unfold coords. assert (G : forall n a, length (flat_map (fun i => map (fun j => (i, j)) (seq 0 nx)) (seq a n)) = (n * nx)%nat).
  { induction n as [|n IH]; intros a; [reflexivity|]. cbn [seq flat_map]. rewrite app_length, IH, map_length, seq_length. cbn. lia. }
  apply G.
Qed.
Lemma In_nth_coords ny nx k p : nth_error (coords ny nx) k = Some p -> (fst p < ny)%nat /\ (snd p < nx)%nat /\ k = (fst p * nx + snd p)%nat.
Proof.
  intros H. assert (I : In p (coords ny nx)) by (apply nth_error_In in H; exact H). apply coords_In in I as [A B]. split; [exact A|]. split; [exact B|].
  assert (K : (k < ny * nx)%nat) by (rewrite <- coords_length; apply nth_error_Some; congruence).
  assert (Nx : nx <> 0%nat) by lia. pose proof (Nat.div_mod k nx Nx) as D. pose proof (Nat.mod_upper_bound k nx Nx) as M.
  assert (Q : (k / nx < ny)%nat) by (apply Nat.div_lt_upper_bound; lia).
  pose proof (coords_nth ny nx (k / nx) (k mod nx) Q M) as C. replace (k / nx * nx + k mod nx)%nat with k in C by lia. rewrite H in C. injection C as ->. cbn. lia.
Qed.
Lemma combine_nth_error {A B} (l : list A) (m : list B) x : In x (combine l m) -> exists k, nth_error l k = Some (fst x) /\ nth_error m k = Some (snd x).
Proof.
  revert m. induction l as [|a l IH]; intros [|b m] H; try contradiction. destruct H as [<-|H]; [exists 0%nat; auto|]. destruct (IH m H) as [k Hk]. exists (S k). exact Hk.
Qed.
Lemma combine_In_nth {A B} (l : list A) (m : list B) k a b : nth_error l k = Some a -> nth_error m k = Some b -> In (a, b) (combine l m).
Proof. revert m k. induction l as [|x l IH]; intros [|y m] [|k] H K; try discriminate; cbn in *; [left; congruence|right; eapply IH; eassumption]. Qed.
(** the points of a class *)
Definition points (b : bool) (g : grid) (mask : list bool) : list (nat * nat) :=
  map fst (List.filter (fun q => Bool.eqb (snd q) b) (combine (coords (nrows g) (ncols g)) mask)).
Lemma upper_is g mask : upper_points g mask = points true g mask.
Proof. unfold upper_points, points. f_equal. apply filter_ext. intros [p []]; reflexivity. Qed.
Lemma points_In b g mask p : In p (points b g mask) <-> (fst p < nrows g)%nat /\ in_class mask (ncols g) b (fst p) (snd p).
Proof.
  unfold points, in_class. rewrite in_map_iff. split.
  - intros ([q c] & <- & H). apply filter_In in H as [H E]. cbn in *. apply eqb_prop in E. subst c. apply combine_nth_error in H as (k & H1 & H2). cbn in *.
    apply In_nth_coords in H1 as (A & B & ->). auto.
  - intros (A & B & C). exists (p, b). split; [reflexivity|]. apply filter_In. split; [|cbn; apply eqb_reflx].
    eapply combine_In_nth; [|exact C]. destruct p. apply coords_nth; assumption.
Qed.
Lemma concat_nth {A} (g : list (list A)) nx i j : (forall r, In r g -> length r = nx) -> (j < nx)%nat ->
  nth_error (concat g) (i * nx + j) = match nth_error g i with Some r => nth_error r j | None => None end.
Proof.
  revert i. induction g as [|r g IH]; intros i H Hj; [cbn; destruct (i * nx + j)%nat; destruct i; reflexivity|]. assert (L := H r (or_introl eq_refl)). cbn [concat]. destruct i as [|i].
  - rewrite nth_error_app1 by (cbn; lia). reflexivity.
  - rewrite nth_error_app2 by (cbn; lia). replace (S i * nx + j - length r)%nat with (i * nx + j)%nat by (cbn; lia). apply IH; [intros; apply H; right; assumption|exact Hj].
Qed.
Lemma flat_length g : rect g -> length (flat g) = (nrows g * ncols g)%nat.
Proof.
  unfold rect, flat, nrows. generalize (ncols g). intros n. induction g as [|r g IH]; intros H; [reflexivity|]. cbn [concat]. rewrite app_length, IH by (intros; apply H; right; assumption).
  rewrite (H r (or_introl eq_refl)). cbn. lia.
Qed.
Definition at_ (g : grid) (p : nat * nat) : height := match cell g (fst p) (snd p) with Some h => h | None => None end.
Lemma flat_coords g : rect g -> flat g = map (at_ g) (coords (nrows g) (ncols g)).
Proof.
  intros R. apply nth_error_ext'. intros k. rewrite nth_error_map. destruct (nth_error (coords (nrows g) (ncols g)) k) as [p|] eqn:E.
  - apply In_nth_coords in E as (A & B & ->). unfold flat. rewrite (concat_nth g (ncols g)) by assumption. cbn [option_map]. unfold at_.
    destruct (rect_cell g (fst p) (snd p) R A B) as [h Hh]. rewrite Hh. unfold cell in Hh. exact Hh.
  - apply nth_error_None in E. rewrite coords_length in E. apply nth_error_None. rewrite flat_length by exact R. exact E.
Qed.
Lemma select_points (b : bool) (g : grid) (mask : list bool) : rect g -> select (if b then mask else map negb mask) (flat g) = map (at_ g) (points b g mask).
Proof.
  intros R. rewrite flat_coords by exact R. unfold points. generalize (coords (nrows g) (ncols g)). intros l. revert mask. unfold select.
  induction l as [|p l IH]; intros [|c mask]; try (destruct b; reflexivity). specialize (IH mask). destruct b, c; cbn in *; rewrite IH; reflexivity.
Qed.

(** *** what levelling computes *)
Definition coeffs (lstsq : lsq_solver) (g : grid) (mask : list bool) : list R :=
  lstsq (map plane_row (upper_points g mask)) (map (height_at g) (upper_points g mask)).
Definition mean_plane (c : list R) (ny nx : nat) : R := meanR (map (fun p => plane_at c (fst p) (snd p)) (coords ny nx)).
Lemma levelled_cells lstsq g mask : rect g -> let c := coeffs lstsq g mask in let g' := levelled lstsq g mask in
  rect g' /\ nrows g' = nrows g /\ ncols g' = ncols g /\
  forall i j, cell g' i j = match cell g i j with Some (Some z) => Some (Some (z - (plane_at c i j - mean_plane c (nrows g) (ncols g)))) | o => o end.
Proof.
  intros Hr c g'. set (M := mean_plane c (nrows g) (ncols g)). set (v := fun i j => plane_at c i j - M).
  pose (tl := map (fun i => map (fun j => Some (v i j) : height) (seq 0 (ncols g))) (seq 0 (nrows g)) : grid).
  assert (E1 : zip2 (zip2 hsub) g tl = g') by reflexivity.
  assert (Tr : forall i, (i < nrows g)%nat -> nth_error tl i = Some (map (fun j => Some (v i j) : height) (seq 0 (ncols g)))) by (intros i Hi; unfold tl; rewrite nth_error_seq_map by exact Hi; reflexivity).
  assert (Lt : length tl = nrows g) by (unfold tl; rewrite map_length; apply seq_length).
  assert (Dr : forall i r, nth_error g i = Some r -> nth_error g' i = Some (zip2 hsub r (map (fun j => Some (v i j)) (seq 0 (ncols g))))).
  { intros i r Hi. rewrite <- E1. apply nth_error_zip2; [exact Hi|]. apply Tr. apply nth_error_Some. congruence. }
  assert (Ld : length g' = nrows g) by (rewrite <- E1, zip2_length; unfold nrows in *; lia).
  assert (Rd : forall r, In r g' -> length r = ncols g).
  { intros r Hin. apply In_nth_error in Hin as [i Hi]. assert (Hlt : (i < nrows g)%nat) by (rewrite <- Ld; apply nth_error_Some; congruence).
    destruct (nth_error g i) as [q|] eqn:Eq; [|apply nth_error_None in Eq; unfold nrows in Hlt; lia].
    rewrite (Dr i q Eq) in Hi. injection Hi as <-. rewrite zip2_length, map_length, seq_length, (Hr q (nth_error_In _ _ Eq)). lia. }
  assert (Cd : ncols g' = ncols g).
  { destruct g' as [|r0 det'] eqn:Ed; [|apply Rd; left; reflexivity]. cbn in Ld. unfold nrows in Ld. destruct g; [reflexivity|discriminate]. }
  split; [intros r Hin; rewrite Cd; apply Rd, Hin|]. split; [exact Ld|]. split; [exact Cd|].
  intros i j. unfold cell. destruct (nth_error g i) as [r|] eqn:Ei.
  - rewrite (Dr i r Ei). assert (Lr := Hr r (nth_error_In _ _ Ei)). destruct (nth_error r j) as [h|] eqn:Ej.
    + assert (Hj : (j < ncols g)%nat) by (rewrite <- Lr; apply nth_error_Some; congruence).
      rewrite (nth_error_zip2 hsub _ _ _ _ _ Ej (nth_error_seq_map _ _ _ Hj)). destruct h as [z|]; reflexivity.
    + apply nth_error_None. rewrite zip2_length, map_length, seq_length. apply nth_error_None in Ej. lia.
  - replace (nth_error g' i) with (@None (list height)); [reflexivity|]. symmetry. apply nth_error_None. apply nth_error_None in Ei. unfold nrows in Ld. lia.
Qed.
Lemma mean_plane_sum c ny nx : sumR (map (fun p => plane_at c (fst p) (snd p) - mean_plane c ny nx) (coords ny nx)) = 0.
Proof.
  rewrite sumR_map_minus, sumR_map_const. unfold mean_plane, meanR. rewrite map_length. destruct (coords ny nx) as [|p l] eqn:E; [cbn; lra|].
  assert (P : 0 < INR (length (p :: l))) by (apply lt_0_INR; cbn; lia). revert P. generalize (INR (length (p :: l))) (sumR (map (fun p0 => plane_at c (fst p0) (snd p0)) (p :: l))). intros n S0 P. field. lra.
Qed.

(** Levelling subtracts one plane whose mean over the surface is 0 (so the mean height of a complete surface stays); gaps stay gaps, shape
    stays. *)
Theorem C107_plane (lstsq : lsq_solver) (s s' : stepped) : rect (st_data s) -> level_copy lstsq s = Ok s' -> let g := st_data s in let g' := st_data s' in
  nrows g' = nrows g /\ ncols g' = ncols g /\ exists a b c,
    (forall i j z, height_is g i j z -> height_is g' i j (z - (a * INR j + b * INR i + c))) /\
    (forall i j, cell g i j = Some None <-> cell g' i j = Some None) /\
    sumR (map (fun p => a * INR (snd p) + b * INR (fst p) + c) (coords (nrows g) (ncols g))) = 0.
Proof.
  intros Hr E g g'. unfold level_copy in E. destruct (mask_of s) as [mask|] eqn:Em; [|discriminate]. cbn in E. injection E as <-.
  destruct (levelled_cells lstsq (st_data s) mask Hr) as (_ & Hn & Hc & C). cbn [st_data] in g'. subst g g'. cbn [st_data]. split; [exact Hn|]. split; [exact Hc|].
  set (c := coeffs lstsq (st_data s) mask) in *. set (M := mean_plane c (nrows (st_data s)) (ncols (st_data s))) in *.
  exists (nth 0 c 0), (nth 1 c 0), (nth 2 c 0 - M). split; [|split].
  - intros i j z H. unfold height_is in *. rewrite C, H. do 2 f_equal. unfold plane_at. lra.
  - intros i j. rewrite C. destruct (cell (st_data s) i j) as [[z|]|]; split; intros X; congruence.
  - eapply eq_trans; [|exact (mean_plane_sum c (nrows (st_data s)) (ncols (st_data s)))]. fold M. apply sumR_ext. intros p _. unfold plane_at. lra.
Qed.
(** Both variants compute the same heights, or fail alike. *)
Theorem C107_variants (lstsq : lsq_solver) (s : stepped) :
  match level_copy lstsq s, level_inplace lstsq s with Ok a, Ok b => st_data a = st_data b | Err e, Err e' => e = e' | _, _ => False end.
Proof. unfold level_copy, level_inplace. destruct (mask_of s); reflexivity. Qed.
(** After levelling in place nothing of the past is left: the surface answers as a new Surface with its heights does. *)
Theorem C107_inplace_new (lstsq : lsq_solver) (s s' : stepped) : level_inplace lstsq s = Ok s' ->
  stepheight_of s' = stepheight (flat (st_data s')) /\ levels_of s' = levels_of (fresh (st_data s')) /\
  level_copy lstsq s' = level_copy lstsq (fresh (st_data s')) /\ level_inplace lstsq s' = level_inplace lstsq (fresh (st_data s')).
Proof.
  unfold level_inplace. destruct (mask_of s) as [m|]; [|discriminate]. cbn [rbind]. intros E. injection E as <-. cbn [st_data fresh].
  split; [reflexivity|]. split; [reflexivity|]. split; reflexivity.
Qed.

Section Solver.
Context (lstsq : lsq_solver) (HS : lsq_contract lstsq).

Lemma plane_row_length p : length (plane_row p) = 3%nat. Proof. reflexivity. Qed.
Lemma coeffs_ls g mask : upper_points g mask <> [] -> least_squares 3 (map plane_row (upper_points g mask)) (map (height_at g) (upper_points g mask)) (coeffs lstsq g mask).
Proof.
  intros N. apply HS.
  - destruct (upper_points g mask); [congruence|discriminate].
  - intros r Hr. apply in_map_iff in Hr as (p & <- & _). reflexivity.
  - rewrite !map_length. reflexivity.
Qed.
Lemma dot_plane c p : length c = 3%nat -> dot (plane_row p) c = plane_at c (fst p) (snd p).
Proof. intros L. destruct c as [|a [|b [|d [|]]]]; try discriminate. unfold dot, plane_row, plane_at, sumR. cbn. ring. Qed.
Lemma unique_plane c c' mask ny nx : spanning mask ny nx -> (forall i j, (i < ny)%nat -> in_class mask nx true i j -> plane_at c i j = plane_at c' i j) ->
  nth 0 c 0 = nth 0 c' 0 /\ nth 1 c 0 = nth 1 c' 0 /\ nth 2 c 0 = nth 2 c' 0.
Proof.
  intros (i1 & j1 & i2 & j2 & i3 & j3 & L1 & L2 & L3 & C1 & C2 & C3 & D) H.
  pose proof (H i1 j1 L1 C1) as E1. pose proof (H i2 j2 L2 C2) as E2. pose proof (H i3 j3 L3 C3) as E3. unfold plane_at in *.
  set (a := nth 0 c 0) in *. set (b := nth 1 c 0) in *. set (d := nth 2 c 0) in *. set (a' := nth 0 c' 0) in *. set (b' := nth 1 c' 0) in *. set (d' := nth 2 c' 0) in *.
  set (x1 := INR j1) in *. set (x2 := INR j2) in *. set (x3 := INR j3) in *. set (y1 := INR i1) in *. set (y2 := INR i2) in *. set (y3 := INR i3) in *.
  assert (F2 : (a - a') * (x2 - x1) + (b - b') * (y2 - y1) = 0) by lra. assert (F3 : (a - a') * (x3 - x1) + (b - b') * (y3 - y1) = 0) by lra.
  assert (A : a - a' = 0).
  { apply (Rmult_eq_reg_r ((x2 - x1) * (y3 - y1) - (x3 - x1) * (y2 - y1))); [|exact D]. rewrite Rmult_0_l.
    replace ((a - a') * ((x2 - x1) * (y3 - y1) - (x3 - x1) * (y2 - y1))) with (((a - a') * (x2 - x1) + (b - b') * (y2 - y1)) * (y3 - y1) - ((a - a') * (x3 - x1) + (b - b') * (y3 - y1)) * (y2 - y1)) by ring.
    rewrite F2, F3. ring. }
  assert (B : b - b' = 0).
  { apply (Rmult_eq_reg_r ((x2 - x1) * (y3 - y1) - (x3 - x1) * (y2 - y1))); [|exact D]. rewrite Rmult_0_l.
    replace ((b - b') * ((x2 - x1) * (y3 - y1) - (x3 - x1) * (y2 - y1))) with (((a - a') * (x3 - x1) + (b - b') * (y3 - y1)) * (x2 - x1) - ((a - a') * (x2 - x1) + (b - b') * (y2 - y1)) * (x3 - x1)) by ring.
    rewrite F2, F3. ring. }
  split; [lra|]. split; [lra|]. assert (a = a') by lra. assert (b = b') by lra. rewrite H0, H1 in E1. lra.
Qed.
Lemma spanning_ne g mask : spanning mask (nrows g) (ncols g) -> upper_points g mask <> [].
Proof.
  intros (i1 & j1 & i2 & j2 & i3 & j3 & L1 & _ & _ & C1 & _) E. rewrite upper_is in E. assert (X : In (i1, j1) (points true g mask)) by (apply points_In; cbn; auto). rewrite E in X. contradiction.
Qed.

(** The upper level is level afterwards: no plane fits its points better than a horizontal one. *)
Theorem C107_level (s s' : stepped) (mask : list bool) : rect (st_data s) -> mask_of s = Ok mask -> level_copy lstsq s = Ok s' ->
  (forall i j, in_class mask (ncols (st_data s)) true i j -> (i < nrows (st_data s))%nat -> exists z, height_is (st_data s) i j z) ->
  exists z0, forall a b c, let pts := List.filter (fun p => nth (fst p * ncols (st_data s) + snd p) mask false) (coords (nrows (st_data s)) (ncols (st_data s))) in
    sumR (map (fun p => (height_at (st_data s') p - z0) ^ 2) pts) <= sumR (map (fun p => (height_at (st_data s') p - (a * INR (snd p) + b * INR (fst p) + c)) ^ 2) pts).
Proof.
  intros Hr Em E Hm. unfold level_copy in E. rewrite Em in E. cbn in E. injection E as <-. cbn [st_data].
  set (g := st_data s) in *. destruct (levelled_cells lstsq g mask Hr) as (_ & Hn & Hc & C). set (co := coeffs lstsq g mask) in *. set (M := mean_plane co (nrows g) (ncols g)) in *.
  exists M. intros a b c. cbv zeta.
  set (pts := List.filter _ _).
  assert (Ep : pts = upper_points g mask).
  { rewrite upper_is. unfold pts, points. clear - g. assert (G : forall l (k : nat -> nat), (forall q p, nth_error l q = Some p -> (fst p * ncols g + snd p)%nat = k q) -> forall m, (forall q, nth_error m q = nth_error mask (k q)) -> (length l <= length m \/ forall q, nth (k (length m + q)) mask false = false)%nat ->
        List.filter (fun p => nth (fst p * ncols g + snd p) mask false) l = map fst (List.filter (fun q => Bool.eqb (snd q) true) (combine l m))).
    { induction l as [|p l IH]; intros k Hk m Hm Hl; [reflexivity|]. assert (K0 := Hk 0%nat p eq_refl). destruct m as [|d m].
      - destruct Hl as [Hl|Hl]; [cbn in Hl; lia|]. cbn [combine List.filter map].
        assert (Z : forall l0 : list (nat * nat), (forall q p0, nth_error l0 q = Some p0 -> exists q', (fst p0 * ncols g + snd p0)%nat = k q') -> List.filter (fun p0 => nth (fst p0 * ncols g + snd p0) mask false) l0 = []).
        { induction l0 as [|x l0 IH0]; intros H0; [reflexivity|]. cbn. destruct (H0 0%nat x eq_refl) as [q' ->]. rewrite (Hl q' : nth (k q') mask false = false). apply IH0. intros q p0 Hq. apply (H0 (S q)), Hq. }
        apply (Z (p :: l)). intros q p0 Hq. exists q. apply Hk, Hq.
      - cbn [combine List.filter]. specialize (Hm 0%nat) as Hm0. cbn in Hm0. rewrite K0. assert (Nd : nth (k 0%nat) mask false = d) by (symmetry in Hm0; apply (nth_error_nth _ _ false) in Hm0; exact Hm0).
        rewrite Nd. cbn [snd]. assert (T : List.filter (fun p0 => nth (fst p0 * ncols g + snd p0) mask false) l = map fst (List.filter (fun q => Bool.eqb (snd q) true) (combine l m))).
        { apply (IH (fun q => k (S q))); [intros q p0 Hq; apply Hk; exact Hq | intros q; apply (Hm (S q)) |]. destruct Hl as [Hl|Hl]; [left; cbn in Hl; lia|right; intros q; apply (Hl q)]. }
        destruct d; cbn [Bool.eqb map fst]; rewrite T; reflexivity. }
    apply (G _ (fun q => q)); [intros q p Hq; apply In_nth_coords in Hq; lia | reflexivity |]. right. intros q. apply nth_overflow. lia. }
  clearbody pts. subst pts.
  destruct (upper_points g mask) as [|p0 rest] eqn:Eu; [cbn; lra|]. rewrite <- Eu.
  assert (Ls := coeffs_ls g mask ltac:(rewrite Eu; discriminate)). fold co in Ls. destruct Ls as [L3 Min].
  assert (Hh : forall p, In p (upper_points g mask) -> height_at (levelled lstsq g mask) p = height_at g p - plane_at co (fst p) (snd p) + M).
  { intros p Hp. rewrite upper_is in Hp. apply points_In in Hp as [A B]. destruct (Hm (fst p) (snd p) B A) as [z Hz]. unfold height_at. rewrite C. unfold height_is in Hz. rewrite Hz. lra. }
  set (c' := comb 1 co [a; b; c - M]). assert (Lc' : length c' = 3%nat) by (apply comb_length; [exact L3|reflexivity]).
  specialize (Min c' Lc'). rewrite !(rss_T (upper_points g mask) plane_row) in Min. unfold rssT in Min.
  rewrite (sumR_ext _ (fun p => (height_at g p - dot (plane_row p) co) ^ 2)) by (intros p Hp; rewrite Hh by exact Hp; rewrite dot_plane by exact L3; ring).
  rewrite (sumR_ext (fun p => (height_at (levelled lstsq g mask) p - _) ^ 2) (fun p => (height_at g p - dot (plane_row p) c') ^ 2)); [exact Min|].
  intros p Hp. rewrite Hh by exact Hp. unfold c'. rewrite dot_comb by (rewrite plane_row_length; auto). rewrite (dot_plane co) by exact L3. rewrite (dot_plane [a; b; c - M]) by reflexivity.
  unfold plane_at; cbn [nth]; f_equal; lra.
Qed.

Lemma fits_exactly g mask c c0 : length c0 = 3%nat -> c = coeffs lstsq g mask -> upper_points g mask <> [] ->
  (forall i j, (i < nrows g)%nat -> in_class mask (ncols g) true i j -> height_is g i j (plane_at c0 i j)) ->
  forall i j, (i < nrows g)%nat -> in_class mask (ncols g) true i j -> plane_at c i j = plane_at c0 i j.
Proof.
  intros L0 -> N H i j Hi Hj. destruct (coeffs_ls g mask N) as [L3 Min]. specialize (Min c0 L0). rewrite !(rss_T (upper_points g mask) plane_row) in Min. unfold rssT in Min.
  assert (Z : forall p, In p (upper_points g mask) -> height_at g p = plane_at c0 (fst p) (snd p)).
  { intros p Hp. rewrite upper_is in Hp. apply points_In in Hp as [A B]. specialize (H _ _ A B). unfold height_is in H. unfold height_at. rewrite H. reflexivity. }
  rewrite (sumR_ext (fun p => (height_at g p - dot (plane_row p) c0) ^ 2) (fun _ => 0)) in Min by (intros p Hp; rewrite (Z p Hp), (dot_plane c0) by exact L0; ring).
  rewrite sumR_map_const, Rmult_0_r in Min. set (l := map _ _) in Min.
  assert (Nn : forall x, In x l -> 0 <= x) by (intros x Hx; unfold l in Hx; apply in_map_iff in Hx as (p & <- & _); apply pow2_ge_0).
  assert (E0 : sumR l = 0) by (pose proof (sumR_nonneg l Nn); lra).
  assert (In2 : In (i, j) (upper_points g mask)) by (rewrite upper_is; apply points_In; cbn; auto).
  assert (X := sumR_zero l Nn E0 ((height_at g (i, j) - dot (plane_row (i, j)) (coeffs lstsq g mask)) ^ 2) ltac:(unfold l; apply in_map_iff; exists (i, j); auto)).
  rewrite (Z _ In2), (dot_plane _ _ L3) in X. cbn [fst snd] in X.
  assert (Y : plane_at c0 i j - plane_at (coeffs lstsq g mask) i j = 0) by (apply Rsqr_0_uniq; unfold Rsqr; lra). lra.
Qed.
Lemma npmedian_const (l : list height) v : l <> [] -> (forall h, In h l -> h = Some v) -> npmedian l = Some v.
Proof.
  intros N H. assert (E : l = map Some (repeat v (length l))).
  { clear N. induction l as [|h l IH]; [reflexivity|]. cbn. f_equal; [apply H; left; reflexivity|]. apply IH. intros; apply H; right; assumption. }
  rewrite E. assert (N' : repeat v (length l) <> []) by (destruct l; [congruence|discriminate]).
  rewrite npmedian_Some by exact N'. f_equal. destruct (medianR_between (repeat v (length l)) v v N'); [|lra].
  intros x Hx. apply repeat_spec in Hx. lra.
Qed.
Lemma levels_seeded g mask u l : rect g -> (exists i j, (i < nrows g)%nat /\ in_class mask (ncols g) true i j) -> (exists i j, (i < nrows g)%nat /\ in_class mask (ncols g) false i j) ->
  (forall i j, (i < nrows g)%nat -> in_class mask (ncols g) true i j -> height_is g i j u) -> (forall i j, (i < nrows g)%nat -> in_class mask (ncols g) false i j -> height_is g i j l) ->
  stepheight_of (mkStepped g (Some mask)) = Ok (Some (u - l)).
Proof.
  intros Hr (i1 & j1 & A1 & B1) (i2 & j2 & A2 & B2) Hu Hl. unfold stepheight_of, levels_of, mask_of. cbn [st_data st_mask rbind].
  pose proof (select_points true g mask Hr) as S1. pose proof (select_points false g mask Hr) as S2. cbv beta iota in S1, S2. rewrite S1, S2.
  rewrite (npmedian_const _ u), (npmedian_const _ l); [reflexivity| | | |].
  - intros E. assert (X : In (i2, j2) (points false g mask)) by (apply points_In; cbn; auto). destruct (points false g mask); [contradiction|discriminate].
  - intros h Hh. apply in_map_iff in Hh as (p & <- & Hp). apply points_In in Hp as [A B]. specialize (Hl _ _ A B). unfold at_. unfold height_is in Hl. rewrite Hl. reflexivity.
  - intros E. assert (X : In (i1, j1) (points true g mask)) by (apply points_In; cbn; auto). destruct (points true g mask); [contradiction|discriminate].
  - intros h Hh. apply in_map_iff in Hh as (p & <- & Hp). apply points_In in Hp as [A B]. specialize (Hu _ _ A B). unfold at_. unfold height_is in Hu. rewrite Hu. reflexivity.
Qed.
Lemma complete_flat g : (forall i j, cell g i j <> Some None) -> exists d, flat g = map Some d.
Proof.
  intros H. assert (K : forall h, In h (flat g) -> h <> None).
  { intros h Hh ->. unfold flat in Hh. apply in_concat in Hh as (r & Hr & Hh). apply In_nth_error in Hr as [i Hi]. apply In_nth_error in Hh as [j Hj]. apply (H i j). unfold cell. rewrite Hi. exact Hj. }
  clear H. induction (flat g) as [|h l IH]; [exists []; reflexivity|]. destruct IH as [d ->]; [intros; apply K; right; assumption|].
  destruct h as [z|]; [exists (z :: d); reflexivity|]. destruct (K None); [left; reflexivity|reflexivity].
Qed.
Lemma classes_cover g mask i j : classes mask g -> (i < nrows g)%nat -> (j < ncols g)%nat -> exists b, in_class mask (ncols g) b i j.
Proof.
  intros L A B. destruct (nth_error mask (i * ncols g + j)) as [b|] eqn:E; [exists b; split; assumption|]. apply nth_error_None in E. unfold classes in L.
  assert (X : (i * ncols g + j < nrows g * ncols g)%nat) by nia. lia.
Qed.
Lemma mask_classes g mask : rect g -> get_mask (flat g) = Ok mask -> classes mask g.
Proof.
  intros Hr E. unfold classes. rewrite <- flat_length by exact Hr. unfold get_mask in E. destruct (otsu_threshold 256 _) as [t|]; [|discriminate]. cbn [rbind] in E. injection E as <-.
  destruct (hgt _ _); rewrite ?map_length; reflexivity.
Qed.
Lemma cell_bounds g i j h : rect g -> cell g i j = Some h -> (i < nrows g)%nat /\ (j < ncols g)%nat.
Proof.
  intros Hr E. unfold cell in E. destruct (nth_error g i) as [r|] eqn:Er; [|discriminate]. split; [apply nth_error_Some; congruence|].
  rewrite <- (Hr r (nth_error_In _ _ Er)). apply nth_error_Some. congruence.
Qed.

(** A tilted step is levelled exactly: where the upper level lies on a plane, and the lower level a height h under it, then afterwards the
    two levels are flat with h between them, the mean plane subtracted being that plane; and stepheight, of a copy, in place or measured
    by a new object, is h. *)
Theorem C107_tilted_step (g : grid) (mask : list bool) (a b c h : R) : rect g -> get_mask (flat g) = Ok mask -> 0 < h -> spanning mask (nrows g) (ncols g) ->
  (exists i j, (i < nrows g)%nat /\ in_class mask (ncols g) false i j) ->
  (forall i j, (i < nrows g)%nat -> in_class mask (ncols g) true i j -> height_is g i j (a * INR j + b * INR i + c)) ->
  (forall i j, (i < nrows g)%nat -> in_class mask (ncols g) false i j -> height_is g i j (a * INR j + b * INR i + c - h)) ->
  exists s' s'' top, level_copy lstsq (fresh g) = Ok s' /\ level_inplace lstsq (fresh g) = Ok s'' /\ st_data s'' = st_data s' /\
    (forall i j, (i < nrows g)%nat -> in_class mask (ncols g) true i j -> height_is (st_data s') i j top) /\
    (forall i j, (i < nrows g)%nat -> in_class mask (ncols g) false i j -> height_is (st_data s') i j (top - h)) /\
    stepheight_of s' = Ok (Some h) /\ stepheight_of s'' = Ok (Some h) /\ stepheight (flat (st_data s')) = Ok (Some h).
Proof.
  intros Hr Em Hh Sp Lo Hu Hl. unfold level_copy, level_inplace. change (mask_of (fresh g)) with (get_mask (flat g)). rewrite Em. cbn [rbind st_data fresh].
  set (co := coeffs lstsq g mask). set (M := mean_plane co (nrows g) (ncols g)).
  destruct (levelled_cells lstsq g mask Hr) as (Rg' & Hn & Hc & C). fold co in C. fold M in C. set (g' := levelled lstsq g mask) in *.
  assert (Ne := spanning_ne g mask Sp).
  assert (Fit : forall i j, (i < nrows g)%nat -> in_class mask (ncols g) true i j -> plane_at co i j = plane_at [a; b; c] i j).
  { apply (fits_exactly g mask co [a; b; c] eq_refl eq_refl Ne). intros i j A B. unfold plane_at. cbn [nth]. apply Hu; assumption. }
  destruct (unique_plane co [a; b; c] mask _ _ Sp Fit) as (E1 & E2 & E3). cbn [nth] in E1, E2, E3.
  assert (Pl : forall i j, plane_at co i j = a * INR j + b * INR i + c) by (intros i j; unfold plane_at; rewrite E1, E2, E3; reflexivity).
  assert (Hi' : forall i j, (i < nrows g)%nat -> in_class mask (ncols g) true i j -> height_is g' i j M).
  { intros i j A B. specialize (Hu i j A B). unfold height_is in *. rewrite C, Hu, Pl. do 2 f_equal. lra. }
  assert (Lo' : forall i j, (i < nrows g)%nat -> in_class mask (ncols g) false i j -> height_is g' i j (M - h)).
  { intros i j A B. specialize (Hl i j A B). unfold height_is in *. rewrite C, Hl, Pl. do 2 f_equal. lra. }
  assert (Up : exists i j, (i < nrows g)%nat /\ in_class mask (ncols g) true i j).
  { destruct Sp as (i1 & j1 & _ & _ & _ & _ & A & _ & _ & B & _). exists i1, j1. split; assumption. }
  assert (Cl := mask_classes g mask Hr Em).
  assert (Fr : stepheight (flat g') = Ok (Some h)).
  { destruct (complete_flat g') as [d Ed].
    { intros i j X. destruct (cell_bounds g' i j _ Rg' X) as [A B]. rewrite Hn in A. rewrite Hc in B. destruct (classes_cover g mask i j Cl A B) as [[] K].
      - specialize (Hi' i j A K). unfold height_is in Hi'. congruence.
      - specialize (Lo' i j A K). unfold height_is in Lo'. congruence. }
    assert (Occ : forall i j z, height_is g' i j z -> In z d).
    { intros i j z X. assert (Y : In (Some z) (flat g')). { unfold flat, height_is, cell in *. destruct (nth_error g' i) as [r|] eqn:Er; [|discriminate]. apply in_concat. exists r. split; [apply (nth_error_In _ _ Er)|apply (nth_error_In _ _ X)]. }
      rewrite Ed in Y. apply in_map_iff in Y as (x & Ex & Y). congruence. }
    destruct (C28_ideal d (M - h) M ltac:(lra)) as [Z _].
    - destruct Lo as (i & j & A & B). apply (Occ i j). apply Lo'; assumption.
    - destruct Up as (i & j & A & B). apply (Occ i j). apply Hi'; assumption.
    - intros x Hx. assert (Y : In (Some x) (flat g')) by (rewrite Ed; apply in_map; exact Hx). unfold flat in Y. apply in_concat in Y as (r & Y1 & Y2).
      apply In_nth_error in Y1 as [i Y1]. apply In_nth_error in Y2 as [j Y2]. assert (X : height_is g' i j x) by (unfold height_is, cell; rewrite Y1; exact Y2).
      destruct (cell_bounds g' i j _ Rg' X) as [A B]. rewrite Hn in A. rewrite Hc in B. unfold height_is in X. destruct (classes_cover g mask i j Cl A B) as [[] K].
      + right. specialize (Hi' i j A K). unfold height_is in Hi'. congruence.
      + left. specialize (Lo' i j A K). unfold height_is in Lo'. congruence.
    - rewrite Ed, Z. do 2 f_equal. lra. }
  exists (mkStepped g' (Some mask)), (fresh g'), M. cbn [st_data fresh]. split; [reflexivity|]. split; [reflexivity|]. split; [reflexivity|]. split; [exact Hi'|]. split; [exact Lo'|].
  split; [|split; [|exact Fr]].
  - rewrite (levels_seeded g' mask M (M - h) Rg'); rewrite ?Hn, ?Hc; try assumption. do 2 f_equal. lra.
  - exact Fr.
Qed.

(** Levelling a levelled copy again changes nothing. *)
Theorem C107_repeat (s s' s'' : stepped) (mask : list bool) : rect (st_data s) -> mask_of s = Ok mask -> spanning mask (nrows (st_data s)) (ncols (st_data s)) ->
  (forall i j, (i < nrows (st_data s))%nat -> in_class mask (ncols (st_data s)) true i j -> exists z, height_is (st_data s) i j z) ->
  level_copy lstsq s = Ok s' -> level_copy lstsq s' = Ok s'' -> s'' = s'.
Proof.
  intros Hr Em Sp Hm E1 E2. unfold level_copy in E1. rewrite Em in E1. cbn [rbind] in E1. injection E1 as <-. unfold level_copy, mask_of in E2. cbn [st_mask rbind st_data] in E2. injection E2 as <-.
  f_equal. set (g := st_data s) in *. set (co := coeffs lstsq g mask). set (M := mean_plane co (nrows g) (ncols g)).
  destruct (levelled_cells lstsq g mask Hr) as (Rg' & Hn & Hc & C). fold co in C. fold M in C. set (g' := levelled lstsq g mask) in *.
  destruct (levelled_cells lstsq g' mask Rg') as (Rg2 & Hn2 & Hc2 & C2). set (g2 := levelled lstsq g' mask) in *. set (co2 := coeffs lstsq g' mask) in *.
  assert (EP : upper_points g' mask = upper_points g mask) by (unfold upper_points; rewrite Hn, Hc; reflexivity).
  assert (Ne := spanning_ne g mask Sp).
  assert (L1 := coeffs_ls g mask Ne). fold co in L1. assert (L2 := coeffs_ls g' mask ltac:(rewrite EP; exact Ne)). fold co2 in L2. rewrite EP in L2. assert (Lc := proj1 L1).
  set (q := [- nth 0 co 0; - nth 1 co 0; M - nth 2 co 0]).
  assert (Z' : forall p, In p (upper_points g mask) -> height_at g' p = height_at g p + dot (plane_row p) q).
  { intros p Hp. rewrite upper_is in Hp. apply points_In in Hp as [A B]. destruct (Hm _ _ A B) as [z Hz]. unfold height_is in Hz. unfold height_at. rewrite C, Hz. rewrite dot_plane by reflexivity. unfold plane_at, q. cbn [nth]. lra. }
  pose proof (same_residual (upper_points g mask) plane_row 3 plane_row_length _ _ _ _ q L1 L2 eq_refl Z') as Res.
  assert (Fit : forall i j, (i < nrows g)%nat -> in_class mask (ncols g) true i j -> plane_at co2 i j = plane_at [0; 0; M] i j).
  { intros i j A B. assert (Ip : In (i, j) (upper_points g mask)) by (rewrite upper_is; apply points_In; cbn; auto). specialize (Res _ Ip). specialize (Z' _ Ip).
    rewrite (dot_plane co _ Lc), (dot_plane co2 _ (proj1 L2)) in Res. rewrite dot_plane in Z' by reflexivity. cbn [fst snd] in *. unfold plane_at in *. unfold q in Z'. cbn [nth] in *. lra. }
  destruct (unique_plane co2 [0; 0; M] mask _ _ Sp Fit) as (F1 & F2 & F3). cbn [nth] in F1, F2, F3.
  assert (Pl : forall i j, plane_at co2 i j = M) by (intros i j; unfold plane_at; rewrite F1, F2, F3; lra).
  assert (Mp : (0 < nrows g)%nat -> (0 < ncols g)%nat -> mean_plane co2 (nrows g') (ncols g') = M).
  { intros P1 P2. unfold mean_plane. rewrite Hn, Hc. unfold meanR. rewrite map_length. rewrite (sumR_ext _ (fun _ => M)) by (intros p _; apply Pl). rewrite sumR_map_const.
    assert (0 < INR (length (coords (nrows g) (ncols g)))) by (apply lt_0_INR; rewrite coords_length; nia). field. lra. }
  apply grid_ext; [exact Rg2|exact Rg'|exact Hn2|exact Hc2|]. intros i j. rewrite C2.
  destruct (cell g' i j) as [[z|]|] eqn:Ez; try reflexivity. destruct (cell_bounds g' i j _ Rg' Ez) as [A B]. rewrite Hn in A. rewrite Hc in B. rewrite Pl, Mp by (clear - A B; lia). do 2 f_equal. lra.
Qed.
End Solver.

(** *** A histogram of three bins *)
Lemma filter_map_comm {A B} (f : A -> B) (p : B -> bool) l : map f (List.filter (fun x => p (f x)) l) = List.filter p (map f l).
Proof. induction l as [|x l IH]; [reflexivity|]. cbn. destruct (p (f x)); cbn; rewrite IH; reflexivity. Qed.
Definition cut_value (lo hi : R) (bs : list nat) (k : nat) : R :=
  let lw := List.filter (fun b => Nat.leb b k) bs in let up := List.filter (fun b => Nat.ltb k b) bs in
  INR (length lw) * INR (length up) * ((meanR (map (bin_center 256 lo hi) lw) - meanR (map (bin_center 256 lo hi) up)) ^ 2).
Lemma bcv_bins d lo hi bs k : map (hist_bin 256 lo hi) d = bs -> bcv 256 d lo hi k = cut_value lo hi bs k.
Proof.
  intros <-. unfold cut_value. rewrite <- !(filter_map_comm (hist_bin 256 lo hi)), !map_length, !map_map. reflexivity.
Qed.
Lemma three_cut d lo hi bs m : is_min lo d -> is_max hi d -> lo < hi -> map (hist_bin 256 lo hi) d = bs -> (0 < m < 255)%nat -> (forall b, In b bs -> b = 0%nat \/ b = m \/ b = 255%nat) ->
  (cut_value lo hi bs m <= cut_value lo hi bs 0 -> otsu_threshold 256 d = Ok (bin_center 256 lo hi 0)) /\
  (cut_value lo hi bs 0 < cut_value lo hi bs m -> otsu_threshold 256 d = Ok (bin_center 256 lo hi m)).
Proof.
  intros A B D Eb Hm H. assert (V : forall j, bcv 256 d lo hi j = cut_value lo hi bs j) by (intros; apply bcv_bins; exact Eb).
  assert (Lt : forall j k, (forall b, In b bs -> Nat.leb b j = Nat.leb b k) -> cut_value lo hi bs j = cut_value lo hi bs k).
  { intros j k K. unfold cut_value. rewrite (filter_ext_in (fun b => Nat.leb b j) (fun b => Nat.leb b k)) by exact K.
    rewrite (filter_ext_in (fun b => Nat.ltb j b) (fun b => Nat.ltb k b)); [reflexivity|]. intros b Hb. rewrite !Nat.ltb_antisym, (K b Hb). reflexivity. }
  assert (V1 : forall j, (j < m)%nat -> cut_value lo hi bs j = cut_value lo hi bs 0).
  { intros j Hj. apply Lt. intros b Hb. apply eq_true_iff_eq. rewrite !Nat.leb_le. destruct (H b Hb) as [->|[->| ->]]; lia. }
  assert (V2 : forall j, (m <= j < 255)%nat -> cut_value lo hi bs j = cut_value lo hi bs m).
  { intros j Hj. apply Lt. intros b Hb. apply eq_true_iff_eq. rewrite !Nat.leb_le. destruct (H b Hb) as [->|[->| ->]]; lia. }
  assert (Two : (2 <= 256)%nat) by (apply Nat.leb_le; reflexivity).
  change (256 - 1)%nat with 255%nat in *.
  split; intros X; apply (otsu_first 256 d lo hi); auto.
  - change (256 - 1)%nat with 255%nat. lia.
  - change (256 - 1)%nat with 255%nat. intros j Hj. rewrite !V. destruct (Nat.lt_ge_cases j m); [rewrite (V1 j) by assumption; lra|rewrite (V2 j) by lia; exact X].
  - intros j Hj. lia.
  - change (256 - 1)%nat with 255%nat. lia.
  - change (256 - 1)%nat with 255%nat. intros j Hj. rewrite !V. destruct (Nat.lt_ge_cases j m); [rewrite (V1 j) by assumption; lra|rewrite (V2 j) by lia; lra].
  - intros j Hj. rewrite !V, (V1 j) by exact Hj. exact X.
Qed.
Lemma bin_is lo hi x b k : lo < hi -> (b <= 255)%nat -> k = INR b -> k * (hi - lo) <= (x - lo) * 256 < (k + 1) * (hi - lo) -> hist_bin 256 lo hi x = b.
Proof.
  intros D Hb -> K. unfold hist_bin. replace (INR 256) with 256 by (rewrite INR_IZR_INZ; reflexivity).
  replace (Int_part ((x - lo) / (hi - lo) * 256)) with (Z.of_nat b).
  - rewrite Nat2Z.id. change (256 - 1)%nat with 255%nat. lia.
  - symmetry. apply Int_part_unique. rewrite <- INR_IZR_INZ. replace ((x - lo) / (hi - lo) * 256) with ((x - lo) * 256 / (hi - lo)) by (field; lra).
    split; [apply Rmult_le_reg_r with (hi - lo)|apply Rmult_lt_reg_r with (hi - lo)]; try lra; unfold Rdiv at 1; rewrite Rmult_assoc, Rinv_l by lra; lra.
Qed.
Lemma mask_at d t : two_values d -> otsu_threshold 256 d = Ok t -> get_mask (map Some d) = Ok (map (fun x => Rltb t x) d).
Proof. intros T E. destruct (mask_complete d T) as (t' & _ & _ & _ & _ & _ & E' & M & _). rewrite E in E'. injection E' as <-. exact M. Qed.
Definition tilted : grid := [[Some 0; Some 0; Some 9; Some 19]; [Some 0; Some 0; Some 9; Some 19]].
Definition untilted : grid := [[Some 15; Some 5; Some 4; Some 4]; [Some 15; Some 5; Some 4; Some 4]].
Lemma centers lo hi b k : k = INR b -> bin_center 256 lo hi b = lo + (k + 1 / 2) * ((hi - lo) / 256).
Proof. intros ->. rewrite ctr_value. replace (INR 256) with 256 by (rewrite INR_IZR_INZ; reflexivity). reflexivity. Qed.
Lemma inr_n b z : Z.of_nat b = z -> IZR z = INR b. Proof. intros <-. symmetry. apply INR_IZR_INZ. Qed.
Lemma tilted_mask : get_mask (flat tilted) = Ok [false; false; true; true; false; false; true; true].
Proof.
  set (d := [0; 0; 9; 19; 0; 0; 9; 19]). change (flat tilted) with (map Some d).
  assert (A : is_min 0 d) by (split; [left; reflexivity|]; intros y Hy; cbn in Hy; intuition lra).
  assert (B : is_max 19 d) by (split; [do 3 right; left; reflexivity|]; intros y Hy; cbn in Hy; intuition lra).
  assert (T : two_values d) by (exists 0, 19; repeat split; [apply A|apply B|lra]).
  assert (B0 : hist_bin 256 0 19 0 = 0%nat) by (apply (bin_is 0 19 0 0 0); [lra|lia|reflexivity|lra]).
  assert (B1 : hist_bin 256 0 19 9 = 121%nat) by (apply (bin_is 0 19 9 121 121); [lra|lia|apply inr_n; reflexivity|lra]).
  assert (B2 : hist_bin 256 0 19 19 = 255%nat) by (apply (bin_hi 256 0 19); [apply Nat.leb_le; reflexivity|lra]).
  pose (bs := [0; 0; 121; 255; 0; 0; 121; 255]%nat).
  assert (Eb : map (hist_bin 256 0 19) d = bs) by (cbn [map d]; rewrite B0, B1, B2; reflexivity).
  destruct (three_cut d 0 19 bs 121 A B ltac:(lra) Eb ltac:(lia)) as [E _].
  { intros b Hb. unfold bs in Hb. cbn [In] in Hb. intuition lia. }
  assert (E0 : otsu_threshold 256 d = Ok (bin_center 256 0 19 0)).
  { apply E. unfold cut_value. change (List.filter (fun b => Nat.leb b 121) bs) with [0; 0; 121; 0; 0; 121]%nat. change (List.filter (fun b => Nat.ltb 121 b) bs) with [255; 255]%nat.
    change (List.filter (fun b => Nat.leb b 0) bs) with [0; 0; 0; 0]%nat. change (List.filter (fun b => Nat.ltb 0 b) bs) with [121; 255; 121; 255]%nat.
    cbn [map]. rewrite (centers 0 19 0 0) by reflexivity. rewrite (centers 0 19 121 121) by (apply inr_n; reflexivity). rewrite (centers 0 19 255 255) by (apply inr_n; reflexivity).
    unfold meanR, sumR. cbn [length fold_right INR]. lra. }
  rewrite (mask_at d _ T E0), (centers 0 19 0 0) by reflexivity.
  assert (Q1 : forall x y, x < y -> Rltb x y = true) by (intros; apply Rltb_spec; lra). assert (Q2 : forall x y, y <= x -> Rltb x y = false) by (intros; apply Rltb_false; lra).
  cbn [map d]. rewrite (Q2 _ 0), (Q1 _ 9), (Q1 _ 19) by lra. reflexivity.
Qed.
Lemma untilted_mask : get_mask (flat untilted) = Ok [true; false; false; false; true; false; false; false].
Proof.
  set (d := [15; 5; 4; 4; 15; 5; 4; 4]). change (flat untilted) with (map Some d).
  assert (A : is_min 4 d) by (split; [do 2 right; left; reflexivity|]; intros y Hy; cbn in Hy; intuition lra).
  assert (B : is_max 15 d) by (split; [left; reflexivity|]; intros y Hy; cbn in Hy; intuition lra).
  assert (T : two_values d) by (exists 4, 15; repeat split; [apply A|apply B|lra]).
  assert (B0 : hist_bin 256 4 15 4 = 0%nat) by (apply (bin_is 4 15 4 0 0); [lra|lia|reflexivity|lra]).
  assert (B1 : hist_bin 256 4 15 5 = 23%nat) by (apply (bin_is 4 15 5 23 23); [lra|lia|apply inr_n; reflexivity|lra]).
  assert (B2 : hist_bin 256 4 15 15 = 255%nat) by (apply (bin_hi 256 4 15); [apply Nat.leb_le; reflexivity|lra]).
  pose (bs := [255; 23; 0; 0; 255; 23; 0; 0]%nat).
  assert (Eb : map (hist_bin 256 4 15) d = bs) by (cbn [map d]; rewrite B0, B1, B2; reflexivity).
  destruct (three_cut d 4 15 bs 23 A B ltac:(lra) Eb ltac:(lia)) as [_ E].
  { intros b Hb. unfold bs in Hb. cbn [In] in Hb. intuition lia. }
  assert (E0 : otsu_threshold 256 d = Ok (bin_center 256 4 15 23)).
  { apply E. unfold cut_value. change (List.filter (fun b => Nat.leb b 23) bs) with [23; 0; 0; 23; 0; 0]%nat. change (List.filter (fun b => Nat.ltb 23 b) bs) with [255; 255]%nat.
    change (List.filter (fun b => Nat.leb b 0) bs) with [0; 0; 0; 0]%nat. change (List.filter (fun b => Nat.ltb 0 b) bs) with [255; 23; 255; 23]%nat.
    cbn [map]. rewrite (centers 4 15 0 0) by reflexivity. rewrite (centers 4 15 23 23) by (apply inr_n; reflexivity). rewrite (centers 4 15 255 255) by (apply inr_n; reflexivity).
    unfold meanR, sumR. cbn [length fold_right INR]. lra. }
  rewrite (mask_at d _ T E0), (centers 4 15 23 23) by (apply inr_n; reflexivity).
  assert (Q1 : forall x y, x < y -> Rltb x y = true) by (intros; apply Rltb_spec; lra). assert (Q2 : forall x y, y <= x -> Rltb x y = false) by (intros; apply Rltb_false; lra).
  cbn [map d]. rewrite (Q2 _ 4), (Q2 _ 5), (Q1 _ 15) by lra. reflexivity.
Qed.
Lemma tilted_spans : spanning [false; false; true; true; false; false; true; true] 2 4.
Proof. exists 0%nat, 2%nat, 0%nat, 3%nat, 1%nat, 2%nat. unfold in_class. repeat split; try lia; try reflexivity. cbn [INR]. lra. Qed.
Lemma rect_tilted : rect tilted. Proof. intros r [<-|[<-|[]]]; reflexivity. Qed.
Lemma rect_untilted : rect untilted. Proof. intros r [<-|[<-|[]]]; reflexivity. Qed.

(** A levelled copy keeps the classes of the surface it was made from.  Where levelling moves a point across, the step height of the copy and
    that of the very same heights in a new Surface differ: here -6 and 11.  With inplace=True the method gives 11 as well. *)
Theorem C107_kept_classes_refuted (lstsq : lsq_solver) : lsq_contract lstsq ->
  exists s s' s'', level_copy lstsq s = Ok s' /\ level_inplace lstsq s = Ok s'' /\ s = fresh tilted /\ st_data s' = untilted /\ st_data s'' = untilted /\
    stepheight_of s' = Ok (Some (-6)) /\ stepheight_of s'' = Ok (Some 11) /\ stepheight (flat untilted) = Ok (Some 11).
Proof.
  intros HS. set (mask := [false; false; true; true; false; false; true; true]).
  assert (Ed : levelled lstsq tilted mask = untilted).
  { destruct (levelled_cells lstsq tilted mask rect_tilted) as (Rg' & Hn & Hc & C). set (co := coeffs lstsq tilted mask) in *. set (g' := levelled lstsq tilted mask) in *.
    change (nrows tilted) with 2%nat in *. change (ncols tilted) with 4%nat in *.
    assert (Fit : forall i j, (i < 2)%nat -> in_class mask 4 true i j -> plane_at co i j = plane_at [10; 0; -11] i j).
    { apply (fits_exactly lstsq HS tilted mask co [10; 0; -11] eq_refl eq_refl).
      - apply spanning_ne. exact tilted_spans.
      - intros i j Hi [Hj Hb]. unfold height_is, plane_at. cbn [nth]. destruct i as [|[|]]; [| |exfalso; clear - Hi; cbn in Hi; lia];
          (destruct j as [|[|[|[|]]]]; [discriminate|discriminate| | |exfalso; clear - Hj; cbn in Hj; lia]); unfold cell, tilted; cbn [nth_error INR]; do 2 f_equal; lra. }
    destruct (unique_plane co [10; 0; -11] mask _ _ tilted_spans Fit) as (E1 & E2 & E3). cbn [nth] in E1, E2, E3.
    assert (Pl : forall i j, plane_at co i j = 10 * INR j - 11) by (intros i j; unfold plane_at; rewrite E1, E2, E3; ring).
    assert (Mp : mean_plane co 2 4 = 4).
    { unfold mean_plane, meanR. rewrite map_length, coords_length. rewrite (sumR_ext _ (fun p => 10 * INR (snd p) - 11)) by (intros p _; apply Pl).
      unfold coords, sumR. cbn [flat_map seq map app fold_right fst snd Nat.mul Nat.add]. cbn [INR]. lra. }
    apply grid_ext; [exact Rg'|exact rect_untilted|exact Hn|exact Hc|]. intros i j. rewrite C, Pl, Mp.
    destruct i as [|[|i]]; [| |unfold cell, tilted, untilted; cbn [nth_error]; destruct i; reflexivity];
      (destruct j as [|[|[|[|j]]]]; [| | | |unfold cell, tilted, untilted; cbn [nth_error]; destruct j; reflexivity]); unfold cell, tilted, untilted; cbn [nth_error INR]; do 2 f_equal; lra. }
  assert (Fr : stepheight (flat untilted) = Ok (Some 11)).
  { unfold stepheight, upper_lower. rewrite untilted_mask. cbn [rbind]. transitivity (Ok (hsub (npmedian (map Some [15; 15])) (npmedian (map Some [5; 4; 4; 5; 4; 4])))); [reflexivity|]. rewrite !npmedian_Some by discriminate. cbn [hsub lift2]. do 2 f_equal.
    assert (M1 : medianR [15; 15] = 15). { unfold medianR. cbn -[Rdiv]. repeat (destruct Rle_dec; cbn -[Rdiv]; try lra). }
    assert (M2 : medianR [5; 4; 4; 5; 4; 4] = 4). { unfold medianR. cbn -[Rdiv]. repeat (destruct Rle_dec; cbn -[Rdiv]; try lra). }
    rewrite M1, M2. lra. }
  exists (fresh tilted), (mkStepped untilted (Some mask)), (fresh untilted). unfold level_copy, level_inplace. change (mask_of (fresh tilted)) with (get_mask (flat tilted)). rewrite tilted_mask. cbn [rbind st_data fresh].
  fold mask. rewrite Ed. repeat (split; [reflexivity|]). split; [|split; exact Fr].
  unfold stepheight_of, levels_of, mask_of. cbn [st_mask st_data rbind]. transitivity (Ok (hsub (npmedian (map Some [4; 4; 4; 4])) (npmedian (map Some [15; 5; 15; 5])))); [reflexivity|]. rewrite !npmedian_Some by discriminate. cbn [hsub lift2]. do 2 f_equal.
  assert (M1 : medianR [4; 4; 4; 4] = 4). { unfold medianR. cbn -[Rdiv]. repeat (destruct Rle_dec; cbn -[Rdiv]; try lra). }
  assert (M2 : medianR [15; 5; 15; 5] = 10). { unfold medianR. cbn -[Rdiv]. repeat (destruct Rle_dec; cbn -[Rdiv]; try lra). }
  rewrite M1, M2. lra.
Qed.

(** A step of 17 on a tilted plane, as C107_tilted_step and C107_repeat suppose. *)
Definition small_tilt : grid := [[Some 0; Some 18; Some 19]; [Some 0; Some 18; Some 19]].
Lemma small_mask : get_mask (flat small_tilt) = Ok [false; true; true; false; true; true].
Proof.
  set (d := [0; 18; 19; 0; 18; 19]). change (flat small_tilt) with (map Some d).
  assert (A : is_min 0 d) by (split; [left; reflexivity|]; intros y Hy; cbn in Hy; intuition lra).
  assert (B : is_max 19 d) by (split; [do 2 right; left; reflexivity|]; intros y Hy; cbn in Hy; intuition lra).
  assert (T : two_values d) by (exists 0, 19; repeat split; [apply A|apply B|lra]).
  assert (B0 : hist_bin 256 0 19 0 = 0%nat) by (apply (bin_is 0 19 0 0 0); [lra|lia|reflexivity|lra]).
  assert (B1 : hist_bin 256 0 19 18 = 242%nat) by (apply (bin_is 0 19 18 242 242); [lra|lia|apply inr_n; reflexivity|lra]).
  assert (B2 : hist_bin 256 0 19 19 = 255%nat) by (apply (bin_hi 256 0 19); [apply Nat.leb_le; reflexivity|lra]).
  pose (bs := [0; 242; 255; 0; 242; 255]%nat).
  assert (Eb : map (hist_bin 256 0 19) d = bs) by (cbn [map d]; rewrite B0, B1, B2; reflexivity).
  destruct (three_cut d 0 19 bs 242 A B ltac:(lra) Eb ltac:(lia)) as [E _].
  { intros b Hb. unfold bs in Hb. cbn [In] in Hb. intuition lia. }
  assert (E0 : otsu_threshold 256 d = Ok (bin_center 256 0 19 0)).
  { apply E. unfold cut_value. change (List.filter (fun b => Nat.leb b 242) bs) with [0; 242; 0; 242]%nat. change (List.filter (fun b => Nat.ltb 242 b) bs) with [255; 255]%nat.
    change (List.filter (fun b => Nat.leb b 0) bs) with [0; 0]%nat. change (List.filter (fun b => Nat.ltb 0 b) bs) with [242; 255; 242; 255]%nat.
    cbn [map]. rewrite (centers 0 19 0 0) by reflexivity. rewrite (centers 0 19 242 242) by (apply inr_n; reflexivity). rewrite (centers 0 19 255 255) by (apply inr_n; reflexivity).
    unfold meanR, sumR. cbn [length fold_right INR]. lra. }
  rewrite (mask_at d _ T E0), (centers 0 19 0 0) by reflexivity.
  assert (Q1 : forall x y, x < y -> Rltb x y = true) by (intros; apply Rltb_spec; lra). assert (Q2 : forall x y, y <= x -> Rltb x y = false) by (intros; apply Rltb_false; lra).
  cbn [map d]. rewrite (Q2 _ 0), (Q1 _ 18), (Q1 _ 19) by lra. reflexivity.
Qed.
Theorem C107_example (lstsq : lsq_solver) : lsq_contract lstsq ->
  exists s' s'', level_copy lstsq (fresh small_tilt) = Ok s' /\ level_copy lstsq s' = Ok s'' /\ s'' = s' /\ stepheight_of s' = Ok (Some 17).
Proof.
  intros HS. set (mask := [false; true; true; false; true; true]).
  assert (Sp : spanning mask 2 3).
  { exists 0%nat, 1%nat, 0%nat, 2%nat, 1%nat, 1%nat. unfold in_class. repeat split; try lia; try reflexivity. cbn [INR]. lra. }
  assert (Hr : rect small_tilt) by (intros r [<-|[<-|[]]]; reflexivity).
  destruct (C107_tilted_step lstsq HS small_tilt mask 1 0 17 17 Hr small_mask) as (s' & s'' & top & E & _ & _ & _ & _ & St & _); try lra; try exact Sp.
  - exists 0%nat, 0%nat. repeat split; cbn; try lia.
  - change (nrows small_tilt) with 2%nat. change (ncols small_tilt) with 3%nat. intros i j Hi [Hj Hb]. unfold height_is.
    destruct i as [|[|]]; [| |exfalso; clear - Hi; cbn in Hi; lia]; (destruct j as [|[|[|]]]; [discriminate| | |exfalso; clear - Hj; cbn in Hj; lia]); unfold cell, small_tilt; cbn [nth_error INR]; do 2 f_equal; lra.
  - change (nrows small_tilt) with 2%nat. change (ncols small_tilt) with 3%nat. intros i j Hi [Hj Hb]. unfold height_is.
    destruct i as [|[|]]; [| |exfalso; clear - Hi; cbn in Hi; lia]; (destruct j as [|[|[|]]]; [|discriminate|discriminate|exfalso; clear - Hj; cbn in Hj; lia]); unfold cell, small_tilt; cbn [nth_error INR]; do 2 f_equal; lra.
  - destruct (level_copy lstsq s') as [s2|] eqn:E2.
    + exists s', s2. split; [exact E|]. split; [exact E2|]. split; [|exact St].
      apply (C107_repeat lstsq HS (fresh small_tilt) s' s2 mask Hr small_mask Sp); [|exact E|exact E2].
      change (nrows (st_data (fresh small_tilt))) with 2%nat. change (ncols (st_data (fresh small_tilt))) with 3%nat. intros i j Hi [Hj _]. unfold height_is.
      destruct i as [|[|]]; [| |exfalso; clear - Hi; cbn in Hi; lia]; (destruct j as [|[|[|]]]; [eexists; reflexivity|eexists; reflexivity|eexists; reflexivity|exfalso; clear - Hj; cbn in Hj; lia]).
    + exfalso. unfold level_copy in E. change (mask_of (fresh small_tilt)) with (get_mask (flat small_tilt)) in E. rewrite small_mask in E. cbn [rbind] in E. injection E as <-. discriminate.
Qed.
Print Assumptions C107_inplace_new.
