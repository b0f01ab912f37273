(** Property theorems C20 (surface.py:524-606, profile.py:158-211). *)
From Coq Require Import String Reals List Bool Arith ZArith Lra Lia.
From Verif Require Import Base RList ModelMath ModelHeights ProofHeights ModelParams ProofParams ProofStep ModelDetrend SpecDetrend ProofDetrend.
Import ListNotations.
Local Open Scope R_scope.

(** A solver meeting the contract on every system exists (projection onto the columns one by one). *)
Lemma pad_length m (p : list R * R) : length (if Nat.eqb (length (fst p)) m then fst p else repeat 0 m) = m.
Proof. destruct (Nat.eqb_spec (length (fst p)) m); [assumption|apply repeat_length]. Qed.
Definition ref_solver : lsq_solver := fun A z =>
  let m := length (hd [] A) in proj1_sig (ls_exists (combine A z) m (fun p => if Nat.eqb (length (fst p)) m then fst p else repeat 0 m) (pad_length m) snd).
Theorem C20_contract_satisfiable : exists lstsq, lsq_contract lstsq.
Proof.
  exists ref_solver. intros m A z HA0 HA L. unfold ref_solver. cbv zeta.
  assert (Em : length (hd [] A) = m) by (destruct A as [|r A]; [congruence|apply HA; left; reflexivity]). rewrite Em.
  destruct (ls_exists (combine A z) m _ (pad_length m) snd) as (c & Lc & O). cbn [proj1_sig].
  set (pts := combine A z) in *.
  assert (EA : A = map (fun p => if Nat.eqb (length (fst p)) m then fst p else repeat 0 m) pts).
  { unfold pts. clear - HA L. revert z L. induction A as [|r A IH]; intros [|x z] L; try discriminate; [reflexivity|]. cbn.
    rewrite (HA r (or_introl eq_refl)), Nat.eqb_refl. f_equal. apply IH; [intros; apply HA; right; assumption|injection L; auto]. }
  assert (Ez : z = map snd pts).
  { unfold pts. clear - L. revert z L. induction A as [|r A IH]; intros [|x z] L; try discriminate; [reflexivity|]. cbn. f_equal. apply IH. injection L; auto. }
  rewrite EA, Ez. apply orth_min; auto.
Qed.

(** ** Surfaces *)
Definition measured_sum (g : grid) (F : nat -> nat -> R -> R) : R :=
  sumR (map (fun p => match cell g (fst p) (snd p) with Some (Some z) => F (fst p) (snd p) z | _ => 0 end) (coords (nrows g) (ncols g))).
Lemma coords_In ny nx p : In p (coords ny nx) <-> (fst p < ny)%nat /\ (snd p < nx)%nat.
Proof.
  unfold coords. rewrite in_flat_map. destruct p as [i j]. cbn. split.
  - intros (k & Hk & Hp). apply in_map_iff in Hp as (l & E & Hl). injection E as <- <-. apply in_seq in Hk, Hl. lia.
  - intros [A B]. exists i. split; [apply in_seq; lia|]. apply in_map_iff. exists j. split; [reflexivity|apply in_seq; lia].
Qed.
Lemma sumR_filter {A} (p : A -> bool) (f : A -> R) l : sumR (map f (List.filter p l)) = sumR (map (fun x => if p x then f x else 0) l).
Proof. induction l as [|x l IH]; auto. cbn [List.filter map]. destruct (p x); cbn [map]; rewrite !sumR_cons, IH; lra. Qed.
Lemma measured_sum_valid g F : measured_sum g F =
  sumR (map (fun p => F (fst p) (snd p) (height_at g p)) (List.filter (is_measured g) (coords (nrows g) (ncols g)))).
Proof.
  unfold measured_sum. rewrite sumR_filter. apply sumR_ext. intros p _. unfold is_measured, height_at. destruct (cell g (fst p) (snd p)) as [[z|]|]; reflexivity.
Qed.
(** what the method computes, cell by cell *)
Definition fitted (lstsq : lsq_solver) (g : grid) (d : nat) : list R :=
  let valid := List.filter (is_measured g) (coords (nrows g) (ncols g)) in
  lstsq (map (design_row (nrows g) (ncols g) d) valid) (map (height_at g) valid).
Definition trend_at (lstsq : lsq_solver) (g : grid) (d i j : nat) : R := dot (design_row (nrows g) (ncols g) d (i, j)) (fitted lstsq g d).
Lemma nth_error_zip2 {A B C} (f : A -> B -> C) l : forall l' i x y, nth_error l i = Some x -> nth_error l' i = Some y -> nth_error (zip2 f l l') i = Some (f x y).
Proof. induction l as [|a l IH]; intros [|b l'] [|i] x y H K; cbn in *; try discriminate; [injection H as <-; injection K as <-; reflexivity|]. apply IH; assumption. Qed.
Lemma nth_error_seq_map {A} (f : nat -> A) n i : (i < n)%nat -> nth_error (map f (seq 0 n)) i = Some (f i).
Proof. intros H. rewrite nth_error_map. rewrite (nth_error_nth' _ 0%nat) by (rewrite seq_length; exact H). rewrite seq_nth by exact H. reflexivity. Qed.
Lemma nth_error_seq_out {A} (f : nat -> A) n i : (n <= i)%nat -> nth_error (map f (seq 0 n)) i = None.
Proof. intros H. apply nth_error_None. rewrite map_length, seq_length. exact H. Qed.
Lemma rect_cell g i j : rect g -> (i < nrows g)%nat -> (j < ncols g)%nat -> exists h, cell g i j = Some h.
Proof.
  intros Hr Hi Hj. unfold cell. destruct (nth_error g i) as [r|] eqn:E; [|apply nth_error_None in E; unfold nrows in Hi; lia].
  assert (L := Hr r (nth_error_In _ _ E)). destruct (nth_error r j) as [h|] eqn:E'; [eauto|]. apply nth_error_None in E'. lia.
Qed.
Lemma rect_cell_in g i j h : rect g -> cell g i j = Some h -> (i < nrows g)%nat /\ (j < ncols g)%nat.
Proof.
  intros Hr H. unfold cell in H. destruct (nth_error g i) as [r|] eqn:E; [|discriminate]. split.
  - apply nth_error_Some. congruence.
  - rewrite <- (Hr r (nth_error_In _ _ E)). apply nth_error_Some. congruence.
Qed.
Lemma grid_ext g g' : rect g -> rect g' -> nrows g = nrows g' -> ncols g = ncols g' -> (forall i j, cell g i j = cell g' i j) -> g = g'.
Proof.
  intros R R' Hn Hc H. apply nth_error_ext'. intros i.
  destruct (nth_error g i) as [r|] eqn:E, (nth_error g' i) as [r'|] eqn:E'; auto.
  - apply (f_equal Some). apply nth_error_ext'. intros j. specialize (H i j). unfold cell in H. rewrite E, E' in H. exact H.
  - exfalso. apply nth_error_None in E'. assert (i < length g)%nat by (apply nth_error_Some; congruence). unfold nrows in Hn. lia.
  - exfalso. apply nth_error_None in E. assert (i < length g')%nat by (apply nth_error_Some; congruence). unfold nrows in Hn. lia.
Qed.
Lemma detrend_cells lstsq g d det tr : rect g -> detrend_polynomial lstsq g d = Ok (det, tr) ->
  (1 <= nrows g)%nat /\ (1 <= ncols g)%nat /\ ((1 <= d)%nat -> (2 <= nrows g)%nat /\ (2 <= ncols g)%nat) /\
  rect det /\ nrows det = nrows g /\ ncols det = ncols g /\ rect tr /\ nrows tr = nrows g /\ ncols tr = ncols g /\
  (forall i j, (i < nrows g)%nat -> (j < ncols g)%nat -> cell tr i j = Some (Some (trend_at lstsq g d i j))) /\
  (forall i j, cell det i j = match cell g i j with Some (Some z) => Some (Some (z - trend_at lstsq g d i j)) | o => o end).
Proof.
  intros Hr E. unfold detrend_polynomial in E.
  destruct (Nat.eqb_spec (nrows g) 0) as [|N1]; [discriminate|]. destruct (Nat.eqb_spec (ncols g) 0) as [|N2]; [discriminate|]. cbn [orb] in E.
  assert (Hd : (1 <= d)%nat -> (2 <= nrows g)%nat /\ (2 <= ncols g)%nat).
  { intros D. destruct (Nat.leb_spec 1 d); [|lia]. destruct (Nat.eqb_spec (nrows g) 1); [discriminate|]. destruct (Nat.eqb_spec (ncols g) 1); [discriminate|]. lia. }
  destruct (Nat.leb 1 d && _)%bool; [discriminate|].
  assert (Epair : forall a b c e : grid, @Ok (grid * grid) (a, b) = Ok (c, e) -> a = c /\ b = e) by (intros a b c e X; injection X; auto).
  apply Epair in E as [E1 E2]. clear Epair. fold (fitted lstsq g d) in E1, E2.
  pose (tl := map (fun i => map (fun j => Some (dot (design_row (nrows g) (ncols g) d (i, j)) (fitted lstsq g d)) : height) (seq 0 (ncols g))) (seq 0 (nrows g)) : grid).
  assert (Tr : forall i, (i < nrows g)%nat -> nth_error tl i = Some (map (fun j => Some (trend_at lstsq g d i j)) (seq 0 (ncols g)))) by (intros i Hi; unfold tl; rewrite nth_error_seq_map by exact Hi; reflexivity).
  assert (Rt : forall r, In r tl -> length r = ncols g) by (intros r Hin; apply in_map_iff in Hin as (i & <- & _); rewrite map_length; apply seq_length).
  assert (Lt : length tl = nrows g) by (unfold tl; rewrite map_length; apply seq_length).
  pose (pick := fun (h t : height) => match h with None => None | Some _ => hsub h t end : height).
  assert (E1' : zip2 (zip2 pick) g tl = det) by exact E1. clear E1. rename E1' into E1.
  assert (E2' : tl = tr) by exact E2. clear E2. rename E2' into E2.
  assert (Dr : forall i r, nth_error g i = Some r -> nth_error det i = Some (zip2 pick r (map (fun j => Some (trend_at lstsq g d i j)) (seq 0 (ncols g))))).
  { intros i r Hi. rewrite <- E1. apply nth_error_zip2; [exact Hi|]. apply Tr. apply nth_error_Some. congruence. }
  assert (Ld : length det = nrows g) by (rewrite <- E1, zip2_length; unfold nrows in *; lia).
  assert (Rd : forall r, In r det -> length r = ncols g).
  { intros r Hin. apply In_nth_error in Hin as [i Hi]. assert (Hlt : (i < nrows g)%nat) by (rewrite <- Ld; apply nth_error_Some; congruence).
    destruct (nth_error g i) as [q|] eqn:Eq; [|apply nth_error_None in Eq; unfold nrows in Hlt; lia].
    rewrite (Dr i q Eq) in Hi. injection Hi as <-. rewrite zip2_length, map_length, seq_length, (Hr q (nth_error_In _ _ Eq)). lia. }
  assert (Cd : ncols det = ncols g). { destruct det as [|r0 det'] eqn:Ed; [cbn in Ld; lia|]. apply Rd. left. reflexivity. }
  assert (Ct : ncols tr = ncols g). { rewrite <- E2. destruct tl as [|r0 tl'] eqn:Ed; [cbn in Lt; lia|]. apply Rt. left. reflexivity. }
  split; [lia|]. split; [lia|]. split; [exact Hd|]. split; [intros r Hin; rewrite Cd; apply Rd, Hin|].
  split; [exact Ld|]. split; [exact Cd|]. split; [intros r Hin; rewrite Ct; apply Rt; rewrite E2; exact Hin|].
  split; [rewrite <- E2; exact Lt|]. split; [exact Ct|]. split.
  - intros i j Hi Hj. rewrite <- E2. unfold cell. rewrite (Tr i Hi). apply (nth_error_seq_map (fun j => Some (trend_at lstsq g d i j))), Hj.
  - intros i j. unfold cell at 1. unfold cell. destruct (nth_error g i) as [r|] eqn:Ei.
    + rewrite (Dr i r Ei). assert (Lr := Hr r (nth_error_In _ _ Ei)). destruct (nth_error r j) as [h|] eqn:Ej.
      * assert (Hj : (j < ncols g)%nat) by (rewrite <- Lr; apply nth_error_Some; congruence).
        rewrite (nth_error_zip2 pick _ _ _ _ _ Ej (nth_error_seq_map _ _ _ Hj)). destruct h as [z|]; reflexivity.
      * apply nth_error_None. rewrite zip2_length, map_length, seq_length. apply nth_error_None in Ej. lia.
    + replace (nth_error det i) with (@None (list height)); [reflexivity|]. symmetry. apply nth_error_None. apply nth_error_None in Ei. unfold nrows in Ld. lia.
Qed.
(** detrended + trend is the original at every measured point; gaps stay gaps; the trend has no gap. *)
Theorem C20_decomposition : forall lstsq g d det tr, rect g -> detrend_polynomial lstsq g d = Ok (det, tr) ->
  nrows det = nrows g /\ ncols det = ncols g /\ nrows tr = nrows g /\ ncols tr = ncols g /\
  (forall i j, (i < nrows g)%nat -> (j < ncols g)%nat -> exists t, cell tr i j = Some (Some t) /\
     (forall z, cell g i j = Some (Some z) -> exists r, cell det i j = Some (Some r) /\ r + t = z) /\
     (cell g i j = Some None <-> cell det i j = Some None)).
Proof.
  intros lstsq g d det tr Hr E. destruct (detrend_cells lstsq g d det tr Hr E) as (_ & _ & _ & _ & A & B & _ & C & D & T & DD).
  repeat (split; [assumption|]). intros i j Hi Hj. exists (trend_at lstsq g d i j). split; [apply T; assumption|].
  destruct (rect_cell g i j Hr Hi Hj) as [h Eh]. rewrite DD, Eh. split.
  - intros z Ez. injection Ez as ->. eexists. split; [reflexivity|lra].
  - destruct h as [z|]; split; intros X; congruence.
Qed.
Section WithSolver.
Context (lstsq : lsq_solver) (HS : lsq_contract lstsq).
Lemma fitted_ls g d : List.filter (is_measured g) (coords (nrows g) (ncols g)) <> [] ->
  least_squares (length (terms d)) (map (design_row (nrows g) (ncols g) d) (List.filter (is_measured g) (coords (nrows g) (ncols g))))
    (map (height_at g) (List.filter (is_measured g) (coords (nrows g) (ncols g)))) (fitted lstsq g d).
Proof.
  intros N. apply HS.
  - intros X. apply map_eq_nil in X. congruence.
  - intros r H. apply in_map_iff in H as (p & <- & _). apply design_length.
  - rewrite !map_length. reflexivity.
Qed.
Lemma poly_cols d f g : (1 <= nrows g)%nat -> (1 <= ncols g)%nat -> ((1 <= d)%nat -> (2 <= nrows g)%nat /\ (2 <= ncols g)%nat) -> is_poly d f ->
  exists q, length q = length (terms d) /\ forall p, f (INR (snd p)) (INR (fst p)) = dot (design_row (nrows g) (ncols g) d p) q.
Proof.
  intros _ _ H P. destruct d as [|d]; [apply poly_dot0, P|]. destruct (H ltac:(lia)). apply poly_dot; auto.
Qed.
Lemma det_valid g d det tr : rect g -> detrend_polynomial lstsq g d = Ok (det, tr) ->
  List.filter (is_measured det) (coords (nrows det) (ncols det)) = List.filter (is_measured g) (coords (nrows g) (ncols g)) /\
  forall p, In p (List.filter (is_measured g) (coords (nrows g) (ncols g))) ->
    height_at det p = height_at g p - dot (design_row (nrows g) (ncols g) d p) (fitted lstsq g d).
Proof.
  intros Hr E. destruct (detrend_cells lstsq g d det tr Hr E) as (_ & _ & _ & _ & A & B & _ & _ & _ & _ & DD). rewrite A, B. split.
  - apply filter_ext. intros p. unfold is_measured. rewrite DD. destruct (cell g (fst p) (snd p)) as [[z|]|]; reflexivity.
  - intros [i j] Hp. apply filter_In in Hp as [_ Hp]. unfold is_measured in Hp. unfold height_at. rewrite DD. cbn [fst snd] in *.
    destruct (cell g i j) as [[z|]|]; try discriminate. reflexivity.
Qed.
(** the detrended surface is orthogonal to every polynomial of that degree in column and row number *)
Theorem C20_orthogonal : forall g d det tr f, rect g -> detrend_polynomial lstsq g d = Ok (det, tr) -> is_poly d f ->
  measured_sum det (fun i j r => r * f (INR j) (INR i)) = 0.
Proof.
  intros g d det tr f Hr E P. destruct (detrend_cells lstsq g d det tr Hr E) as (H1 & H2 & H3 & _).
  destruct (poly_cols d f g H1 H2 H3 P) as (q & Lq & Hq). destruct (det_valid g d det tr Hr E) as [V H].
  rewrite measured_sum_valid, V. set (valid := List.filter (is_measured g) (coords (nrows g) (ncols g))) in *.
  destruct valid as [|p0 vs] eqn:Ev; [reflexivity|]. rewrite <- Ev in *.
  assert (Nv : valid <> []) by (rewrite Ev; discriminate).
  assert (O := min_orth valid (design_row (nrows g) (ncols g) d) (length (terms d)) (design_length (nrows g) (ncols g) d) (height_at g) _ (fitted_ls g d Nv) q Lq).
  rewrite <- O. apply sumR_ext. intros p Hp. rewrite (H p Hp), Hq. reflexivity.
Qed.
(** no polynomial of that degree is closer to the measured heights *)
Theorem C20_best_fit : forall g d det tr f, rect g -> detrend_polynomial lstsq g d = Ok (det, tr) -> is_poly d f ->
  measured_sum det (fun _ _ r => r ^ 2) <= measured_sum g (fun i j z => (z - f (INR j) (INR i)) ^ 2).
Proof.
  intros g d det tr f Hr E P. destruct (detrend_cells lstsq g d det tr Hr E) as (H1 & H2 & H3 & _).
  destruct (poly_cols d f g H1 H2 H3 P) as (q & Lq & Hq). destruct (det_valid g d det tr Hr E) as [V H].
  rewrite !measured_sum_valid, V. set (valid := List.filter (is_measured g) (coords (nrows g) (ncols g))) in *.
  destruct valid as [|p0 vs] eqn:Ev; [cbn; lra|]. rewrite <- Ev in *.
  assert (Nv : valid <> []) by (rewrite Ev; discriminate). destruct (fitted_ls g d Nv) as [_ M]. specialize (M q Lq).
  fold valid in M. rewrite !rss_T in M. unfold rssT in M.
  rewrite (sumR_ext (fun p => height_at det p ^ 2) (fun p => (height_at g p - dot (design_row (nrows g) (ncols g) d p) (fitted lstsq g d)) ^ 2)) by (intros p Hp; now rewrite (H p Hp)).
  rewrite (sumR_ext (fun p => (height_at g p - f (INR (snd p)) (INR (fst p))) ^ 2) (fun p => (height_at g p - dot (design_row (nrows g) (ncols g) d p) q) ^ 2)) by (intros p Hp; now rewrite Hq).
  exact M.
Qed.
Lemma absorb g g' d det tr det' tr' q : rect g -> rect g' -> nrows g' = nrows g -> ncols g' = ncols g -> length q = length (terms d) ->
  (forall i j, cell g' i j = match cell g i j with Some (Some z) => Some (Some (z + dot (design_row (nrows g) (ncols g) d (i, j)) q)) | o => o end) ->
  detrend_polynomial lstsq g d = Ok (det, tr) -> detrend_polynomial lstsq g' d = Ok (det', tr') -> det' = det.
Proof.
  intros Hr Hr' Hn Hc Lq Hg E E'.
  destruct (detrend_cells lstsq g d det tr Hr E) as (_ & _ & _ & R1 & A1 & B1 & _ & _ & _ & _ & D1).
  destruct (detrend_cells lstsq g' d det' tr' Hr' E') as (_ & _ & _ & R2 & A2 & B2 & _ & _ & _ & _ & D2).
  assert (V : List.filter (is_measured g') (coords (nrows g') (ncols g')) = List.filter (is_measured g) (coords (nrows g) (ncols g))).
  { rewrite Hn, Hc. apply filter_ext. intros p. unfold is_measured. rewrite Hg. destruct (cell g (fst p) (snd p)) as [[z|]|]; reflexivity. }
  apply grid_ext; auto; try congruence. intros i j. rewrite D1, D2, Hg.
  destruct (cell g i j) as [[z|]|] eqn:Ec; try reflexivity. do 2 f_equal.
  set (valid := List.filter (is_measured g) (coords (nrows g) (ncols g))) in *.
  assert (Hp : In (i, j) valid).
  { destruct (rect_cell_in g i j _ Hr Ec). apply filter_In. split; [apply coords_In; auto|]. unfold is_measured. cbn [fst snd]. now rewrite Ec. }
  assert (Nv : valid <> []) by (intros X; rewrite X in Hp; destruct Hp).
  assert (L := fitted_ls g d Nv). fold valid in L.
  assert (Nv' : List.filter (is_measured g') (coords (nrows g') (ncols g')) <> []) by (rewrite V; exact Nv).
  assert (L' := fitted_ls g' d Nv'). rewrite V in L'. rewrite Hn, Hc in L'.
  assert (Hz : forall p, In p valid -> height_at g' p = height_at g p + dot (design_row (nrows g) (ncols g) d p) q).
  { intros [a b] Hin. apply filter_In in Hin as [_ Hin]. unfold is_measured in Hin. unfold height_at. cbn [fst snd] in *. rewrite Hg.
    destruct (cell g a b) as [[w|]|]; try discriminate. reflexivity. }
  assert (S := same_residual valid (design_row (nrows g) (ncols g) d) (length (terms d)) (design_length (nrows g) (ncols g) d) _ _ _ _ q L L' Lq Hz (i, j) Hp).
  unfold trend_at. rewrite Hn, Hc. unfold height_at in S. cbn [fst snd] in S. rewrite Hg, Ec in S. lra.
Qed.
(** adding any polynomial of that degree to the heights first does not change the result *)
Theorem C20_absorbs_polynomial : forall g g' d det tr det' tr' f, rect g -> rect g' -> nrows g' = nrows g -> ncols g' = ncols g -> is_poly d f ->
  (forall i j, cell g' i j = match cell g i j with Some (Some z) => Some (Some (z + f (INR j) (INR i))) | o => o end) ->
  detrend_polynomial lstsq g d = Ok (det, tr) -> detrend_polynomial lstsq g' d = Ok (det', tr') -> det' = det.
Proof.
  intros g g' d det tr det' tr' f Hr Hr' Hn Hc P Hg E E'. destruct (detrend_cells lstsq g d det tr Hr E) as (H1 & H2 & H3 & _).
  destruct (poly_cols d f g H1 H2 H3 P) as (q & Lq & Hq).
  apply (absorb g g' d det tr det' tr' q); auto. intros i j. rewrite Hg. destruct (cell g i j) as [[z|]|]; try reflexivity.
  rewrite <- (Hq (i, j)). reflexivity.
Qed.
Corollary C20_level_removes_planes : forall g g' det tr det' tr' a b c, rect g -> rect g' -> nrows g' = nrows g -> ncols g' = ncols g ->
  (forall i j, cell g' i j = match cell g i j with Some (Some z) => Some (Some (z + (a * INR j + b * INR i + c))) | o => o end) ->
  level lstsq g = Ok (det, tr) -> level lstsq g' = Ok (det', tr') -> det' = det.
Proof.
  intros g g' det tr det' tr' a b c Hr Hr' Hn Hc Hg E E'.
  apply (C20_absorbs_polynomial g g' 1 det tr det' tr' (fun x y => x * a + y * b + c)); auto.
  - apply poly_add; [apply poly_add; [apply (poly_mulx 0 (fun _ _ => a)), poly_const|apply (poly_muly 0 (fun _ _ => b)), poly_const]|apply poly_const].
  - intros i j. rewrite Hg. destruct (cell g i j) as [[z|]|]; try reflexivity. do 2 f_equal. ring.
Qed.
(** detrending twice is detrending once *)
Theorem C20_idempotent : forall g d det tr det' tr', rect g -> detrend_polynomial lstsq g d = Ok (det, tr) ->
  detrend_polynomial lstsq det d = Ok (det', tr') -> det' = det.
Proof.
  intros g d det tr det' tr' Hr E E'. destruct (detrend_cells lstsq g d det tr Hr E) as (H1 & H2 & H3 & R1 & A1 & B1 & _ & _ & _ & _ & D1).
  destruct (List.filter (is_measured g) (coords (nrows g) (ncols g))) as [|p0 vs] eqn:Ev.
  - (* no measured point *)
    destruct (detrend_cells lstsq det d det' tr' R1 E') as (_ & _ & _ & R2 & A2 & B2 & _ & _ & _ & _ & D2).
    apply grid_ext; auto. intros i j. rewrite D2. destruct (cell det i j) as [[r|]|] eqn:Ec; try reflexivity. exfalso.
    rewrite D1 in Ec. destruct (cell g i j) as [[z|]|] eqn:Eg; try discriminate.
    assert (Hp : In (i, j) (List.filter (is_measured g) (coords (nrows g) (ncols g)))).
    { destruct (rect_cell_in g i j _ Hr Eg). apply filter_In. split; [apply coords_In; auto|]. unfold is_measured. cbn [fst snd]. now rewrite Eg. }
    rewrite Ev in Hp. destruct Hp.
  - assert (Nv : List.filter (is_measured g) (coords (nrows g) (ncols g)) <> []) by (rewrite Ev; discriminate).
    destruct (fitted_ls g d Nv) as [Lf _].
    apply (absorb g det d det tr det' tr' (comb (-1) (repeat 0 (length (terms d))) (fitted lstsq g d))); auto.
    + apply comb_length; [apply repeat_length|exact Lf].
    + intros i j. rewrite D1. destruct (cell g i j) as [[z|]|]; try reflexivity. do 2 f_equal.
      rewrite dot_comb by (rewrite design_length, ?repeat_length; auto). rewrite dot_zero. unfold trend_at. ring.
Qed.
End WithSolver.
(** it succeeds exactly when the surface has at least two rows and columns (or degree 0 and is not empty) *)
Theorem C20_defined : forall lstsq g d, (exists r, detrend_polynomial lstsq g d = Ok r) <->
  (1 <= nrows g)%nat /\ (1 <= ncols g)%nat /\ ((1 <= d)%nat -> (2 <= nrows g)%nat /\ (2 <= ncols g)%nat).
Proof.
  intros lstsq g d. unfold detrend_polynomial.
  destruct (Nat.eqb_spec (nrows g) 0); [cbn; split; [intros [r H]; discriminate|intros; lia]|].
  destruct (Nat.eqb_spec (ncols g) 0); [cbn; split; [intros [r H]; discriminate|intros; lia]|]. cbn [orb].
  destruct (Nat.leb_spec 1 d); cbn [andb].
  - destruct (Nat.eqb_spec (nrows g) 1), (Nat.eqb_spec (ncols g) 1); cbn [orb];
      (split; [intros [r H0]; try discriminate; repeat split; lia|intros (X & Y & Z); destruct (Z H); try lia; eauto]).
  - split; [intros _; repeat split; lia|intros; eauto].
Qed.

(** ** Profiles *)
Definition p_sum (d : list height) (F : nat -> R -> R) : R :=
  sumR (map (fun k => match nth_error d k with Some (Some z) => F k z | _ => 0 end) (seq 0 (length d))).
Definition p_fit (polyfit : lsq_solver) (d : list height) (degree : nat) : list R :=
  let valid := List.filter (p_measured d) (seq 0 (length d)) in
  polyfit (map (prof_row (length d) degree) valid) (map (p_height d) valid).
Definition p_trend (polyfit : lsq_solver) (d : list height) (degree k : nat) : R := dot (prof_row (length d) degree k) (p_fit polyfit d degree).
Lemma prof_row_length n degree k : length (prof_row n degree k) = S degree.
Proof. unfold prof_row. rewrite map_length. apply seq_length. Qed.
Lemma p_cells polyfit d degree det tr : prof_detrend polyfit d degree = Ok (det, tr) ->
  List.filter (p_measured d) (seq 0 (length d)) <> [] /\ length det = length d /\ length tr = length d /\
  (forall k, (k < length d)%nat -> nth_error tr k = Some (Some (p_trend polyfit d degree k))) /\
  (forall k, nth_error det k = match nth_error d k with Some (Some z) => Some (Some (z - p_trend polyfit d degree k)) | o => o end).
Proof.
  intros E. unfold prof_detrend in E. destruct (Nat.eqb_spec (length (List.filter (p_measured d) (seq 0 (length d)))) 0) as [|N]; [discriminate|].
  fold (p_fit polyfit d degree) in E.
  pose (tl := map (fun k => Some (dot (prof_row (length d) degree k) (p_fit polyfit d degree)) : height) (seq 0 (length d))).
  pose (pick := fun (h t : height) => match h with None => None | Some _ => hsub h t end : height).
  assert (E' : @Ok (list height * list height) (zip2 pick d tl, tl) = Ok (det, tr)) by exact E. clear E.
  assert (Epair : forall a b c e : list height, @Ok (list height * list height) (a, b) = Ok (c, e) -> a = c /\ b = e) by (intros a b c e X; injection X; auto).
  apply Epair in E' as [E1 E2]. clear Epair.
  assert (Lt : length tl = length d) by (unfold tl; rewrite map_length; apply seq_length).
  assert (Tr : forall k, (k < length d)%nat -> nth_error tl k = Some (Some (p_trend polyfit d degree k))) by (intros k Hk; unfold tl; apply (nth_error_seq_map (fun k => Some (p_trend polyfit d degree k))), Hk).
  split; [intros X; rewrite X in N; apply N; reflexivity|]. split; [rewrite <- E1, zip2_length, Lt; lia|]. split; [rewrite <- E2; exact Lt|].
  split; [intros k Hk; rewrite <- E2; apply Tr, Hk|]. intros k. rewrite <- E1. destruct (nth_error d k) as [h|] eqn:Ek.
  - assert (Hk : (k < length d)%nat) by (apply nth_error_Some; congruence). rewrite (nth_error_zip2 pick _ _ _ _ _ Ek (Tr k Hk)). destruct h; reflexivity.
  - apply nth_error_None. rewrite zip2_length, Lt. apply nth_error_None in Ek. lia.
Qed.
Theorem C20_profile_decomposition : forall polyfit d degree det tr, prof_detrend polyfit d degree = Ok (det, tr) ->
  length det = length d /\ length tr = length d /\
  forall k, (k < length d)%nat -> exists t, nth_error tr k = Some (Some t) /\
    (forall z, nth_error d k = Some (Some z) -> exists r, nth_error det k = Some (Some r) /\ r + t = z) /\
    (nth_error d k = Some None <-> nth_error det k = Some None).
Proof.
  intros polyfit d degree det tr E. destruct (p_cells _ _ _ _ _ E) as (_ & A & B & T & D). split; [exact A|]. split; [exact B|].
  intros k Hk. exists (p_trend polyfit d degree k). split; [apply T, Hk|]. rewrite D.
  destruct (nth_error d k) as [h|] eqn:Ek; [|apply nth_error_None in Ek; lia]. split.
  - intros z Ez. injection Ez as ->. eexists. split; [reflexivity|lra].
  - destruct h; split; intros X; congruence.
Qed.
Section WithPolyfit.
Context (polyfit : lsq_solver) (HS : lsq_contract polyfit).
Lemma p_fit_ls d degree : List.filter (p_measured d) (seq 0 (length d)) <> [] ->
  least_squares (S degree) (map (prof_row (length d) degree) (List.filter (p_measured d) (seq 0 (length d))))
    (map (p_height d) (List.filter (p_measured d) (seq 0 (length d)))) (p_fit polyfit d degree).
Proof.
  intros N. apply HS.
  - intros X. apply map_eq_nil in X. congruence.
  - intros r H. apply in_map_iff in H as (p & <- & _). apply prof_row_length.
  - rewrite !map_length. reflexivity.
Qed.
Lemma p_sum_valid d F : p_sum d F = sumR (map (fun k => F k (p_height d k)) (List.filter (p_measured d) (seq 0 (length d)))).
Proof. unfold p_sum. rewrite sumR_filter. apply sumR_ext. intros k _. unfold p_measured, p_height. destruct (nth_error d k) as [[z|]|]; reflexivity. Qed.
Theorem C20_profile_orthogonal : forall d degree det tr f, (2 <= length d)%nat -> prof_detrend polyfit d degree = Ok (det, tr) -> is_poly1 degree f ->
  p_sum det (fun k r => r * f (INR k)) = 0.
Proof.
  intros d degree det tr f Hn E P. destruct (p_cells _ _ _ _ _ E) as (Nv & A & _ & _ & D). destruct (poly1_dot degree f (length d) P Hn) as (q & Lq & Hq).
  assert (V : List.filter (p_measured det) (seq 0 (length det)) = List.filter (p_measured d) (seq 0 (length d))).
  { rewrite A. apply filter_ext. intros k. unfold p_measured. rewrite D. destruct (nth_error d k) as [[z|]|]; reflexivity. }
  rewrite p_sum_valid, V.
  assert (O := min_orth _ (prof_row (length d) degree) (S degree) (prof_row_length (length d) degree) (p_height d) _ (p_fit_ls d degree Nv) q Lq).
  rewrite <- O. apply sumR_ext. intros k Hk. rewrite Hq. f_equal. apply filter_In in Hk as [_ Hk]. unfold p_measured in Hk. unfold p_height. rewrite D.
  destruct (nth_error d k) as [[z|]|]; try discriminate. reflexivity.
Qed.
Lemma p_absorb (d d' : list height) degree det tr det' tr' q : length d' = length d -> length q = S degree ->
  (forall k, nth_error d' k = match nth_error d k with Some (Some z) => Some (Some (z + dot (prof_row (length d) degree k) q)) | o => o end) ->
  prof_detrend polyfit d degree = Ok (det, tr) -> prof_detrend polyfit d' degree = Ok (det', tr') -> det' = det.
Proof.
  intros Hn Lq Hg E E'. destruct (p_cells _ _ _ _ _ E) as (Nv & A1 & _ & _ & D1). destruct (p_cells _ _ _ _ _ E') as (Nv' & A2 & _ & _ & D2).
  assert (V : List.filter (p_measured d') (seq 0 (length d')) = List.filter (p_measured d) (seq 0 (length d))).
  { rewrite Hn. apply filter_ext. intros k. unfold p_measured. rewrite Hg. destruct (nth_error d k) as [[z|]|]; reflexivity. }
  apply nth_error_ext'. intros k. rewrite D1, D2, Hg. destruct (nth_error d k) as [[z|]|] eqn:Ek; try reflexivity. do 2 f_equal.
  assert (L := p_fit_ls d degree Nv). assert (L' := p_fit_ls d' degree Nv'). rewrite V in L'. rewrite Hn in L'.
  set (valid := List.filter (p_measured d) (seq 0 (length d))) in *.
  assert (Hk : In k valid).
  { apply filter_In. split; [apply in_seq; assert (k < length d)%nat by (apply nth_error_Some; congruence); lia|]. unfold p_measured. now rewrite Ek. }
  assert (Hz : forall k, In k valid -> p_height d' k = p_height d k + dot (prof_row (length d) degree k) q).
  { intros j Hj. apply filter_In in Hj as [_ Hj]. unfold p_measured in Hj. unfold p_height. rewrite Hg. destruct (nth_error d j) as [[w|]|]; try discriminate. reflexivity. }
  assert (S := same_residual valid (prof_row (length d) degree) (S degree) (prof_row_length (length d) degree) _ _ _ _ q L L' Lq Hz k Hk).
  unfold p_trend. rewrite Hn. unfold p_height in S. rewrite Hg, Ek in S. lra.
Qed.
Theorem C20_profile_absorbs_polynomial : forall (d d' : list height) degree det tr det' tr' f, (2 <= length d)%nat -> length d' = length d -> is_poly1 degree f ->
  (forall k, nth_error d' k = match nth_error d k with Some (Some z) => Some (Some (z + f (INR k))) | o => o end) ->
  prof_detrend polyfit d degree = Ok (det, tr) -> prof_detrend polyfit d' degree = Ok (det', tr') -> det' = det.
Proof.
  intros d d' degree det tr det' tr' f H2 Hn P Hg E E'. destruct (poly1_dot degree f (length d) P H2) as (q & Lq & Hq).
  apply (p_absorb d d' degree det tr det' tr' q); auto. intros k. rewrite Hg. destruct (nth_error d k) as [[z|]|]; try reflexivity. now rewrite <- Hq.
Qed.
Theorem C20_profile_idempotent : forall d degree det tr det' tr', prof_detrend polyfit d degree = Ok (det, tr) ->
  prof_detrend polyfit det degree = Ok (det', tr') -> det' = det.
Proof.
  intros d degree det tr det' tr' E E'. destruct (p_cells _ _ _ _ _ E) as (Nv & A & _ & _ & D). destruct (p_fit_ls d degree Nv) as [Lf _].
  apply (p_absorb d det degree det tr det' tr' (comb (-1) (repeat 0 (S degree)) (p_fit polyfit d degree))); auto.
  - apply comb_length; [apply repeat_length|exact Lf].
  - intros k. rewrite D. destruct (nth_error d k) as [[z|]|]; try reflexivity. do 2 f_equal.
    rewrite dot_comb by (rewrite prof_row_length, ?repeat_length; auto). rewrite dot_zero. unfold p_trend. ring.
Qed.
End WithPolyfit.
Theorem C20_example : exists det tr, detrend_polynomial (fun _ _ => [0; 0; 0]) [[Some 1; None]; [Some 2; Some 5]] 1 = Ok (det, tr) /\
  rect [[Some 1; None]; [Some 2; Some 5]] /\ cell det 0 1 = Some None /\ is_poly 1 (fun x y => x * 3 + y * 4).
Proof.
  do 2 eexists. split; [reflexivity|]. split; [intros r [<-|[<-|[]]]; reflexivity|]. split; [reflexivity|].
  apply poly_add; [apply (poly_mulx 0 (fun _ _ => 3)), poly_const|apply (poly_muly 0 (fun _ _ => 4)), poly_const].
Qed.
