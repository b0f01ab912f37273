(** C21. *)
From Coq Require Import String Reals List Bool Arith Lia Lra.
From Verif Require Import Base RList ModelMath ProofMath ModelHeights ProofHeights ModelParams ModelDetrend ProofDetrend PropsDetrend ModelFill.
Import ListNotations.
Local Open Scope R_scope.

Lemma In_coords ny nx i j : In (i, j) (coords ny nx) <-> (i < ny)%nat /\ (j < nx)%nat.
Proof.
  unfold coords. rewrite in_flat_map. split.
  - intros (a & Ha & H). apply in_map_iff in H as (b & E & Hb). injection E as <- <-. apply in_seq in Ha, Hb. lia.
  - intros [A B]. exists i. split; [apply in_seq; lia|]. apply in_map_iff. exists j. split; [reflexivity|apply in_seq; lia].
Qed.
Lemma NoDup_map_inj {A B} (f : A -> B) l : (forall x y, f x = f y -> x = y) -> NoDup l -> NoDup (map f l).
Proof.
  intros Hf N. induction N as [|x l H N IH]; [constructor|]. cbn. constructor; [|exact IH].
  intros X. apply in_map_iff in X as (y & E & Hy). apply Hf in E. subst. contradiction.
Qed.
Lemma NoDup_coords ny nx : NoDup (coords ny nx).
Proof.
  unfold coords. generalize (seq_NoDup ny 0). induction (seq 0 ny) as [|a l IH]; intros N; [constructor|].
  inversion N as [|? ? Ha Nl]; subst. cbn. specialize (IH Nl).
  assert (D : forall p, In p (map (fun j => (a, j)) (seq 0 nx)) -> ~ In p (flat_map (fun i => map (fun j => (i, j)) (seq 0 nx)) l)).
  { intros p Hp X. apply in_map_iff in Hp as (j & <- & _). apply in_flat_map in X as (b & Hb & X). apply in_map_iff in X as (c & E & _). injection E as <- _. contradiction. }
  assert (M : NoDup (map (fun j => (a, j)) (seq 0 nx))) by (apply NoDup_map_inj; [intros x y E; now injection E|apply seq_NoDup]).
  revert D. induction M as [|x m Hx M IHm]; intros D; [exact IH|]. cbn. constructor.
  - rewrite in_app_iff. intros [X|X]; [contradiction|]. exact (D x (or_introl eq_refl) X).
  - apply IHm. intros p Hp. apply D. now right.
Qed.
Definition valid (g : grid) := List.filter (is_measured g) (coords (nrows g) (ncols g)).
Lemma NoDup_valid g : NoDup (valid g). Proof. apply NoDup_filter, NoDup_coords. Qed.
Lemma In_valid g i j : rect g -> (In (i, j) (valid g) <-> exists z, cell g i j = Some (Some z)).
Proof.
  intros R. unfold valid. rewrite filter_In, In_coords. unfold is_measured; cbn [fst snd]. split.
  - intros [_ H]. destruct (cell g i j) as [[z|]|]; try discriminate. eauto.
  - intros [z E]. rewrite E. split; [|reflexivity]. exact (rect_cell_in g i j _ R E).
Qed.
Lemma fill_cell gd g g' i j : fill_nonmeasured gd g = Ok g' -> has_missing g = true -> (i < nrows g)%nat -> (j < ncols g)%nat ->
  cell g' i j = Some (gd (valid g) (map (height_at g) (valid g)) (i, j)).
Proof.
  intros E M Hi Hj. unfold fill_nonmeasured in E. rewrite M in E. cbn [negb] in E. fold (valid g) in E.
  destruct (Nat.eqb (length (valid g)) 0); [discriminate|].
  injection E as <-. unfold cell.
  rewrite (nth_error_seq_map (fun i => map (fun j => gd (valid g) (map (height_at g) (valid g)) (i, j)) (seq 0 (ncols g)))) by exact Hi.
  exact (nth_error_seq_map (fun j => gd (valid g) (map (height_at g) (valid g)) (i, j)) _ j Hj).
Qed.
Lemma fill_nonempty gd g g' : fill_nonmeasured gd g = Ok g' -> has_missing g = true -> valid g <> [].
Proof.
  intros E M X. unfold fill_nonmeasured in E. rewrite M in E. cbn [negb] in E. fold (valid g) in E. rewrite X in E. discriminate.
Qed.
Lemma fill_shape gd g g' : rect g -> fill_nonmeasured gd g = Ok g' -> rect g' /\ nrows g' = nrows g /\ (ncols g' = ncols g)%nat.
Proof.
  intros R E. unfold fill_nonmeasured in E. destruct (negb (has_missing g)); [injection E as <-; auto|]. fold (valid g) in E.
  destruct (Nat.eqb_spec (length (valid g)) 0) as [|N]; [discriminate|]. injection E as <-.
  assert (P : (0 < nrows g)%nat).
  { destruct (Nat.eq_dec (nrows g) 0) as [Z|]; [|lia]. exfalso. apply N. unfold valid, coords. now rewrite Z. }
  assert (C : forall r, In r (map (fun i => map (fun j => gd (valid g) (map (height_at g) (valid g)) (i, j)) (seq 0 (ncols g))) (seq 0 (nrows g))) -> length r = ncols g).
  { intros r H. apply in_map_iff in H as (i & <- & _). rewrite map_length. apply seq_length. }
  set (G := map _ (seq 0 (nrows g))) in *.
  assert (L : nrows G = nrows g) by (unfold nrows at 1, G; rewrite map_length; apply seq_length).
  assert (NC : ncols G = ncols g).
  { unfold ncols at 1. destruct G as [|r t]; [unfold nrows in L, P; cbn in L; lia|]. apply C. now left. }
  split; [|auto]. intros r H. rewrite NC. apply C, H.
Qed.

(** every measured height is unchanged, whatever the interpolation method; the shape is kept *)
Theorem C21_measured_unchanged : forall gd g g' i j z, interpolating gd -> rect g -> fill_nonmeasured gd g = Ok g' ->
  cell g i j = Some (Some z) -> cell g' i j = Some (Some z).
Proof.
  intros gd g g' i j z I R E H. destruct (has_missing g) eqn:M.
  - destruct (rect_cell_in _ _ _ _ R H) as [Hi Hj]. rewrite (fill_cell _ _ _ _ _ E M Hi Hj).
    assert (V : In (i, j) (valid g)) by (apply In_valid; eauto).
    destruct (In_nth _ _ (0, 0)%nat V) as (k & Hk & Ek).
    assert (X := I (valid g) (map (height_at g) (valid g)) k (NoDup_valid g) (map_length _ _) Hk). rewrite Ek in X. rewrite X.
    rewrite (nth_indep _ 0 (height_at g (0, 0)%nat)) by (rewrite map_length; exact Hk). rewrite map_nth, Ek. unfold height_at. cbn [fst snd]. now rewrite H.
  - unfold fill_nonmeasured in E. rewrite M in E. injection E as <-. exact H.
Qed.
Theorem C21_shape : forall gd g g', rect g -> fill_nonmeasured gd g = Ok g' -> rect g' /\ nrows g' = nrows g /\ (ncols g' = ncols g)%nat.
Proof. exact fill_shape. Qed.
(** the method used by default reproduces data points too *)
Lemma dist2_zero p q : dist2 p q = 0 -> p = q.
Proof.
  unfold dist2. intros H. assert (A := Rle_0_sqr (INR (fst p) - INR (fst q))). assert (B := Rle_0_sqr (INR (snd p) - INR (snd q))).
  assert (A0 : Rsqr (INR (fst p) - INR (fst q)) = 0) by lra. assert (B0 : Rsqr (INR (snd p) - INR (snd q)) = 0) by lra.
  apply Rsqr_0_uniq in A0, B0. destruct p, q; cbn in *. f_equal; apply INR_eq; lra.
Qed.
Lemma dist2_self p : dist2 p p = 0. Proof. unfold dist2, Rsqr. ring. Qed.
Lemma dist2_nonneg p q : 0 <= dist2 p q. Proof. unfold dist2. assert (A := Rle_0_sqr (INR (fst p) - INR (fst q))). assert (B := Rle_0_sqr (INR (snd p) - INR (snd q))). lra. Qed.
Theorem C21_nearest_interpolates : forall gd, nearest_method gd -> interpolating gd.
Proof.
  intros gd H pts vals k N L Hk. assert (P : pts <> []) by (intros ->; cbn in Hk; lia).
  destruct (H pts vals (nth k pts (0, 0)%nat) P L) as (m & Hm & E & D). rewrite E. specialize (D k Hk). rewrite dist2_self in D.
  assert (Z : dist2 (nth m pts (0, 0)%nat) (nth k pts (0, 0)%nat) = 0) by (apply Rle_antisym; [exact D|apply dist2_nonneg]).
  apply dist2_zero in Z. rewrite NoDup_nth in N. rewrite (N m k Hm Hk Z). reflexivity.
Qed.
(** with method='nearest': no non-measured point is left, and every point carries the height of a measured point that
    no other measured point is closer to *)
Theorem C21_nearest : forall gd g g' i j, nearest_method gd -> rect g -> fill_nonmeasured gd g = Ok g' ->
  (i < nrows g)%nat -> (j < ncols g)%nat ->
  exists z a b, cell g' i j = Some (Some z) /\ cell g a b = Some (Some z) /\
    forall a' b' z', cell g a' b' = Some (Some z') -> dist2 (a, b) (i, j) <= dist2 (a', b') (i, j).
Proof.
  intros gd g g' i j H R E Hi Hj. destruct (has_missing g) eqn:M.
  - rewrite (fill_cell _ _ _ _ _ E M Hi Hj).
    destruct (H (valid g) (map (height_at g) (valid g)) (i, j) (fill_nonempty _ _ _ E M) (map_length _ _)) as (k & Hk & Ek & D).
    rewrite Ek. destruct (nth k (valid g) (0, 0)%nat) as [a b] eqn:Eab.
    assert (V : In (a, b) (valid g)) by (rewrite <- Eab; apply nth_In, Hk). apply In_valid in V as [z Ez]; [|exact R].
    exists z, a, b. split.
    + rewrite (nth_indep _ 0 (height_at g (0, 0)%nat)) by (rewrite map_length; exact Hk). rewrite map_nth, Eab. unfold height_at. cbn [fst snd]. now rewrite Ez.
    + split; [exact Ez|]. intros a' b' z' Ez'. assert (V' : In (a', b') (valid g)) by (apply In_valid; eauto).
      destruct (In_nth _ _ (0, 0)%nat V') as (k' & Hk' & Ek'). specialize (D k' Hk'). now rewrite Ek' in D.
  - unfold fill_nonmeasured in E. rewrite M in E. injection E as <-. destruct (rect_cell g i j R Hi Hj) as [h Eh].
    destruct (nomissing_cell _ _ _ _ M Eh) as [z ->]. exists z, i, j. repeat split; auto. intros. rewrite dist2_self. apply dist2_nonneg.
Qed.
Theorem C21_nearest_complete : forall gd g g', nearest_method gd -> rect g -> fill_nonmeasured gd g = Ok g' -> has_missing g' = false.
Proof.
  intros gd g g' H R E. destruct (has_missing g') eqn:M; [|reflexivity]. apply has_missing_cell in M as (i & j & Ec).
  destruct (fill_shape _ _ _ R E) as (R' & A & B). destruct (rect_cell_in _ _ _ _ R' Ec) as [Hi Hj].
  destruct (C21_nearest gd g g' i j H R E) as (z & a & b & Ez & _); [lia|lia|]. congruence.
Qed.
(** so the extreme heights do not change *)
Theorem C21_nearest_range : forall gd g g', nearest_method gd -> rect g -> fill_nonmeasured gd g = Ok g' ->
  nanmin (flat g') = nanmin (flat g) /\ nanmax (flat g') = nanmax (flat g).
Proof.
  intros gd g g' H R E. destruct (fill_shape _ _ _ R E) as (R' & A & B).
  assert (S : forall x, In x (measured (flat g')) <-> In x (measured (flat g))).
  { intros x. rewrite !measured_In, !In_flat_cell. split.
    - intros (i & j & Ec). destruct (rect_cell_in _ _ _ _ R' Ec) as [Hi Hj].
      destruct (C21_nearest gd g g' i j H R E) as (z & a & b & Ez & Eg & _); [lia|lia|]. exists a, b. congruence.
    - intros (i & j & Ec). exists i, j. exact (C21_measured_unchanged _ _ _ _ _ _ (C21_nearest_interpolates _ H) R E Ec). }
  unfold nanmin, nanmax. split.
  - destruct (lmin (measured (flat g))) as [m|] eqn:Em.
    + apply lmin_spec. apply lmin_spec in Em as [I1 I2]. split; [apply S, I1|]. intros y Hy. apply I2, S, Hy.
    + destruct (measured (flat g)) as [|y l]; [|discriminate]. destruct (measured (flat g')) as [|y' l']; [reflexivity|]. destruct (proj1 (S y') (or_introl eq_refl)).
  - destruct (lmax (measured (flat g))) as [m|] eqn:Em.
    + apply lmax_spec. apply lmax_spec in Em as [I1 I2]. split; [apply S, I1|]. intros y Hy. apply I2, S, Hy.
    + destruct (measured (flat g)) as [|y l]; [|discriminate]. destruct (measured (flat g')) as [|y' l']; [reflexivity|]. destruct (proj1 (S y') (or_introl eq_refl)).
Qed.
Theorem C21_complete_unchanged : forall gd g, (forall i j, cell g i j <> Some None) -> fill_nonmeasured gd g = Ok g.
Proof.
  intros gd g H. unfold fill_nonmeasured. destruct (has_missing g) eqn:M; [|reflexivity]. apply has_missing_cell in M as (i & j & E). destruct (H _ _ E).
Qed.
(** it fails exactly when no point was measured *)
Theorem C21_defined : forall gd g, rect g -> ((exists g', fill_nonmeasured gd g = Ok g') <->
  (exists i j z, cell g i j = Some (Some z)) \/ (forall i j, cell g i j <> Some None)).
Proof.
  intros gd g R. split.
  - intros [g' E]. destruct (has_missing g) eqn:M.
    + left. assert (N := fill_nonempty _ _ _ E M). destruct (valid g) as [|[i j] l] eqn:V; [congruence|].
      assert (I : In (i, j) (valid g)) by (rewrite V; now left). apply In_valid in I as [z Ez]; eauto.
    + right. intros i j X. assert (M' : has_missing g = true) by (apply has_missing_cell; eauto). congruence.
  - intros [(i & j & z & Ez)|H]; [|eexists; apply C21_complete_unchanged, H].
    unfold fill_nonmeasured. destruct (has_missing g); cbn [negb]; [|eauto]. fold (valid g).
    assert (V : In (i, j) (valid g)) by (apply In_valid; eauto). destruct (valid g); [destruct V|]. cbn. eauto.
Qed.
(** a nearest-neighbour interpolator exists: first argmin of the distance *)
Definition nearest_ref : interpolator := fun pts vals q =>
  match argmin (map (fun p => dist2 p q) pts) with Ok k => Some (nth k vals 0) | Err _ => None end.
Theorem C21_contract_satisfiable : nearest_method nearest_ref.
Proof.
  intros pts vals q P L. unfold nearest_ref.
  destruct (argmin_ok (map (fun p => dist2 p q) pts)) as [k Ek]; [intros X; apply map_eq_nil in X; contradiction|].
  rewrite Ek. apply argmin_spec in Ek. destruct Ek as (A & B & C). rewrite map_length in A. exists k. split; [exact A|]. split; [reflexivity|].
  intros k' Hk'. assert (X := B k').
  assert (F : forall m, (m < length pts)%nat -> nth m (map (fun p => dist2 p q) pts) 0 = dist2 (nth m pts (0, 0)%nat) q).
  { intros m Hm. rewrite (nth_indep _ 0 (dist2 (0, 0)%nat q)) by (rewrite map_length; exact Hm). exact (map_nth (fun p => dist2 p q) pts (0, 0)%nat m). }
  rewrite !F in X by assumption. apply X. now rewrite map_length.
Qed.
Theorem C21_example : exists g', fill_nonmeasured nearest_ref [[Some 1; None]; [Some 2; Some 5]] = Ok g' /\
  rect [[Some 1; None]; [Some 2; Some 5]] /\ has_missing g' = false.
Proof.
  assert (R : rect [[Some 1; None]; [Some 2; Some 5]]) by (intros r [<-|[<-|[]]]; reflexivity).
  destruct (proj2 (C21_defined nearest_ref _ R)) as [g' E]; [left; exists 0%nat, 0%nat, 1; reflexivity|].
  exists g'. split; [exact E|]. split; [exact R|]. exact (C21_nearest_complete _ _ _ C21_contract_satisfiable R E).
Qed.
