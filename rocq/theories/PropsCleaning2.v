(** C116, continued: filling gaps and filtering do not depend on the unit or the zero point of the heights, whatever interpolation and smoothing they use, as long as these do not. *)
From Coq Require Import String Reals List Bool Arith ZArith Lia Lra.
From Verif Require Import Base RList ModelMath ModelHeights ModelDetrend ModelFill ProofMath ProofHeights PropsHeights PropsCleaning.
Import ListNotations.
Local Open Scope R_scope.

(** *** Specification *)
(** an interpolation whose values follow the values it is given; every weighted mean with weights of sum 1, and the nearest value, do *)
Definition follows (k t : R) (gd : interpolator) : Prop := forall pts vals q, length vals = length pts ->
  gd pts (map (fun x => k * x + t) vals) q = option_map (fun x => k * x + t) (gd pts vals q).
(** the same for a smoothing; a linear filter whose weights sum to 1 does *)
Definition smooth_follows (k t : R) (G : R -> R -> grid -> grid) : Prop := forall sy sx g, G sy sx (rescaled k t g) = rescaled k t (G sy sx g).
(** a surface in another unit, counted from another zero *)
Definition move (k t : R) (s : surf) : surf := mkSurf (rescaled k t (s_data s)) (s_sx s) (s_sy s).
(** only the low-pass result keeps the zero point *)
Definition kept_offset (ftype : string) (t : R) : R := if String.eqb ftype "lowpass" then t else 0.
(** the results of filtering in the other unit *)
Definition move_result (k t : R) (ftype : string) (r : fresult) : fresult :=
  match r with FOne s => FOne (move k (kept_offset ftype t) s) | FTwo h l => FTwo (move k 0 h) (move k t l) | FSelf => FSelf end.
(** the receiver after the call: it holds the result if the call worked in place *)
Definition move_receiver (k t : R) (ftype : string) (r : res fresult) (s : surf) : surf :=
  match r with Ok FSelf => move k (kept_offset ftype t) s | _ => move k t s end.

Lemma missing_rescaled k t g : has_missing (rescaled k t g) = has_missing g.
Proof. unfold has_missing. rewrite flat_rescaled. generalize (flat g). intros l. induction l as [|[x|] l IH]; cbn; auto. Qed.
Lemma nth_rescaled k t g i : nth_error (rescaled k t g) i = option_map (map (option_map (fun x => k * x + t))) (nth_error g i).
Proof. apply nth_error_map. Qed.
Lemma is_measured_rescaled k t g p : is_measured (rescaled k t g) p = is_measured g p.
Proof.
  unfold is_measured, cell. rewrite nth_rescaled. destruct (nth_error g (fst p)) as [r|]; [|reflexivity]. cbn [option_map]. rewrite nth_error_map. unfold height in *. destruct (nth_error r (snd p)) as [[x|]|]; reflexivity.
Qed.
Lemma height_rescaled k t g p : is_measured g p = true -> height_at (rescaled k t g) p = k * height_at g p + t.
Proof.
  unfold is_measured, height_at, cell. rewrite nth_rescaled. destruct (nth_error g (fst p)) as [r|]; [|discriminate]. cbn [option_map]. rewrite nth_error_map. unfold height in *. destruct (nth_error r (snd p)) as [[x|]|]; cbn; congruence.
Qed.
(** Filling gaps. *)
Theorem C116_fill : forall k t gd g, follows k t gd -> fill_nonmeasured gd (rescaled k t g) = rmap (rescaled k t) (fill_nonmeasured gd g).
Proof.
  intros k t gd g F. unfold fill_nonmeasured. rewrite missing_rescaled. destruct (has_missing g); [|reflexivity]. cbn [negb].
  assert (N : nrows (rescaled k t g) = nrows g) by apply nrows_gmap. assert (C : ncols (rescaled k t g) = ncols g) by apply ncols_gmap. rewrite N, C.
  rewrite (filter_ext _ (is_measured g)) by (intros; apply is_measured_rescaled). cbv zeta. set (pts := List.filter (is_measured g) (coords (nrows g) (ncols g))).
  destruct (Nat.eqb (length pts) 0); [reflexivity|]. cbn [rmap]. f_equal. unfold rescaled. rewrite map_map. apply map_ext. intros i. rewrite map_map. apply map_ext. intros j.
  fold (rescaled k t g). rewrite (map_ext_in _ (fun p => k * height_at g p + t)) by (intros p Hp; apply height_rescaled; apply filter_In in Hp; apply Hp).
  rewrite <- (F pts (map (height_at g) pts) (i, j)) by apply map_length. rewrite map_map. reflexivity.
Qed.
Lemma sub_rescaled k t g h : gzip hsub (rescaled k t g) (rescaled k t h) = rescaled k 0 (gzip hsub g h).
Proof.
  assert (R : forall r r', zipw hsub (map (option_map (fun x => k * x + t)) r) (map (option_map (fun x => k * x + t)) r') = map (option_map (fun x => k * x + 0)) (zipw hsub r r')).
  { intros r. induction r as [|a r IH]; intros [|b r']; try reflexivity. cbn [map zipw]. rewrite IH. f_equal. destruct a as [x|], b as [y|]; try reflexivity. cbn. f_equal. ring. }
  unfold gzip, rescaled. revert h. induction g as [|r g IH]; intros [|r' h]; try reflexivity. cbn [map zipw]. rewrite IH, R. reflexivity.
Qed.
(** Filtering: the high-pass and band-pass results lose the zero point, the low-pass result keeps it. *)
Theorem C116_filter : forall k t G ftype cutoff cutoff2 inplace s, smooth_follows k t G ->
  filter G ftype cutoff cutoff2 inplace (move k t s) =
  (move_receiver k t ftype (snd (filter G ftype cutoff cutoff2 inplace s)) (fst (filter G ftype cutoff cutoff2 inplace s)),
   rmap (move_result k t ftype) (snd (filter G ftype cutoff cutoff2 inplace s))).
Proof.
  intros k t G ftype c c2 ip s F.
  assert (L : forall q x, gaussian G Lowpass q (move k t x) = move k t (gaussian G Lowpass q x)) by (intros q x; unfold gaussian, move; cbn [s_data s_sx s_sy]; rewrite F; reflexivity).
  assert (H : forall q x, gaussian G Highpass q (move k t x) = move k 0 (gaussian G Highpass q x)) by (intros q x; unfold gaussian, move; cbn [s_data s_sx s_sy]; rewrite F, sub_rescaled; reflexivity).
  unfold filter. change (has_missing (s_data (move k t s))) with (has_missing (rescaled k t (s_data s))). rewrite missing_rescaled.
  destruct (has_missing (s_data s)); [reflexivity|].
  destruct (negb (existsb (String.eqb ftype) ["highpass"; "lowpass"; "both"; "bandpass"]%string)); [reflexivity|].
  destruct (String.eqb ftype "both" && ip)%bool eqn:B; [reflexivity|].
  destruct (String.eqb_spec ftype "bandpass") as [->|_].
  { destruct c2 as [q|]; [|reflexivity]. destruct (Rle_dec q c); [reflexivity|]. rewrite L, H. destruct ip; reflexivity. }
  destruct (String.eqb ftype "lowpass") eqn:Lp.
  { rewrite L. destruct ip; cbn; unfold kept_offset; rewrite Lp; reflexivity. }
  destruct (String.eqb ftype "highpass").
  { rewrite H. destruct ip; cbn; unfold kept_offset; rewrite Lp; reflexivity. }
  rewrite H, L. reflexivity.
Qed.
(** both hypotheses can be met: the first measured value, and every row replaced by its mean *)
Theorem C116_methods : forall k t, (exists gd, follows k t gd /\ gd [(0, 0)%nat] [5] (3, 4)%nat = Some 5) /\
  (exists G, smooth_follows k t G /\ G 1 1 [[Some 1; Some 3]] = [[Some 2; Some 2]]).
Proof.
  intros k t. split.
  - exists (fun _ vals _ => hd_error vals). split; [|reflexivity]. intros pts vals q _. destruct vals; reflexivity.
  - exists (fun _ _ g => map (fun r => map (fun _ => nanmean r) r) g). split.
    + intros _ _ g. unfold rescaled. rewrite !map_map. apply map_ext. intros r. rewrite !map_map. apply map_ext_in. intros _ _.
      unfold nanmean. rewrite measured_f. destruct (measured r) as [|x l] eqn:E; [reflexivity|]. cbn [map].
      change (k * x + t :: map (fun x => k * x + t) l) with (map (fun x => k * x + t) (x :: l)). rewrite (mean_f k t) by discriminate. reflexivity.
    + cbn. unfold nanmean. cbn. unfold meanR. cbn. repeat (f_equal; try lra).
Qed.
