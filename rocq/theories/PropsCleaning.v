(** C116: which points the cleaning steps remove does not depend on the unit or the zero point of the heights, and neither does what the other operations do with them. *)
From Coq Require Import String Reals List Bool Arith ZArith Lia Lra.
From Verif Require Import Base RList ModelMath ModelHeights ModelGeom ProofMath ProofHeights PropsHeights.
Import ListNotations.
Local Open Scope res_scope.
Local Open Scope R_scope.

(** *** Specification: the same heights times k in another unit, plus an offset t; points that were not measured stay so *)
Definition rescaled (k t : R) (g : grid) : grid := map (map (option_map (fun x => k * x + t))) g.

Section Affine.
Variables k t : R.
Hypothesis kpos : 0 < k.
Let f (x : R) : R := k * x + t.

Lemma f_lt x y : x < y -> f x < f y.
Proof using kpos. unfold f. intros H. assert (k * x < k * y) by (apply Rmult_lt_compat_l; assumption). lra. Qed.
Lemma f_le x y : x <= y -> f x <= f y.
Proof using kpos. intros [H|H]; [left; apply f_lt, H|right; rewrite H; reflexivity]. Qed.
Lemma Rltb_f x y : Rltb (f x) (f y) = Rltb x y.
Proof using kpos. destruct (Rltb x y) eqn:E; [apply Rltb_spec in E; apply Rltb_spec; apply f_lt, E|apply Rltb_false in E; apply Rltb_false; apply f_le, E]. Qed.
Lemma Rltb_scale x y : Rltb (k * x) (k * y) = Rltb x y.
Proof using kpos. destruct (Rltb x y) eqn:E; [apply Rltb_spec in E; apply Rltb_spec; apply Rmult_lt_compat_l; assumption|apply Rltb_false in E; apply Rltb_false; apply Rmult_le_compat_l; lra]. Qed.
Lemma rescaled_gmap g : rescaled k t g = gmap (option_map f) g. Proof. reflexivity. Qed.
Lemma measured_f l : measured (map (option_map f) l) = map f (measured l).
Proof. induction l as [|[x|] l IH]; cbn; [reflexivity|f_equal; exact IH|exact IH]. Qed.
Lemma measured_g g : measured (flat (rescaled k t g)) = map f (measured (flat g)).
Proof. rewrite rescaled_gmap, flat_gmap. apply measured_f. Qed.
Lemma sum_f l : sumR (map f l) = k * sumR l + INR (length l) * t.
Proof. induction l as [|x l IH]; [cbn; ring|]. cbn [map length]. rewrite S_INR. change (f x + sumR (map f l) = k * (x + sumR l) + (INR (length l) + 1) * t). rewrite IH. unfold f. ring. Qed.
Lemma mean_f l : l <> [] -> meanR (map f l) = f (meanR l).
Proof. intros H. assert (P := INR_len_pos l H). unfold meanR. rewrite map_length, sum_f. unfold f. field. lra. Qed.
Lemma median_f l : l <> [] -> medianR (map f l) = f (medianR l).
Proof using kpos.
  intros H. assert (Hn : (0 < length l)%nat) by (destruct l; cbn; [congruence|lia]).
  unfold medianR. rewrite map_length, sortR_map_mono by apply f_le.
  assert (X : forall i, (i < length l)%nat -> nth i (map f (sortR l)) 0 = f (nth i (sortR l) 0)).
  { intros i Hi. rewrite nth_indep with (d' := f 0) by (rewrite map_length, sortR_length; exact Hi). apply (map_nth f). }
  destruct (Nat.even (length l)).
  - rewrite !X; [unfold f; lra| |]; try (apply Nat.div_lt; lia). apply Nat.le_lt_trans with (length l / 2)%nat; [lia|apply Nat.div_lt; lia].
  - apply X. apply Nat.div_lt; lia.
Qed.
Lemma mean_scale l : meanR (map (Rmult k) l) = k * meanR l.
Proof. unfold meanR. rewrite map_length. assert (E : sumR (map (Rmult k) l) = k * sumR l) by (induction l as [|x l IH]; [cbn; ring|]; change (k * x + sumR (map (Rmult k) l) = k * (x + sumR l)); rewrite IH; ring). rewrite E. unfold Rdiv. ring. Qed.
Lemma std_f l : l <> [] -> stdR (map f l) = k * stdR l.
Proof using kpos.
  intros H. unfold stdR, varR. rewrite mean_f, map_map by exact H.
  rewrite (map_ext _ (fun x => (k * k) * ((x - meanR l) * (x - meanR l)))) by (intros x; unfold f; ring).
  assert (E : meanR (map (fun x => k * k * ((x - meanR l) * (x - meanR l))) l) = k * k * meanR (map (fun x => (x - meanR l) * (x - meanR l)) l)).
  { rewrite <- (map_map (fun x => (x - meanR l) * (x - meanR l)) (Rmult (k * k))). unfold meanR. rewrite !map_length.
    assert (Q : forall m, sumR (map (Rmult (k * k)) m) = k * k * sumR m) by (induction m as [|x m IH]; [cbn; ring|]; change (k * k * x + sumR (map (Rmult (k * k)) m) = k * k * (x + sumR m)); rewrite IH; ring).
    rewrite Q. unfold Rdiv. ring. }
  rewrite E, sqrt_mult_alt by nra. rewrite sqrt_square by lra. reflexivity.
Qed.
Lemma mad_f l c : l <> [] -> medianR (map (fun y => Rabs (y - f c)) (map f l)) = k * medianR (map (fun y => Rabs (y - c)) l).
Proof using kpos.
  intros H. rewrite map_map. rewrite (map_ext _ (fun y => k * Rabs (y - c) + 0)).
  2:{ intros y. unfold f. replace (k * y + t - (k * c + t)) with (k * (y - c)) by ring. rewrite Rabs_mult, (Rabs_right k) by lra. ring. }
  assert (M : forall m, m <> [] -> medianR (map (fun z => k * z + 0) m) = k * medianR m).
  { intros m Hm. assert (Hn : (0 < length m)%nat) by (destruct m; cbn; [congruence|lia]).
    unfold medianR. rewrite map_length, sortR_map_mono by (intros; assert (k * x <= k * y) by (apply Rmult_le_compat_l; lra); lra).
    assert (X : forall i, (i < length m)%nat -> nth i (map (fun z => k * z + 0) (sortR m)) 0 = k * nth i (sortR m) 0).
    { intros i Hi. rewrite nth_indep with (d' := k * 0 + 0) by (rewrite map_length, sortR_length; exact Hi). rewrite (map_nth (fun z => k * z + 0)). ring. }
    destruct (Nat.even (length m)).
    - rewrite !X; [lra| |]; try (apply Nat.div_lt; lia). apply Nat.le_lt_trans with (length m / 2)%nat; [lia|apply Nat.div_lt; lia].
    - apply X. apply Nat.div_lt; lia. }
  rewrite <- (map_map (fun y => Rabs (y - c)) (fun z => k * z + 0)). apply M. destruct l; [contradiction|discriminate].
Qed.
Lemma drop_f p p' g : (forall x, In x (measured (flat g)) -> p' (f x) = p x) -> gmap (drop_if p') (rescaled k t g) = rescaled k t (gmap (drop_if p) g).
Proof.
  intros H. rewrite !rescaled_gmap, !gmap_gmap. apply gmap_ext_in. intros [x|] Hx; [|reflexivity]. cbn. rewrite H.
  - destruct (p x); reflexivity.
  - unfold measured. apply in_flat_map. exists (Some x). split; [exact Hx|left; reflexivity].
Qed.
End Affine.
Lemma nonempty_of {A} (l : list A) x : In x l -> l <> []. Proof. intros H ->. destruct H. Qed.

(** *** The theorems *)
(** Removing outliers: the same points go, whatever the unit and the zero point, for both methods and all numbers of deviations. *)
Theorem C116_outliers : forall k t n method g g', 0 < k -> remove_outliers n method g = Ok g' ->
  remove_outliers n method (rescaled k t g) = Ok (rescaled k t g').
Proof.
  intros k t n method g g' K E. unfold remove_outliers in *. rewrite measured_g. cbv zeta in *. set (m := measured (flat g)) in *.
  destruct (String.eqb method "mean"); [|destruct (String.eqb method "median"); [|discriminate]]; apply (f_equal (fun r => match r with Ok x => x | _ => [] end)) in E; cbv beta iota in E; subst g'; f_equal; apply drop_f; intros x Hx; fold m in Hx; assert (Ne := nonempty_of m x Hx).
  - rewrite std_f, mean_f by assumption. replace (k * x + t - (k * meanR m + t)) with (k * (x - meanR m)) by ring.
    rewrite Rabs_mult, (Rabs_right k) by lra. replace (n * (k * stdR m)) with (k * (n * stdR m)) by ring. apply Rltb_scale, K.
  - rewrite median_f, (mad_f k t K m (medianR m) Ne) by assumption. replace (k * x + t - (k * medianR m + t)) with (k * (x - medianR m)) by ring.
    rewrite Rabs_mult, (Rabs_right k) by lra.
    match goal with |- Rltb (n * (k * ?z)) _ = _ => replace (n * (k * z)) with (k * (n * z)) by ring end. apply Rltb_scale, K.
Qed.
(** Cutting off the highest and lowest part: the same. *)
Theorem C116_threshold : forall k t u l g g', 0 < k -> threshold u l g = Ok g' -> threshold u l (rescaled k t g) = Ok (rescaled k t g').
Proof.
  intros k t u l g g' K E. unfold threshold in *. rewrite measured_g. cbv zeta in *. set (m := measured (flat g)) in *.
  rewrite sortR_map_mono by (apply f_le, K). rewrite <- map_rev. set (y := rev (sortR m)) in *. rewrite map_length.
  destruct (Rle_dec 100 (l + u)); [discriminate|].
  destruct (argclosest (u / 100) (ratios (length y))) as [i|e] eqn:Ei; [|discriminate]. destruct (argclosest (1 - l / 100) (ratios (length y))) as [j|e] eqn:Ej; [|discriminate]. cbn [rbind] in *.
  apply (f_equal (fun r => match r with Ok x => x | _ => [] end)) in E; cbv beta iota in E; subst g'. f_equal. apply drop_f. intros x Hx.
  assert (B : forall q a, argclosest q (ratios (length y)) = Ok a -> (a < length y)%nat).
  { intros q a Ea. unfold argclosest in Ea. apply argmin_spec in Ea. destruct Ea as [L _]. rewrite map_length in L. unfold ratios in L. rewrite map_length, seq_length in L. exact L. }
  assert (N : forall a, (a < length y)%nat -> nth a (map (fun x => k * x + t) y) 0 = k * nth a y 0 + t).
  { intros a Ha. rewrite nth_indep with (d' := k * 0 + t) by (rewrite map_length; exact Ha). apply (map_nth (fun x => k * x + t)). }
  rewrite (N i (B _ _ Ei)), (N j (B _ _ Ej)), !(Rltb_f k t K). reflexivity.
Qed.
(** Centering, setting to zero and inverting: the unit is kept; the offset disappears in the first two and comes back once in the third. *)
Theorem C116_center : forall k t g, center (rescaled k t g) = rescaled k 0 (center g).
Proof.
  intros k t g. unfold center. unfold nanmean. rewrite measured_g. destruct (measured (flat g)) as [|x l] eqn:E; cbn [map].
  { rewrite !rescaled_gmap, !gmap_gmap. apply gmap_ext_in. intros [y|] _; reflexivity. }
  change ((k * x + t) :: map (fun x => k * x + t) l) with (map (fun x => k * x + t) (x :: l)). rewrite (mean_f k t) by discriminate.
  rewrite !rescaled_gmap, !gmap_gmap. apply gmap_ext_in. intros [y|] _; [|reflexivity]. cbn. f_equal. ring.
Qed.
Lemma zero_form g : flat g <> [] -> zero g = Ok (gmap (fun h => hsub h (nanmin (flat g))) g).
Proof. unfold zero. destruct (flat g); [contradiction|reflexivity]. Qed.
Lemma invert_form g : flat g <> [] -> invert g = Ok (gmap (fun h => hsub (hadd (npmin (flat g)) (npmax (flat g))) h) g).
Proof. unfold invert. destruct (flat g); [contradiction|reflexivity]. Qed.
Lemma flat_rescaled k t g : flat (rescaled k t g) = map (option_map (fun x => k * x + t)) (flat g).
Proof. rewrite rescaled_gmap. apply flat_gmap. Qed.
Lemma flat_rescaled_ne k t g : flat g <> [] -> flat (rescaled k t g) <> [].
Proof. rewrite flat_rescaled. destruct (flat g); [contradiction|discriminate]. Qed.
Theorem C116_zero : forall k t g g', 0 < k -> zero g = Ok g' -> zero (rescaled k t g) = Ok (rescaled k 0 g').
Proof.
  intros k t g g' K E. assert (Ne : flat g <> []) by (intros Z0; unfold zero in E; rewrite Z0 in E; discriminate).
  rewrite zero_form in E by exact Ne. rewrite zero_form, flat_rescaled by (apply flat_rescaled_ne, Ne).
  apply (f_equal (fun r => match r with Ok x => x | _ => [] end)) in E; cbv beta iota in E; subst g'. f_equal.
  destruct (measured (flat g)) as [|x0 l0] eqn:Em.
  { unfold nanmin. rewrite measured_f, Em. cbn [map lmin]. rewrite !rescaled_gmap, !gmap_gmap. apply gmap_ext_in. intros [y|] _; reflexivity. }
  assert (H : measured (flat g) <> []) by (rewrite Em; discriminate). clear Em.
  destruct (lmin_ex _ H) as [m Hm]. assert (Hm' : lmin (map (fun x => k * x + t) (measured (flat g))) = Some (k * m + t)).
  { apply lmin_spec in Hm. apply lmin_spec. apply (is_min_map_mono (fun x => k * x + t)); [apply f_le, K|exact Hm]. }
  unfold nanmin. rewrite measured_f, Hm', Hm, !rescaled_gmap, !gmap_gmap. apply gmap_ext_in. intros [y|] _; [|reflexivity]. cbn. f_equal. ring.
Qed.
Theorem C116_invert : forall k t g g', 0 < k -> invert g = Ok g' -> invert (rescaled k t g) = Ok (rescaled k t g').
Proof.
  intros k t g g' K E. assert (Ne : flat g <> []) by (intros Z0; unfold invert in E; rewrite Z0 in E; discriminate).
  rewrite invert_form in E by exact Ne. rewrite invert_form, flat_rescaled by (apply flat_rescaled_ne, Ne).
  apply (f_equal (fun r => match r with Ok x => x | _ => [] end)) in E; cbv beta iota in E; subst g'. f_equal. unfold npmin, npmax.
  assert (N : existsb is_nan (map (option_map (fun x => k * x + t)) (flat g)) = existsb is_nan (flat g)) by (generalize (flat g); intros l; induction l as [|[x|] l IH]; cbn; auto).
  rewrite N, measured_f, !rescaled_gmap, !gmap_gmap. destruct (existsb is_nan (flat g)) eqn:Q.
  - apply gmap_ext_in. intros [y|] _; reflexivity.
  - assert (H : measured (flat g) <> []). { revert Ne Q. generalize (flat g). intros [|[x|] l] Ne Q Z0; [apply Ne; reflexivity|discriminate Z0|discriminate Q]. }
    destruct (lmin_ex _ H) as [a Ha], (lmax_ex _ H) as [b Hb].
    assert (Ha' : lmin (map (fun x => k * x + t) (measured (flat g))) = Some (k * a + t)) by (apply lmin_spec in Ha; apply lmin_spec; apply (is_min_map_mono (fun x => k * x + t)); [apply f_le, K|exact Ha]).
    assert (Hb' : lmax (map (fun x => k * x + t) (measured (flat g))) = Some (k * b + t)) by (apply lmax_spec in Hb; apply lmax_spec; apply (is_max_map_mono (fun x => k * x + t)); [apply f_le, K|exact Hb]).
    rewrite Ha', Hb', Ha, Hb. apply gmap_ext_in. intros [y|] _; [|reflexivity]. cbn. f_equal. ring.
Qed.
(** Cutting out a part commutes with every operation on single heights. *)
Lemma pick_map {A B} (f : A -> B) l is : pick (map f l) is = map f (pick l is).
Proof. unfold pick. induction is as [|i is IH]; [reflexivity|]. cbn [flat_map]. rewrite map_app, IH, nth_error_map. f_equal. destruct (nth_error l (Z.to_nat i)); reflexivity. Qed.
Lemma ncols_gmap f g : ncols (gmap f g) = ncols g.
Proof. unfold ncols, gmap. destruct g as [|r g]; [reflexivity|]. cbn. apply map_length. Qed.
Lemma nrows_gmap f g : nrows (gmap f g) = nrows g. Proof. apply map_length. Qed.
Lemma gslice_gmap f r c g : gslice r c (gmap f g) = rmap (gmap f) (gslice r c g).
Proof.
  unfold gslice. rewrite nrows_gmap, ncols_gmap. destruct (slice_indices _ r) as [ri|e]; [|reflexivity]. cbn [rbind]. destruct (slice_indices _ c) as [ci|e]; [|reflexivity]. cbn [rbind rmap].
  f_equal. unfold gmap. rewrite pick_map, !map_map. apply map_ext. intros row. apply pick_map.
Qed.
Theorem C116_crop : forall k t b s s', crop b s = Ok s' ->
  crop b (mkSurf (rescaled k t (s_data s)) (s_sx s) (s_sy s)) = Ok (mkSurf (rescaled k t (s_data s')) (s_sx s') (s_sy s')).
Proof.
  intros k t b s s' E. unfold crop in *. assert (P : box_px b (mkSurf (rescaled k t (s_data s)) (s_sx s) (s_sy s)) = box_px b s).
  { unfold box_px. destruct b; [|reflexivity]. cbn [s_data s_sx s_sy]. rewrite rescaled_gmap, nrows_gmap. reflexivity. }
  rewrite P. destruct (box_px b s) as [[[x0 x1] y0] y1]. cbn [s_data s_sx s_sy]. rewrite rescaled_gmap, ncols_gmap, nrows_gmap.
  match type of E with (if ?c then _ else _) = _ => destruct c end; [discriminate|]. rewrite gslice_gmap.
  destruct (gslice _ _ (s_data s)) as [g|e]; [|discriminate]. cbn [rbind rmap] in *. injection E as <-. reflexivity.
Qed.
Theorem C116_zoom : forall k t factor s s', zoom factor s = Ok s' ->
  zoom factor (mkSurf (rescaled k t (s_data s)) (s_sx s) (s_sy s)) = Ok (mkSurf (rescaled k t (s_data s')) (s_sx s') (s_sy s')).
Proof.
  intros k t factor s s' E. unfold zoom in *. cbn [s_data s_sx s_sy] in *. rewrite rescaled_gmap, ?ncols_gmap, ?nrows_gmap.
  destruct (Req_EM_T factor 0); [discriminate|]. rewrite gslice_gmap.
  destruct (gslice _ _ (s_data s)) as [g|e]; [|discriminate]. cbn [rbind rmap] in *. injection E as <-. reflexivity.
Qed.
(** *** Cleaning is not idempotent: what is left has its own spread, so doing the same again removes further points. *)
Lemma outliers_once : remove_outliers 1 "mean" [[Some (-3); Some (-1); Some 0; Some 1; Some 3]] = Ok [[None; Some (-1); Some 0; Some 1; None]].
Proof.
  assert (S1 : stdR [-3; -1; 0; 1; 3] = 2).
  { unfold stdR, varR. replace (meanR [-3; -1; 0; 1; 3]) with 0 by (unfold meanR; cbn; field).
    replace (meanR _) with (2 * 2) by (unfold meanR; cbn; field). apply sqrt_square. lra. }
  assert (T : forall a b, a < b -> Rltb a b = true) by (intros; apply Rltb_spec; assumption).
  assert (F : forall a b, b <= a -> Rltb a b = false) by (intros; apply Rltb_false; assumption).
  unfold remove_outliers; cbn [String.eqb Ascii.eqb Bool.eqb].
  change (measured (flat [[Some (-3); Some (-1); Some 0; Some 1; Some 3]])) with [-3; -1; 0; 1; 3]. cbv zeta. rewrite S1.
  replace (meanR [-3; -1; 0; 1; 3]) with 0 by (unfold meanR; cbn; field). cbn [gmap map drop_if].
  rewrite (T _ (Rabs (-3 - 0))), (F _ (Rabs (-1 - 0))), (F _ (Rabs (0 - 0))), (F _ (Rabs (1 - 0))), (T _ (Rabs (3 - 0))); [reflexivity|..]; unfold Rabs; destruct (Rcase_abs _); lra.
Qed.
Theorem C116_outliers_twice_refuted : exists g g' g'', remove_outliers 1 "mean" g = Ok g' /\ remove_outliers 1 "mean" g' = Ok g'' /\
  cell g' 0 1 = Some (Some (-1)) /\ cell g'' 0 1 = Some None.
Proof.
  exists [[Some (-3); Some (-1); Some 0; Some 1; Some 3]], [[None; Some (-1); Some 0; Some 1; None]], [[None; None; Some 0; None; None]].
  assert (S2 : 0 <= stdR [-1; 0; 1] < 1).
  { unfold stdR, varR. replace (meanR [-1; 0; 1]) with 0 by (unfold meanR; cbn; field).
    split; [apply sqrt_pos|]. apply Rlt_le_trans with (sqrt 1); [apply sqrt_lt_1; unfold meanR; cbn; lra|rewrite sqrt_1; lra]. }
  assert (T : forall a b, a < b -> Rltb a b = true) by (intros; apply Rltb_spec; assumption).
  assert (F : forall a b, b <= a -> Rltb a b = false) by (intros; apply Rltb_false; assumption).
  split; [exact outliers_once|split; [|split; reflexivity]]; unfold remove_outliers; cbn [String.eqb Ascii.eqb Bool.eqb].
  - change (measured (flat [[None; Some (-1); Some 0; Some 1; None]])) with [-1; 0; 1]. cbv zeta.
    replace (meanR [-1; 0; 1]) with 0 by (unfold meanR; cbn; field). cbn [gmap map drop_if].
    rewrite (T _ (Rabs (-1 - 0))), (F _ (Rabs (0 - 0))), (T _ (Rabs (1 - 0))); [reflexivity|..]; unfold Rabs; destruct (Rcase_abs _); lra.
Qed.
Theorem C116_threshold_twice_refuted : exists g g' g'', threshold 25 25 g = Ok g' /\ threshold 25 25 g' = Ok g'' /\
  cell g' 0 1 = Some (Some 2) /\ cell g'' 0 1 = Some None.
Proof.
  exists [[Some 1; Some 2; Some 3; Some 4]], [[None; Some 2; Some 3; Some 4]], [[None; None; Some 3; Some 4]].
  assert (T : forall a b, a < b -> Rltb a b = true) by (intros; apply Rltb_spec; assumption).
  assert (F : forall a b, b <= a -> Rltb a b = false) by (intros; apply Rltb_false; assumption).
  assert (R4 : ratios 4 = [1/4; 2/4; 3/4; 1]) by (unfold ratios; cbn; repeat (f_equal; try lra)).
  assert (R3 : ratios 3 = [1/3; 2/3; 1]) by (unfold ratios; cbn; repeat (f_equal; try lra)).
  assert (So : sortR [1; 2; 3; 4] = [1; 2; 3; 4]) by (cbn; repeat (destruct (Rle_dec _ _); [|lra]; cbn); reflexivity).
  assert (So' : sortR [2; 3; 4] = [2; 3; 4]) by (cbn; repeat (destruct (Rle_dec _ _); [|lra]; cbn); reflexivity).
  assert (A : forall q xs i, xs <> [] -> (i < length xs)%nat -> (forall j, (j < length xs)%nat -> j <> i -> Rabs (nth i xs 0 - q) < Rabs (nth j xs 0 - q)) -> argclosest q xs = Ok i).
  { intros q xs i Ne Hi H. unfold argclosest. destruct (argmin (map (fun y => Rabs (y - q)) xs)) as [a|e] eqn:E.
    - f_equal. apply argmin_spec in E. destruct E as (L & M & _). rewrite map_length in *. destruct (Nat.eq_dec a i) as [|D]; [assumption|exfalso].
      assert (X : forall j, (j < length xs)%nat -> nth j (map (fun y => Rabs (y - q)) xs) 0 = Rabs (nth j xs 0 - q)).
      { intros j Hj. rewrite nth_indep with (d' := Rabs (0 - q)) by (rewrite map_length; exact Hj). apply (map_nth (fun y => Rabs (y - q))). }
      assert (M1 := M i Hi). rewrite !X in M1 by assumption. specialize (H a L D). lra.
    - destruct xs; [contradiction|discriminate]. }
  assert (B : forall z, Rabs z = if Rcase_abs z then - z else z) by reflexivity.
  split; [|split; [|split; reflexivity]]; unfold threshold; destruct (Rle_dec 100 (25 + 25)); try lra; cbv zeta.
  - change (measured (flat [[Some 1; Some 2; Some 3; Some 4]])) with [1; 2; 3; 4]. rewrite So. cbn [rev app length]. rewrite R4.
    rewrite (A (25 / 100) _ 0%nat), (A (1 - 25 / 100) _ 2%nat); try discriminate; try (cbn; lia);
      try (intros [|[|[|[|j]]]] Hj D; try (exfalso; cbn in Hj; lia); try congruence; cbn [nth]; rewrite !B; repeat destruct (Rcase_abs _); lra).
    cbn [rbind nth gmap map drop_if]. rewrite (T 1 2), (F 4 1), (F 4 2), (F 2 2), (F 4 3), (F 3 2), (F 4 4) by lra. reflexivity.
  - change (measured (flat [[None; Some 2; Some 3; Some 4]])) with [2; 3; 4]. rewrite So'. cbn [rev app length]. rewrite R3.
    rewrite (A (25 / 100) _ 0%nat), (A (1 - 25 / 100) _ 1%nat); try discriminate; try (cbn; lia);
      try (intros [|[|[|j]]] Hj D; try (exfalso; cbn in Hj; lia); try congruence; cbn [nth]; rewrite !B; repeat destruct (Rcase_abs _); lra).
    cbn [rbind nth gmap map drop_if]. rewrite (T 2 3), (F 4 2), (F 4 3), (F 3 3), (F 4 4) by lra. reflexivity.
Qed.
(** Millimetres to micrometres, counted from another zero: the same three of five points stay. *)
Theorem C116_example : remove_outliers 1 "mean" (rescaled 1000 7 [[Some (-3); Some (-1); Some 0; Some 1; Some 3]]) = Ok [[None; Some (-993); Some 7; Some 1007; None]].
Proof.
  rewrite (C116_outliers 1000 7 1 "mean" _ _ ltac:(lra) outliers_once). cbn. repeat (f_equal; try lra).
Qed.
