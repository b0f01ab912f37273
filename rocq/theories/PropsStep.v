(** Property theorems C40 (mathutils.py:113-145) and C28 (surface.py:753-862). *)
From Coq Require Import String Reals List Bool Arith ZArith Lra Lia Permutation.
From Verif Require Import Base RList ModelMath ProofMath ModelHeights ModelParams ProofParams ModelStep ProofStep.
Import ListNotations.
Local Open Scope R_scope.

(** ** C40 *)
Definition two_values (l : list R) : Prop := exists x y, In x l /\ In y l /\ x <> y.
Theorem C40_separates : forall n l, (2 <= n)%nat -> two_values l ->
  exists t lo hi, otsu_threshold n l = Ok t /\ is_min lo l /\ is_max hi l /\ lo < t < hi /\
    (exists x, In x l /\ x <= t) /\ (exists x, In x l /\ t < x).
Proof.
  intros n l Hn T. destruct (distinct_range l T) as (lo & hi & A & B & D).
  destruct (otsu_spec n l lo hi Hn A B D) as (k & E & K & _). assert (C := ctr_between n lo hi Hn D k K).
  exists (bin_center n lo hi k), lo, hi. repeat split; auto; try apply A; try apply B; try lra.
  - exists lo. split; [apply A|lra].
  - exists hi. split; [apply B|lra].
Qed.
(** with fewer than two bins there is nothing to cut: an exception, whatever the values *)
Theorem C40_few_bins : forall n l, (n <= 1)%nat -> otsu_threshold n l = Err ValueError.
Proof.
  intros [|[|n]] l H; [reflexivity| |lia]. unfold otsu_threshold. cbn [Nat.eqb]. destruct (hist_range l) as [lo hi]. reflexivity.
Qed.
(** Specification of Otsu's criterion: sort the values into n equal bins between minimum and maximum, represent every
    value by the centre of its bin and cut after bin k. *)
Definition eq_bin (n : nat) (lo hi x : R) : nat := Nat.min (n - 1) (Z.to_nat (Int_part ((x - lo) / (hi - lo) * INR n))).
Definition eq_center (n : nat) (lo hi : R) (b : nat) : R := lo + (INR b + 1 / 2) * ((hi - lo) / INR n).
Definition between_class (n : nat) (lo hi : R) (l : list R) (k : nat) : R :=
  let low := List.filter (fun x => Nat.leb (eq_bin n lo hi x) k) l in
  let up := List.filter (fun x => Nat.ltb k (eq_bin n lo hi x)) l in
  let rep := fun x => eq_center n lo hi (eq_bin n lo hi x) in
  INR (length low) * INR (length up) * (meanR (map rep low) - meanR (map rep up)) ^ 2.
Lemma between_class_bcv n lo hi l k : bcv n l lo hi k = between_class n lo hi l k.
Proof.
  unfold bcv, between_class, lowers, uppers. do 2 f_equal. f_equal; f_equal; apply map_ext; intros x; apply ctr_value.
Qed.
Theorem C40_optimal : forall n l lo hi t, (2 <= n)%nat -> is_min lo l -> is_max hi l -> lo < hi -> otsu_threshold n l = Ok t ->
  exists k, (k < n - 1)%nat /\ t = eq_center n lo hi k /\
    forall j, (j < n - 1)%nat -> between_class n lo hi l j <= between_class n lo hi l k.
Proof.
  intros n l lo hi t Hn A B D E. destruct (otsu_spec n l lo hi Hn A B D) as (k & E' & K & M & _). rewrite E in E'. injection E' as ->.
  exists k. split; [exact K|]. split; [apply ctr_value|]. intros j Hj. rewrite <- !between_class_bcv. apply M, Hj.
Qed.
Lemma hist_range_shift l c : hist_range (map (fun x => x + c) l) = match l with [] => (0, 1) | _ => (fst (hist_range l) + c, snd (hist_range l) + c) end.
Proof.
  destruct l as [|x0 l0] eqn:El; [reflexivity|]. rewrite <- El in *. assert (Ne : l <> []) by (rewrite El; discriminate). clear El x0 l0.
  destruct (lmin_ex l Ne) as [a Ea], (lmax_ex l Ne) as [b Eb]. unfold hist_range. rewrite Ea, Eb.
  apply lmin_spec in Ea. apply lmax_spec in Eb.
  assert (Ea' : lmin (map (fun x => x + c) l) = Some (a + c)) by (apply lmin_spec, (is_min_map_mono (fun x => x + c)); [intros; lra|exact Ea]).
  assert (Eb' : lmax (map (fun x => x + c) l) = Some (b + c)) by (apply lmax_spec, (is_max_map_mono (fun x => x + c)); [intros; lra|exact Eb]).
  rewrite Ea', Eb'. destruct (Req_EM_T a b), (Req_EM_T (a + c) (b + c)); cbn; try lra; f_equal; lra.
Qed.
(** adding a constant to the heights moves the threshold by it *)
Lemma variance12_shift_lists n lo hi l c :
  counts n (lo + c) (hi + c) (map (fun x => x + c) l) = counts n lo hi l.
Proof.
  unfold counts. apply map_ext. intros b. f_equal. induction l as [|x l IH]; [reflexivity|]. cbn.
  replace (hist_bin n (lo + c) (hi + c) (x + c)) with (hist_bin n lo hi x).
  - destruct (Nat.eqb (hist_bin n lo hi x) b); cbn; rewrite IH; reflexivity.
  - unfold hist_bin. replace (x + c - (lo + c)) with (x - lo) by lra. replace (hi + c - (lo + c)) with (hi - lo) by lra. reflexivity.
Qed.
Theorem C40_shift : forall n l c t, (2 <= n)%nat -> two_values l -> otsu_threshold n l = Ok t ->
  otsu_threshold n (map (fun x => x + c) l) = Ok (t + c).
Proof.
  intros n l c t Hn T E. destruct (distinct_range l T) as (lo & hi & A & B & D).
  assert (A' : is_min (lo + c) (map (fun x => x + c) l)) by (apply (is_min_map_mono (fun x => x + c)); [intros; lra|exact A]).
  assert (B' : is_max (hi + c) (map (fun x => x + c) l)) by (apply (is_max_map_mono (fun x => x + c)); [intros; lra|exact B]).
  destruct (otsu_spec n l lo hi Hn A B D) as (k & E' & K & M & F). rewrite E in E'. injection E' as ->.
  assert (V : forall j, bcv n (map (fun x => x + c) l) (lo + c) (hi + c) j = bcv n l lo hi j).
  { intros j. unfold bcv.
    assert (Hb : forall x, hist_bin n (lo + c) (hi + c) (x + c) = hist_bin n lo hi x).
    { intros x. unfold hist_bin. replace (x + c - (lo + c)) with (x - lo) by lra. replace (hi + c - (lo + c)) with (hi - lo) by lra. reflexivity. }
    assert (Hf : forall (p : nat -> bool), List.filter (fun x => p (hist_bin n (lo + c) (hi + c) x)) (map (fun x => x + c) l) =
                 map (fun x => x + c) (List.filter (fun x => p (hist_bin n lo hi x)) l)).
    { intros p. clear. induction l as [|x l IH]; [reflexivity|]. cbn.
      replace (hist_bin n (lo + c) (hi + c) (x + c)) with (hist_bin n lo hi x) by (unfold hist_bin; replace (x + c - (lo + c)) with (x - lo) by lra; replace (hi + c - (lo + c)) with (hi - lo) by lra; reflexivity).
      destruct (p (hist_bin n lo hi x)); cbn; rewrite IH; reflexivity. }
    assert (Hl : lowers n (map (fun x => x + c) l) (lo + c) (hi + c) j = map (fun x => x + c) (lowers n l lo hi j)) by apply (Hf (fun b => Nat.leb b j)).
    assert (Hu : uppers n (map (fun x => x + c) l) (lo + c) (hi + c) j = map (fun x => x + c) (uppers n l lo hi j)) by apply (Hf (fun b => Nat.ltb j b)).
    rewrite Hl, Hu, !map_length, !map_map.
    destruct (list_eq_dec Req_EM_T (lowers n l lo hi j) []) as [Z|N1]; [rewrite Z; cbn; ring|].
    destruct (list_eq_dec Req_EM_T (uppers n l lo hi j) []) as [Z|N2]; [rewrite Z; cbn; ring|].
    assert (S : forall m, m <> [] -> meanR (map (fun x => bin_center n (lo + c) (hi + c) (hist_bin n (lo + c) (hi + c) (x + c))) m) =
                 meanR (map (fun x => bin_center n lo hi (hist_bin n lo hi x)) m) + c).
    { intros m Hm. rewrite (meanR_ext _ (fun x => bin_center n lo hi (hist_bin n lo hi x) + c)).
      - rewrite <- (map_map (fun x => bin_center n lo hi (hist_bin n lo hi x)) (fun y => y + c)). apply meanR_shift. destruct m; [congruence|discriminate].
      - intros x _. rewrite Hb, !ctr_value. replace (hi + c - (lo + c)) with (hi - lo) by lra. lra. }
    rewrite !S by assumption. ring. }
  rewrite (otsu_first n _ (lo + c) (hi + c) Hn A' B' ltac:(lra) k K).
  - f_equal. rewrite !ctr_value. replace (hi + c - (lo + c)) with (hi - lo) by lra. lra.
  - intros j Hj. rewrite !V. apply M, Hj.
  - intros j Hj. rewrite !V. apply F, Hj.
Qed.
(** The threshold is the CENTRE of the last bin of the lower class, and among equally good cuts the lowest is taken:
    of a surface with the well separated levels {0, 3/1000} and {1}, the point 3/1000 is put above the threshold. *)
Lemma first_cut d lo hi : is_min lo d -> is_max hi d -> lo < hi ->
  (forall x, In x d -> hist_bin 256 lo hi x = 0%nat \/ hist_bin 256 lo hi x = 255%nat) ->
  otsu_threshold 256 d = Ok (bin_center 256 lo hi 0).
Proof.
  intros A B D H. assert (V : forall j, (j < 256 - 1)%nat -> bcv 256 d lo hi j = bcv 256 d lo hi 0).
  { intros j Hj. unfold bcv.
    assert (L : lowers 256 d lo hi j = lowers 256 d lo hi 0).
    { apply filter_ext_in. intros x Hx. destruct (H x Hx) as [->| ->]; [reflexivity|]. transitivity false; [apply Nat.leb_gt; lia|reflexivity]. }
    assert (U : uppers 256 d lo hi j = uppers 256 d lo hi 0).
    { apply filter_ext_in. intros x Hx. destruct (H x Hx) as [->| ->]; [reflexivity|]. transitivity true; [apply Nat.ltb_lt; lia|reflexivity]. }
    rewrite L, U. reflexivity. }
  apply (otsu_first 256 d lo hi); auto.
  - apply Nat.leb_le. reflexivity.
  - apply Nat.ltb_lt. reflexivity.
  - intros j Hj. rewrite V by exact Hj. lra.
  - intros j Hj. lia.
Qed.
Lemma refuting_data d : (forall x, In x d -> x = 0 \/ x = 3 / 1000 \/ x = 1) -> In 0 d -> In 1 d ->
  otsu_threshold 256 d = Ok (1 / 512).
Proof.
  intros H I0 I1.
  assert (A : is_min 0 d) by (split; [exact I0|]; intros y Hy; destruct (H y Hy) as [->|[->| ->]]; lra).
  assert (B : is_max 1 d) by (split; [exact I1|]; intros y Hy; destruct (H y Hy) as [->|[->| ->]]; lra).
  rewrite (first_cut d 0 1 A B ltac:(lra)).
  - f_equal. rewrite ctr_value. replace (INR 256) with 256 by (rewrite INR_IZR_INZ; reflexivity). cbn [INR]. lra.
  - intros x Hx. destruct (H x Hx) as [->|[->| ->]].
    + left. apply bin_lo. apply Nat.leb_le; reflexivity.
    + left. unfold hist_bin. replace (Int_part ((3 / 1000 - 0) / (1 - 0) * INR 256)) with 0%Z; [reflexivity|].
      symmetry. apply Int_part_unique. replace (INR 256) with 256 by (rewrite INR_IZR_INZ; reflexivity). lra.
    + right. apply (bin_hi 256 0 1); [apply Nat.leb_le; reflexivity|lra].
Qed.
Theorem C40_levels_refuted : exists t, otsu_threshold 256 [0; 3 / 1000; 1] = Ok t /\ 0 < t < 3 / 1000.
Proof.
  exists (1 / 512). split; [|lra]. apply refuting_data; [|left; reflexivity|right; right; left; reflexivity].
  intros x [<-|[<-|[<-|[]]]]; auto.
Qed.

(** ** C28 *)
Lemma select_map p data : select (map p data) data = List.filter p data.
Proof. induction data as [|h l IH]; [reflexivity|]. unfold select in *. cbn. destruct (p h); cbn; now rewrite IH. Qed.
Lemma measured_Some d : measured (map Some d) = d.
Proof. induction d; cbn; auto. now f_equal. Qed.
Lemma filter_Some (p : R -> bool) (q : height -> bool) d : (forall x, q (Some x) = p x) -> List.filter q (map Some d) = map Some (List.filter p d).
Proof. intros H. induction d as [|x d IH]; cbn; auto. rewrite H. destruct (p x); cbn; now rewrite IH. Qed.
Lemma no_nan d : existsb is_nan (map (@Some R) d) = false.
Proof. induction d; cbn; auto. Qed.
Lemma npmean_Some d : d <> [] -> npmean (map Some d) = Some (meanR d).
Proof. intros H. unfold npmean, nanmean. rewrite no_nan, measured_Some. destruct d; [congruence|reflexivity]. Qed.
Lemma npmedian_Some d : d <> [] -> npmedian (map Some d) = Some (medianR d).
Proof. intros H. unfold npmedian, nanmedian. rewrite no_nan, measured_Some. destruct d; [congruence|reflexivity]. Qed.
Definition above (t : R) (d : list R) : list R := List.filter (fun x => Rltb t x) d.
Definition below (t : R) (d : list R) : list R := List.filter (fun x => negb (Rltb t x)) d.
Lemma above_In t d x : In x (above t d) <-> In x d /\ t < x.
Proof. unfold above. rewrite filter_In, Rltb_spec. tauto. Qed.
Lemma below_In t d x : In x (below t d) <-> In x d /\ x <= t.
Proof. unfold below. rewrite filter_In, negb_true_iff, Rltb_false. tauto. Qed.
Lemma mask_complete d : two_values d -> exists t lo hi, is_min lo d /\ is_max hi d /\ lo < t < hi /\ otsu_threshold 256 d = Ok t /\
  get_mask (map Some d) = Ok (map (fun x => Rltb t x) d) /\ above t d <> [] /\ below t d <> [].
Proof.
  intros T. destruct (C40_separates 256 d) as (t & lo & hi & E & A & B & C & _); [apply Nat.leb_le; reflexivity|exact T|].
  exists t, lo, hi. split; [exact A|]. split; [exact B|]. split; [exact C|]. split; [exact E|].
  assert (Na : above t d <> []) by (intros Z; assert (X : In hi (above t d)) by (apply above_In; split; [apply B|lra]); rewrite Z in X; destruct X).
  assert (Nb : below t d <> []) by (intros Z; assert (X : In lo (below t d)) by (apply below_In; split; [apply A|lra]); rewrite Z in X; destruct X).
  split; [|auto]. unfold get_mask. rewrite measured_Some, E. cbn [rbind].
  rewrite (map_map (fun h => hgt h (Some t)) negb (map Some d)). rewrite !select_map.
  rewrite (filter_Some (fun x => Rltb t x) (fun h => hgt h (Some t))), (filter_Some (fun x => negb (Rltb t x)) (fun h => negb (hgt h (Some t)))) by reflexivity.
  fold (above t d). fold (below t d). rewrite !npmean_Some by assumption. cbn [hgt].
  assert (Ma : t <= meanR (above t d)).
  { destruct (meanR_between (above t d) t hi Na) as [X _]; [|exact X]. intros x Hx. apply above_In in Hx as [Hx ?]. split; [lra|apply B, Hx]. }
  assert (Mb : meanR (below t d) <= t).
  { destruct (meanR_between (below t d) lo t Nb) as [_ X]; [|exact X]. intros x Hx. apply below_In in Hx as [Hx ?]. split; [apply A, Hx|lra]. }
  replace (Rltb (meanR (above t d)) (meanR (below t d))) with false by (symmetry; apply Rltb_false; lra).
  rewrite map_map. reflexivity.
Qed.
Lemma upper_lower_complete d t : get_mask (map Some d) = Ok (map (fun x => Rltb t x) d) -> above t d <> [] -> below t d <> [] ->
  upper_lower (map Some d) = Ok (Some (medianR (above t d)), Some (medianR (below t d))).
Proof.
  intros E Na Nb. unfold upper_lower. rewrite E. cbn [rbind].
  assert (M1 : map (fun x => Rltb t x) d = map (fun h => hgt h (Some t)) (map Some d)) by (rewrite map_map; reflexivity).
  rewrite M1, (map_map (fun h => hgt h (Some t)) negb (map Some d)). rewrite !select_map.
  rewrite (filter_Some (fun x => Rltb t x) (fun h => hgt h (Some t))), (filter_Some (fun x => negb (Rltb t x)) (fun h => negb (hgt h (Some t)))) by reflexivity.
  fold (above t d). fold (below t d). rewrite !npmedian_Some by assumption. reflexivity.
Qed.
(** Both levels occur, every point is in exactly one of them, and every upper point is higher than every lower one. *)
Theorem C28_partition : forall d, two_values d -> exists mask, get_mask (map Some d) = Ok mask /\ length mask = length d /\
  In true mask /\ In false mask /\
  forall i j, nth_error mask i = Some true -> nth_error mask j = Some false -> nth j d 0 < nth i d 0.
Proof.
  intros d T. destruct (mask_complete d T) as (t & lo & hi & A & B & C & _ & E & Na & Nb). eexists. split; [exact E|].
  split; [apply map_length|]. split; [|split].
  - apply in_map_iff. exists hi. split; [apply Rltb_spec; lra|apply B].
  - apply in_map_iff. exists lo. split; [apply Rltb_false; lra|apply A].
  - intros i j Hi Hj. rewrite nth_error_map in Hi, Hj.
    destruct (nth_error d i) as [x|] eqn:Ei; [|discriminate]. destruct (nth_error d j) as [y|] eqn:Ej; [|discriminate].
    cbn in Hi, Hj. injection Hi as Hi. injection Hj as Hj. apply Rltb_spec in Hi. apply Rltb_false in Hj.
    rewrite (nth_error_nth _ _ 0 Ei), (nth_error_nth _ _ 0 Ej). lra.
Qed.
Lemma medianR_gt l t : l <> [] -> (forall x, In x l -> t < x) -> t < medianR l.
Proof.
  intros Ne H. destruct (lmin_ex l Ne) as [m Em]. apply lmin_spec in Em as [Im Hm].
  destruct (lmax_ex l Ne) as [M EM]. apply lmax_spec in EM as [IM HM].
  destruct (medianR_between l m M Ne) as [X _]; [intros x Hx; split; [apply Hm, Hx|apply HM, Hx]|]. specialize (H m Im). lra.
Qed.
Lemma medianR_le_ l t : l <> [] -> (forall x, In x l -> x <= t) -> medianR l <= t.
Proof.
  intros Ne H. destruct (lmin_ex l Ne) as [m Em]. apply lmin_spec in Em as [Im Hm].
  destruct (medianR_between l m t Ne) as [_ X]; [intros x Hx; split; [apply Hm, Hx|apply H, Hx]|]. exact X.
Qed.
Theorem C28_stepheight : forall d, two_values d -> exists s, stepheight (map Some d) = Ok (Some s) /\ 0 < s.
Proof.
  intros d T. destruct (mask_complete d T) as (t & lo & hi & A & B & C & _ & E & Na & Nb).
  unfold stepheight. rewrite (upper_lower_complete d t E Na Nb). cbn. eexists. split; [reflexivity|].
  assert (U := medianR_gt (above t d) t Na (fun x Hx => proj2 (proj1 (above_In t d x) Hx))).
  assert (L := medianR_le_ (below t d) t Nb (fun x Hx => proj2 (proj1 (below_In t d x) Hx))). lra.
Qed.
Lemma volume_value d t th sx sy : get_mask (map Some d) = Ok (map (fun x => Rltb t x) d) -> above t d <> [] -> below t d <> [] ->
  let u := medianR (above t d) in let l := medianR (below t d) in
  cavity_volume (map Some d) th sx sy =
  Ok (Some (sumR (map (fun x => u - x) (List.filter (fun x => Rltb x (u - th * (u - l))) d)) * sx * sy)).
Proof.
  intros E Na Nb u l. unfold cavity_volume, stepheight. rewrite (upper_lower_complete d t E Na Nb). cbn [rbind].
  fold u l. cbn [hsub hmul lift2]. rewrite (filter_Some (fun x => Rltb x (u - th * (u - l)))) by reflexivity.
  rewrite map_map. cbn [hsub lift2]. rewrite <- (map_map (fun x => u - x) Some). rewrite no_nan, measured_Some. reflexivity.
Qed.
Theorem C28_volume_nonneg : forall d th sx sy, two_values d -> 0 <= th -> 0 <= sx -> 0 <= sy ->
  exists v, cavity_volume (map Some d) th sx sy = Ok (Some v) /\ 0 <= v.
Proof.
  intros d th sx sy T Th Sx Sy. destruct (mask_complete d T) as (t & lo & hi & A & B & C & _ & E & Na & Nb).
  rewrite (volume_value d t th sx sy E Na Nb). set (u := medianR (above t d)). set (l := medianR (below t d)).
  assert (U := medianR_gt (above t d) t Na (fun x Hx => proj2 (proj1 (above_In t d x) Hx))). fold u in U.
  assert (L := medianR_le_ (below t d) t Nb (fun x Hx => proj2 (proj1 (below_In t d x) Hx))). fold l in L.
  eexists. split; [reflexivity|]. repeat apply Rmult_le_pos; auto. apply sumR_nonneg. intros y Hy. apply in_map_iff in Hy as (x & <- & Hx).
  apply filter_In in Hx as [_ Hx]. apply Rltb_spec in Hx. assert (0 <= th * (u - l)) by (apply Rmult_le_pos; lra). lra.
Qed.
(** with a relative threshold below 1 the cavity is seen *)
Theorem C28_volume_positive : forall d th sx sy, two_values d -> 0 <= th < 1 -> 0 < sx -> 0 < sy ->
  exists v, cavity_volume (map Some d) th sx sy = Ok (Some v) /\ 0 < v.
Proof.
  intros d th sx sy T Th Sx Sy. destruct (mask_complete d T) as (t & lo & hi & A & B & C & _ & E & Na & Nb).
  rewrite (volume_value d t th sx sy E Na Nb). set (u := medianR (above t d)). set (l := medianR (below t d)).
  assert (U := medianR_gt (above t d) t Na (fun x Hx => proj2 (proj1 (above_In t d x) Hx))). fold u in U.
  assert (L := medianR_le_ (below t d) t Nb (fun x Hx => proj2 (proj1 (below_In t d x) Hx))). fold l in L.
  eexists. split; [reflexivity|]. repeat apply Rmult_lt_0_compat; auto.
  assert (Hlo : lo <= l).
  { destruct (medianR_between (below t d) lo t Nb) as [X _]; [|exact X]. intros x Hx. apply below_In in Hx as [Hx ?]. split; [apply A, Hx|lra]. }
  assert (Q : th * (u - l) < u - l) by nra.
  assert (Ilo : In (u - lo) (map (fun x => u - x) (List.filter (fun x => Rltb x (u - th * (u - l))) d))).
  { apply in_map_iff. exists lo. split; [reflexivity|]. apply filter_In. split; [apply A|]. apply Rltb_spec. lra. }
  apply Rlt_le_trans with (u - lo); [lra|]. apply sumR_In_le; [|exact Ilo].
  intros y Hy. apply in_map_iff in Hy as (x & <- & Hx).
  apply filter_In in Hx as [_ Hx]. apply Rltb_spec in Hx. assert (0 <= th * (u - l)) by (apply Rmult_le_pos; lra). lra.
Qed.
Lemma filter_shift (p : R -> bool) (q : R -> bool) c d : (forall x, q (x + c) = p x) ->
  List.filter q (map (fun x => x + c) d) = map (fun x => x + c) (List.filter p d).
Proof. intros H. induction d as [|x d IH]; cbn; auto. rewrite H. destruct (p x); cbn; now rewrite IH. Qed.
Lemma Rltb_shift a b c : Rltb (a + c) (b + c) = Rltb a b.
Proof. destruct (Rltb a b) eqn:E; [apply Rltb_spec in E; apply Rltb_spec|apply Rltb_false in E; apply Rltb_false]; lra. Qed.
Theorem C28_shift : forall d c th sx sy, two_values d ->
  stepheight (map Some (map (fun x => x + c) d)) = stepheight (map Some d) /\
  cavity_volume (map Some (map (fun x => x + c) d)) th sx sy = cavity_volume (map Some d) th sx sy.
Proof.
  intros d c th sx sy T. destruct (mask_complete d T) as (t & lo & hi & A & B & C & E0 & E & Na & Nb).
  assert (T' : two_values (map (fun x => x + c) d)).
  { destruct T as (x & y & Hx & Hy & N). exists (x + c), (y + c). split; [apply (in_map (fun x => x + c)), Hx|]. split; [apply (in_map (fun x => x + c)), Hy|lra]. }
  destruct (mask_complete _ T') as (t' & lo' & hi' & A' & B' & C' & E0' & E' & Na' & Nb').
  assert (Ht : t' = t + c). { rewrite (C40_shift 256 d c t) in E0'; [injection E0' as <-; reflexivity|apply Nat.leb_le; reflexivity|exact T|exact E0]. }
  subst t'.
  assert (Ha : above (t + c) (map (fun x => x + c) d) = map (fun x => x + c) (above t d)) by (apply filter_shift; intros; apply Rltb_shift).
  assert (Hb : below (t + c) (map (fun x => x + c) d) = map (fun x => x + c) (below t d)) by (apply filter_shift; intros; now rewrite Rltb_shift).
  split.
  - unfold stepheight. rewrite (upper_lower_complete _ _ E Na Nb), (upper_lower_complete _ _ E' Na' Nb'). cbn.
    rewrite Ha, Hb, !medianR_shift by assumption. do 2 f_equal. lra.
  - rewrite (volume_value _ _ th sx sy E Na Nb), (volume_value _ _ th sx sy E' Na' Nb').
    rewrite Ha, Hb, !medianR_shift by assumption. do 4 f_equal.
    rewrite (filter_shift (fun x => Rltb x (medianR (above t d) - th * (medianR (above t d) - medianR (below t d))))).
    + rewrite map_map. apply sumR_ext. intros x _. lra.
    + intros x. rewrite <- (Rltb_shift x _ c). f_equal. lra.
Qed.
(** an ideal two-level surface: the step height is exact *)
Theorem C28_ideal : forall d a b, a < b -> In a d -> In b d -> (forall x, In x d -> x = a \/ x = b) ->
  stepheight (map Some d) = Ok (Some (b - a)) /\
  forall th sx sy, 0 <= th < 1 -> cavity_volume (map Some d) th sx sy =
    Ok (Some (INR (length (List.filter (fun x => if Req_EM_T x a then true else false) d)) * (b - a) * sx * sy)).
Proof.
  intros d a b AB Ia Ib H. assert (T : two_values d) by (exists a, b; repeat split; auto; lra).
  destruct (mask_complete d T) as (t & lo & hi & A & B & C & E0 & E & Na & Nb).
  assert (Elo : lo = a). { apply (is_min_unique d); [exact A|]. split; [exact Ia|]. intros y Hy. destruct (H y Hy) as [->| ->]; lra. }
  assert (Ehi : hi = b). { apply (is_max_unique d); [exact B|]. split; [exact Ib|]. intros y Hy. destruct (H y Hy) as [->| ->]; lra. }
  subst lo hi.
  assert (U : medianR (above t d) = b).
  { destruct (medianR_between (above t d) b b Na); [|lra]. intros x Hx. apply above_In in Hx as [Hx ?]. destruct (H x Hx) as [->| ->]; lra. }
  assert (L : medianR (below t d) = a).
  { destruct (medianR_between (below t d) a a Nb); [|lra]. intros x Hx. apply below_In in Hx as [Hx ?]. destruct (H x Hx) as [->| ->]; lra. }
  split.
  - unfold stepheight. rewrite (upper_lower_complete d t E Na Nb). cbn. rewrite U, L. reflexivity.
  - intros th sx sy Th. rewrite (volume_value d t th sx sy E Na Nb), U, L. do 4 f_equal.
    rewrite (filter_ext_in _ (fun x => if Req_EM_T x a then true else false)).
    + rewrite (sumR_ext _ (fun _ => b - a)); [apply sumR_map_const|]. intros x Hx. apply filter_In in Hx as [_ Hx]. destruct (Req_EM_T x a); [lra|discriminate].
    + intros x Hx. assert (Q : th * (b - a) < b - a) by nra. assert (Q0 : 0 <= th * (b - a)) by (apply Rmult_le_pos; lra).
      destruct (H x Hx) as [->| ->].
      * destruct (Req_EM_T a a); [|congruence]. apply Rltb_spec. lra.
      * destruct (Req_EM_T b a); [lra|]. apply Rltb_false. lra.
Qed.
(** non-measured points: stepheight is nan, cavity_volume silently 0 *)
Lemma otsu_total l : exists t, otsu_threshold 256 l = Ok t.
Proof.
  unfold otsu_threshold. cbn [Nat.eqb]. destruct (hist_range l) as [lo hi].
  destruct (argmax_ok (variance12 (counts 256 lo hi l) (bin_centers 256 lo hi))) as [i E]; [|rewrite E; cbn [rbind]; eauto].
  intros Z. apply (f_equal (@length _)) in Z. rewrite v12_length in Z by (rewrite counts_length, centers_length; reflexivity).
  rewrite counts_length in Z. discriminate.
Qed.
Lemma select_nan (p : height -> bool) data : p None = true -> In None data -> existsb is_nan (select (map p data) data) = true.
Proof. intros P H. rewrite select_map. apply existsb_exists. exists None. split; [apply filter_In; auto|reflexivity]. Qed.
Theorem C28_missing_points : forall data th sx sy, In None data ->
  stepheight data = Ok None /\ cavity_volume data th sx sy = Ok (Some 0).
Proof.
  intros data th sx sy H. destruct (otsu_total (measured data)) as [t E].
  assert (M : get_mask data = Ok (map (fun h => hgt h (Some t)) data)).
  { unfold get_mask. rewrite E. cbn [rbind]. rewrite map_map. unfold npmean at 1. rewrite select_nan by (auto; reflexivity). reflexivity. }
  assert (UL : exists u, upper_lower data = Ok (u, None)).
  { unfold upper_lower. rewrite M. cbn [rbind]. rewrite map_map. eexists. unfold npmedian at 2. rewrite select_nan by (auto; reflexivity). reflexivity. }
  destruct UL as [u UL]. assert (S : stepheight data = Ok None) by (unfold stepheight; rewrite UL; cbn; destruct u; reflexivity).
  split; [exact S|]. unfold cavity_volume. rewrite UL, S. cbn [rbind].
  replace (hsub u (hmul (Some th) None)) with (@None R) by (destruct u; reflexivity).
  replace (List.filter (fun h => hgt None h) data) with (@nil height); [cbn; do 2 f_equal; ring|].
  clear. induction data; cbn; auto.
Qed.
(** refuted: with slightly spread lower level the "upper" class swallows lower points and the step height of about 1
    comes out as 3/1000 *)
Theorem C28_levels_refuted : exists d, (forall x, In x d -> 0 <= x <= 3 / 1000 \/ x = 1) /\ In 1 d /\
  stepheight (map Some d) = Ok (Some (3 / 1000)).
Proof.
  exists [0; 3 / 1000; 3 / 1000; 1]. split; [|split].
  - intros x [<-|[<-|[<-|[<-|[]]]]]; lra.
  - do 3 right. left. reflexivity.
  - set (d := [0; 3 / 1000; 3 / 1000; 1]).
    assert (Hd : forall x, In x d -> x = 0 \/ x = 3 / 1000 \/ x = 1) by (intros x [<-|[<-|[<-|[<-|[]]]]]; auto).
    assert (T : two_values d) by (exists 0, 1; repeat split; [left; reflexivity|do 3 right; left; reflexivity|lra]).
    destruct (mask_complete d T) as (t & lo & hi & _ & _ & _ & E0 & E & Na & Nb).
    rewrite (refuting_data d Hd ltac:(left; reflexivity) ltac:(do 3 right; left; reflexivity)) in E0. injection E0 as <-.
    assert (B1 : forall x y, x < y -> Rltb x y = true) by (intros; apply Rltb_spec; lra).
    assert (B2 : forall x y, y <= x -> Rltb x y = false) by (intros; apply Rltb_false; lra).
    assert (Ha : above (1 / 512) d = [3 / 1000; 3 / 1000; 1]).
    { unfold above, d. cbn [List.filter]. rewrite (B2 (1 / 512) 0), (B1 (1 / 512) (3 / 1000)), (B1 (1 / 512) 1) by lra. reflexivity. }
    assert (Hb : below (1 / 512) d = [0]).
    { unfold below, d. cbn [List.filter]. rewrite (B2 (1 / 512) 0), (B1 (1 / 512) (3 / 1000)), (B1 (1 / 512) 1) by lra. reflexivity. }
    unfold stepheight. rewrite (upper_lower_complete d _ E Na Nb). cbn [rbind hsub lift2]. rewrite Ha, Hb. do 2 f_equal.
    assert (M1 : medianR [0] = 0) by (unfold medianR; reflexivity).
    assert (M2 : medianR [3 / 1000; 3 / 1000; 1] = 3 / 1000).
    { unfold medianR. cbn -[Rdiv]. repeat (destruct Rle_dec; cbn -[Rdiv]; try lra). }
    rewrite M1, M2. lra.
Qed.
