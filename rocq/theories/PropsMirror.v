(** C114: mirroring or turning the sample changes no parameter that has no direction. *)
From Coq Require Import String Reals List Bool Arith ZArith Lia Lra Permutation.
From Verif Require Import Base RList ModelMath ModelHeights ModelGeom ModelDetrend ModelParams ModelAfc ModelStep ModelFill ModelAcf.
From Verif Require Import ProofMath ProofHeights ProofParams PropsParams PropsFill PropsGeom PropsAcf PropsAfc.
Import ListNotations.
Local Open Scope R_scope.

(** *** Specification: a measured area, its mirror images and turns *)
(** the points of an area row by row, and the distances of its columns and rows *)
Record area (A : Type) := mkArea { points : list (list A); n_rows : nat; n_cols : nat; dx : R; dy : R }.
Arguments mkArea {A}. Arguments points {A}. Arguments n_rows {A}. Arguments n_cols {A}. Arguments dx {A}. Arguments dy {A}.
Definition well_shaped {A} (s : area A) : Prop := length (points s) = n_rows s /\ forall r, In r (points s) -> length r = n_cols s.
Definition point_at {A} (s : area A) (i j : nat) : option A :=
  match nth_error (points s) i with Some r => nth_error r j | None => None end.
(** left and right exchanged (np.fliplr), top and bottom exchanged (np.flipud), rows and columns exchanged (transposed) *)
Inductive motion := Left_right | Top_bottom | Transposed.
Definition moves {A} (m : motion) (s t : area A) : Prop :=
  well_shaped s /\ well_shaped t /\
  match m with
  | Left_right => n_rows t = n_rows s /\ n_cols t = n_cols s /\ dx t = dx s /\ dy t = dy s /\
      forall i j, (i < n_rows s)%nat -> (j < n_cols s)%nat -> point_at t i j = point_at s i (n_cols s - 1 - j)
  | Top_bottom => n_rows t = n_rows s /\ n_cols t = n_cols s /\ dx t = dx s /\ dy t = dy s /\
      forall i j, (i < n_rows s)%nat -> (j < n_cols s)%nat -> point_at t i j = point_at s (n_rows s - 1 - i) j
  | Transposed => n_rows t = n_cols s /\ n_cols t = n_rows s /\ dx t = dy s /\ dy t = dx s /\
      forall i j, (i < n_cols s)%nat -> (j < n_rows s)%nat -> point_at t i j = point_at s j i
  end.
(** any sequence of them *)
Fixpoint moved {A} (ms : list motion) (s t : area A) : Prop :=
  match ms with [] => t = s | m :: ms' => exists u, moves m s u /\ moved ms' u t end.
(** a quarter turn to the left (np.rot90) *)
Definition quarter_turn {A} (s t : area A) : Prop :=
  well_shaped s /\ well_shaped t /\ n_rows t = n_cols s /\ n_cols t = n_rows s /\ dx t = dy s /\ dy t = dx s /\
  forall i j, (i < n_cols s)%nat -> (j < n_rows s)%nat -> point_at t i j = point_at s j (n_cols s - 1 - i).

(** *** Areas given by a function *)
Definition table {A} (f : nat -> nat -> A) (ny nx : nat) : list (list A) := map (fun i => map (fun j => f i j) (seq 0 nx)) (seq 0 ny).
Lemma table_shaped {A} (f : nat -> nat -> A) ny nx x y : well_shaped (mkArea (table f ny nx) ny nx x y).
Proof.
  split; cbn; unfold table; [rewrite map_length, seq_length; reflexivity|]. intros r Hr. apply in_map_iff in Hr. destruct Hr as (i & <- & _). rewrite map_length, seq_length. reflexivity.
Qed.
Lemma nth_error_map_seq {A} (f : nat -> A) n i : (i < n)%nat -> nth_error (map f (seq 0 n)) i = Some (f i).
Proof. intros H. rewrite nth_error_map, (nth_error_nth' _ 0%nat) by (rewrite seq_length; exact H). rewrite seq_nth by exact H. reflexivity. Qed.
Lemma table_at {A} (f : nat -> nat -> A) ny nx x y i j : (i < ny)%nat -> (j < nx)%nat -> point_at (mkArea (table f ny nx) ny nx x y) i j = Some (f i j).
Proof. intros Hi Hj. unfold point_at, table. cbn [points]. rewrite nth_error_map_seq by exact Hi. apply nth_error_map_seq, Hj. Qed.
Lemma point_nth {A} (s : area A) d i j : well_shaped s -> (i < n_rows s)%nat -> (j < n_cols s)%nat -> point_at s i j = Some (nth j (nth i (points s) []) d).
Proof.
  intros [L H] Hi Hj. unfold point_at. rewrite (nth_error_nth' _ []) by lia. apply nth_error_nth'. rewrite H; [exact Hj|]. apply nth_In. lia.
Qed.

(** *** Every move has a result, and quarter turns are moves *)
Theorem C114_quarter_turn : forall (A : Type) (s t : area A), quarter_turn s t -> moved [Left_right; Transposed] s t.
Proof.
  intros A s t (Ws & Wt & E1 & E2 & E3 & E4 & P).
  set (u := mkArea (map (@rev A) (points s)) (n_rows s) (n_cols s) (dx s) (dy s)).
  assert (Wu : well_shaped u).
  { destruct Ws as [L H]. split; cbn; [rewrite map_length; exact L|]. intros r Hr. apply in_map_iff in Hr. destruct Hr as (r' & <- & Hr). rewrite rev_length. apply H, Hr. }
  assert (Pu : forall i j, (i < n_rows s)%nat -> (j < n_cols s)%nat -> point_at u i j = point_at s i (n_cols s - 1 - j)).
  { intros i j Hi Hj. destruct Ws as [L H]. unfold point_at, u. cbn [points]. rewrite nth_error_map, (nth_error_nth' _ []) by lia. cbn [option_map].
    set (r := nth i (points s) []). assert (Lr : length r = n_cols s) by (apply H; apply nth_In; lia).
    destruct r as [|x0 r0] eqn:Er; [cbn in Lr; lia|]. rewrite <- Er in *. rewrite !(nth_error_nth' _ x0) by (rewrite ?rev_length; lia). f_equal. rewrite rev_nth by lia. f_equal. lia. }
  exists u. split; [split; [exact Ws|split; [exact Wu|]]; cbn; auto|]. exists t. split; [|reflexivity].
  split; [exact Wu|]. split; [exact Wt|]. cbn. repeat split; auto. intros i j Hi Hj. rewrite P by assumption. rewrite Pu by assumption. reflexivity.
Qed.

(** Every area can be mirrored and transposed. *)
Theorem C114_every_motion : forall (A : Type) ms (s : area A), well_shaped s -> exists t, moved ms s t /\ well_shaped t.
Proof.
  intros A. induction ms as [|m ms IH]; cbn [moved]; intros s W; [eauto|].
  assert (G : exists u, moves m s u).
  { set (ry := match m with Transposed => n_cols s | _ => n_rows s end). set (rx := match m with Transposed => n_rows s | _ => n_cols s end).
    set (sx := match m with Transposed => dy s | _ => dx s end). set (sy := match m with Transposed => dx s | _ => dy s end).
    assert (K : forall u, well_shaped u -> n_rows u = ry -> n_cols u = rx -> dx u = sx -> dy u = sy ->
      (forall i j, (i < ry)%nat -> (j < rx)%nat -> point_at u i j = match m with Left_right => point_at s i (n_cols s - 1 - j) | Top_bottom => point_at s (n_rows s - 1 - i) j | Transposed => point_at s j i end) -> moves m s u).
    { intros u Wu U1 U2 U3 U4 P. split; [exact W|]. split; [exact Wu|]. destruct m; cbn in *; auto 10. }
    destruct (Nat.eq_dec ry 0) as [Ey|Ey]; [|destruct (Nat.eq_dec rx 0) as [Ex|Ex]].
    - exists (mkArea [] ry rx sx sy). apply K; auto; [split; cbn; [lia|intros r []]|intros i j Hi; lia].
    - exists (mkArea (repeat [] ry) ry rx sx sy). apply K; auto; [split; cbn; [apply repeat_length|intros r Hr; apply repeat_spec in Hr; subst r; cbn; lia]|intros i j _ Hj; lia].
    - assert (D : exists d, point_at s 0 0 = Some d).
      { destruct W as [L H]. assert (0 < n_rows s /\ 0 < n_cols s)%nat by (subst ry rx; destruct m; lia). unfold point_at. destruct (points s) as [|r g]; [cbn in L; lia|]. cbn [nth_error].
        assert (Lr := H r (or_introl eq_refl)). destruct r as [|d r]; [cbn in Lr; lia|]. exists d. reflexivity. }
      destruct D as [d _]. set (at_d := fun i j => nth j (nth i (points s) []) d).
      exists (mkArea (table (fun i j => match m with Left_right => at_d i (n_cols s - 1 - j)%nat | Top_bottom => at_d (n_rows s - 1 - i)%nat j | Transposed => at_d j i end) ry rx) ry rx sx sy).
      apply K; auto; [apply table_shaped|]. intros i j Hi Hj. rewrite table_at by assumption. subst ry rx. destruct m; cbn in Hi, Hj; symmetry; apply point_nth; auto; lia. }
  destruct G as [u M]. destruct (IH u) as (t & H & Wt); [apply M|]. exists t. split; [|exact Wt]. exists u. auto.
Qed.

(** *** The multiset of the points stays *)
Definition values {A} (o : option A) : list A := match o with Some x => [x] | None => [] end.
Lemma flat_values {A} (l : list A) : flat_map values (map Some l) = l.
Proof. induction l as [|x l IH]; cbn; [reflexivity|]. f_equal. exact IH. Qed.
Lemma row_values {A} (r : list A) n : length r = n -> flat_map (fun j => values (nth_error r j)) (seq 0 n) = r.
Proof.
  revert n. induction r as [|x r IH] using rev_ind; intros n L; [cbn in L; subst n; reflexivity|].
  rewrite app_length in L. cbn in L. assert (n = S (length r)) as -> by lia. rewrite seq_S, flat_map_app. cbn [Nat.add flat_map]. rewrite app_nil_r.
  rewrite nth_error_app2, Nat.sub_diag by lia. cbn [nth_error values]. f_equal. etransitivity; [|apply (IH _ eq_refl)].
  rewrite !flat_map_concat_map. f_equal. apply map_ext_in. intros j Hj. apply in_seq in Hj. rewrite nth_error_app1 by lia. reflexivity.
Qed.
Lemma all_points {A} (s : area A) : well_shaped s -> concat (points s) = flat_map (fun c => values (point_at s (fst c) (snd c))) (coords (n_rows s) (n_cols s)).
Proof.
  intros [L H]. unfold coords. rewrite <- (row_values (points s) (n_rows s) L) at 1. rewrite flat_map_concat_map.
  assert (G : forall l, (forall i, In i l -> (i < n_rows s)%nat) ->
    concat (concat (map (fun j => values (nth_error (points s) j)) l)) = flat_map (fun c => values (point_at s (fst c) (snd c))) (flat_map (fun i => map (fun j => (i, j)) (seq 0 (n_cols s))) l)).
  { induction l as [|i l IH]; intros Hl; [reflexivity|]. cbn [map concat flat_map]. rewrite flat_map_app, concat_app, IH by (intros k Hk; apply Hl; right; exact Hk). f_equal.
    assert (Hi : (i < n_rows s)%nat) by (apply Hl; left; reflexivity).
    assert (E : nth_error (points s) i = Some (nth i (points s) [])) by (apply nth_error_nth'; lia).
    rewrite E. cbn [values concat]. rewrite app_nil_r. rewrite flat_map_concat_map, map_map. cbn [fst snd]. unfold point_at. rewrite E. rewrite <- flat_map_concat_map.
    symmetry. apply row_values. apply H. apply nth_In. lia. }
  apply G. intros i Hi. apply in_seq in Hi. lia.
Qed.
Lemma moves_permutation {A} m (s t : area A) : moves m s t -> Permutation (concat (points s)) (concat (points t)).
Proof.
  intros (Ws & Wt & M). rewrite (all_points s Ws), (all_points t Wt).
  assert (Go : forall (f : nat * nat -> nat * nat), (forall c, In c (coords (n_rows t) (n_cols t)) -> In (f c) (coords (n_rows s) (n_cols s)) /\ point_at t (fst c) (snd c) = point_at s (fst (f c)) (snd (f c))) ->
    (forall c c', In c (coords (n_rows t) (n_cols t)) -> In c' (coords (n_rows t) (n_cols t)) -> f c = f c' -> c = c') ->
    (forall c, In c (coords (n_rows s) (n_cols s)) -> exists c', In c' (coords (n_rows t) (n_cols t)) /\ f c' = c) ->
    Permutation (flat_map (fun c => values (point_at s (fst c) (snd c))) (coords (n_rows s) (n_cols s))) (flat_map (fun c => values (point_at t (fst c) (snd c))) (coords (n_rows t) (n_cols t)))).
  { intros f F I Sj. assert (P : Permutation (coords (n_rows s) (n_cols s)) (map f (coords (n_rows t) (n_cols t)))).
    { apply NoDup_Permutation; [apply NoDup_coords| |].
      - assert (N := NoDup_coords (n_rows t) (n_cols t)). revert I. clear - N. induction N as [|c l H N IH]; intros I; cbn; constructor.
        + intros X. apply in_map_iff in X. destruct X as (c' & E & X). apply H. rewrite <- (I c' c (or_intror X) (or_introl eq_refl) E). exact X.
        + apply IH. intros a b Ha Hb. apply I; right; assumption.
      - intros c. rewrite in_map_iff. split; [intros Hc; destruct (Sj c Hc) as (c' & Hc' & E); eauto|]. intros (c' & <- & Hc'). apply F, Hc'. }
    rewrite (Permutation_flat_map _ P). rewrite (flat_map_concat_map _ (map f _)), map_map, (flat_map_concat_map _ (coords (n_rows t) (n_cols t))).
    apply Permutation_refl'. f_equal. apply map_ext_in. intros c Hc. destruct (F c Hc) as [_ ->]. reflexivity. }
  destruct m; destruct M as (E1 & E2 & _ & _ & P); rewrite E1, E2 in Go |- *.
  - apply (Go (fun c => (fst c, n_cols s - 1 - snd c)%nat)).
    + intros [i j] Hc. apply In_coords in Hc. cbn [fst snd]. split; [apply In_coords; lia|]. apply P; lia.
    + intros [i j] [i' j'] Hc Hc' E. apply In_coords in Hc, Hc'. cbn [fst snd] in E. injection E as E3 E4. f_equal; lia.
    + intros [i j] Hc. apply In_coords in Hc. exists (i, n_cols s - 1 - j)%nat. split; [apply In_coords; lia|]. cbn [fst snd]. f_equal. lia.
  - apply (Go (fun c => (n_rows s - 1 - fst c, snd c)%nat)).
    + intros [i j] Hc. apply In_coords in Hc. cbn [fst snd]. split; [apply In_coords; lia|]. apply P; lia.
    + intros [i j] [i' j'] Hc Hc' E. apply In_coords in Hc, Hc'. cbn [fst snd] in E. injection E as E3 E4. f_equal; lia.
    + intros [i j] Hc. apply In_coords in Hc. exists (n_rows s - 1 - i, j)%nat. split; [apply In_coords; lia|]. cbn [fst snd]. f_equal. lia.
  - apply (Go (fun c => (snd c, fst c))).
    + intros [i j] Hc. apply In_coords in Hc. cbn [fst snd]. split; [apply In_coords; lia|]. apply P; lia.
    + intros [i j] [i' j'] Hc Hc' E. cbn [fst snd] in E. injection E as E3 E4. f_equal; congruence.
    + intros [i j] Hc. apply In_coords in Hc. exists (j, i). split; [apply In_coords; lia|]. reflexivity.
Qed.
Lemma moved_permutation {A} ms : forall s t : area A, moved ms s t -> Permutation (concat (points s)) (concat (points t)).
Proof.
  induction ms as [|m ms IH]; cbn [moved]; intros s t H; [subst; apply Permutation_refl|]. destruct H as (u & M & H). eapply Permutation_trans; [apply (moves_permutation m _ _ M)|apply IH, H].
Qed.

(** *** Height parameters *)
Theorem C114_heights : forall ms (s t : area R), moved ms s t -> height_parameters (concat (points t)) = height_parameters (concat (points s)).
Proof. intros ms s t H. apply C23_permutation, (moved_permutation ms), H. Qed.

(** *** The material ratio curve and everything computed from it *)
Lemma measured_perm l l' : Permutation l l' -> Permutation (measured l) (measured l').
Proof. apply Permutation_flat_map. Qed.
Lemma nan_perm l l' : Permutation l l' -> existsb is_nan l = existsb is_nan l'.
Proof.
  intros P. apply Bool.eq_iff_eq_true. rewrite !existsb_exists. split; intros (x & Hx & E); exists x; (split; [|exact E]); [exact (Permutation_in _ P Hx)|exact (Permutation_in _ (Permutation_sym P) Hx)].
Qed.
Lemma curve_perm n d d' : Permutation d d' -> material_curve n d = material_curve n d'.
Proof. intros P. unfold material_curve. apply map_ext. intros m. unfold quantile. rewrite (sortR_perm_eq d d' P). reflexivity. Qed.
Lemma lmax_perm l l' : Permutation l l' -> lmax l = lmax l'.
Proof.
  intros P. destruct (lmax l) as [a|] eqn:E.
  - symmetry. apply lmax_spec. apply lmax_spec in E. apply (is_max_perm l l' a P E).
  - destruct l; [|discriminate]. apply Permutation_nil in P. subst. reflexivity.
Qed.
Lemma lmin_perm l l' : Permutation l l' -> lmin l = lmin l'.
Proof.
  intros P. destruct (lmin l) as [a|] eqn:E.
  - symmetry. apply lmin_spec. apply lmin_spec in E. apply (is_min_perm l l' a P E).
  - destruct l; [|discriminate]. apply Permutation_nil in P. subst. reflexivity.
Qed.
Lemma afc_perm polyfit n l l' a : Permutation l l' -> afc_init polyfit n l = Ok a ->
  exists b, afc_init polyfit n l' = Ok b /\ a_curve b = a_curve a /\ a_start b = a_start a /\ a_end b = a_end a /\ a_slope b = a_slope a /\ a_intercept b = a_intercept a /\ Permutation (a_data a) (a_data b).
Proof.
  intros P E. unfold afc_init in *. rewrite <- (nan_perm l l' P). destruct (existsb is_nan l); [discriminate|].
  assert (Q := measured_perm l l' P). destruct (measured l) as [|x r] eqn:M; [discriminate|]. destruct (measured l') as [|x' r'] eqn:M'; [apply Permutation_sym, Permutation_nil in Q; discriminate|].
  rewrite <- (curve_perm n _ _ Q). destruct (central _ _ _ _ _) as [i0|e]; [|discriminate]. cbn [rbind] in *.
  assert (X : forall (u v : afc), Ok u = Ok v -> u = v) by (intros u v Y; congruence). apply X in E. subst a. eexists. split; [reflexivity|]. cbn. auto 10.
Qed.
(** A curve is found for the moved area exactly when one is found for the area itself, and then all functional parameters agree, whatever
    order the sorting of the curve leaves equal heights in. *)
Theorem C114_functional : forall polyfit n ms (s t : area height) a, moved ms s t -> afc_init polyfit n (concat (points s)) = Ok a ->
  exists b, afc_init polyfit n (concat (points t)) = Ok b /\
  (forall p, mc (a_curve b) p = mc (a_curve a) p) /\ (forall ord z, mr ord (a_curve b) z = mr ord (a_curve a) z) /\
  afc_k b = afc_k a /\ (forall ord, mr1 ord b = mr1 ord a /\ mr2 ord b = mr2 ord a /\ pk ord b = pk ord a /\ vk ord b = vk ord a) /\
  (forall p q, dc b p q = dc a p q) /\ (forall p q, sxp b p q = sxp a p q) /\ (forall p, vmp b p = vmp a p) /\ (forall p q, vmc b p q = vmc a p q) /\ (forall q, vvv b q = vvv a q) /\ (forall p q, vvc b p q = vvc a p q) /\
  pkx b = pkx a /\ vkx b = vkx a.
Proof.
  intros polyfit n ms s t a H E. destruct (afc_perm polyfit n _ _ a (moved_permutation ms s t H) E) as (b & Eb & E1 & E2 & E3 & E4 & E5 & P).
  exists b. split; [exact Eb|]. unfold afc_k, mr1, mr2, pk, vk, mr1, mr2, dc, sxp, vmp, vmc, vvv, vvc, Vm, Vv, pkx, vkx, yupper, ylower. rewrite E1, E4, E5, (lmax_perm _ _ P), (lmin_perm _ _ P). auto 20.
Qed.

(** *** Step height and cavity volume *)
Lemma filter_perm {A} (p : A -> bool) l l' : Permutation l l' -> Permutation (List.filter p l) (List.filter p l').
Proof.
  induction 1 as [|x l l' P IH|x y l|l l' l'' P IH P' IH']; cbn [List.filter]; auto.
  - destruct (p x); auto.
  - destruct (p x), (p y); auto. apply perm_swap.
  - eapply Permutation_trans; eauto.
Qed.
Lemma counts_perm n lo hi l l' : Permutation l l' -> counts n lo hi l = counts n lo hi l'.
Proof. intros P. unfold counts. apply map_ext. intros b. f_equal. apply Permutation_length, filter_perm, P. Qed.
Lemma otsu_perm n l l' : Permutation l l' -> otsu_threshold n l = otsu_threshold n l'.
Proof.
  intros P. unfold otsu_threshold, hist_range. rewrite <- (lmin_perm _ _ P), <- (lmax_perm _ _ P).
  destruct (Nat.eqb n 0); [reflexivity|]. destruct (match lmin l with Some a => _ | None => _ end) as [lo hi]. cbn zeta. rewrite (counts_perm n lo hi _ _ P). reflexivity.
Qed.
Lemma select_map (f : height -> bool) l : select (map f l) l = List.filter f l.
Proof.
  unfold select. induction l as [|x l IH]; [reflexivity|]. cbn [map combine flat_map List.filter fst snd]. rewrite IH. destruct (f x); reflexivity.
Qed.
Lemma npmean_perm l l' : Permutation l l' -> npmean l = npmean l'.
Proof.
  intros P. unfold npmean, nanmean. rewrite <- (nan_perm _ _ P). destruct (existsb is_nan l); [reflexivity|]. assert (Q := measured_perm _ _ P).
  destruct (measured l) as [|x r]; [apply Permutation_nil in Q; rewrite Q; reflexivity|]. destruct (measured l') as [|x' r']; [apply Permutation_sym, Permutation_nil in Q; discriminate|]. rewrite (meanR_perm _ _ Q). reflexivity.
Qed.
Lemma npmedian_perm l l' : Permutation l l' -> npmedian l = npmedian l'.
Proof.
  intros P. unfold npmedian, nanmedian. rewrite <- (nan_perm _ _ P). destruct (existsb is_nan l); [reflexivity|]. assert (Q := measured_perm _ _ P).
  destruct (measured l) as [|x r]; [apply Permutation_nil in Q; rewrite Q; reflexivity|]. destruct (measured l') as [|x' r']; [apply Permutation_sym, Permutation_nil in Q; discriminate|]. rewrite (medianR_perm _ _ Q). reflexivity.
Qed.
Lemma upper_lower_perm l l' : Permutation l l' -> upper_lower l = upper_lower l'.
Proof.
  intros P. unfold upper_lower, get_mask. rewrite <- (otsu_perm 256 _ _ (measured_perm _ _ P)). destruct (otsu_threshold 256 (measured l)) as [th|e]; [|reflexivity]. cbn [rbind]. cbv zeta.
  set (f := fun h => hgt h (Some th)). rewrite !map_map. 
  assert (F : forall p : height -> bool, npmean (select (map p l) l) = npmean (select (map p l') l')) by (intros p; rewrite !select_map; apply npmean_perm, filter_perm, P).
  assert (G : forall p : height -> bool, npmedian (select (map p l) l) = npmedian (select (map p l') l')) by (intros p; rewrite !select_map; apply npmedian_perm, filter_perm, P).
  rewrite (F (fun x => negb (f x))), (F f). destruct (hgt _ _); cbn [rbind]; rewrite ?map_map; rewrite (G f), (G (fun x => negb (f x))) || rewrite (G (fun x => negb (f x))), (G (fun x => negb (negb (f x)))); reflexivity.
Qed.
Theorem C114_levels : forall ms (s t : area height), moved ms s t ->
  stepheight (concat (points t)) = stepheight (concat (points s)) /\ upper_lower (concat (points t)) = upper_lower (concat (points s)) /\
  forall threshold, cavity_volume (concat (points t)) threshold (dx t) (dy t) = cavity_volume (concat (points s)) threshold (dx s) (dy s).
Proof.
  intros ms s t H. assert (P := moved_permutation ms s t H). assert (U := upper_lower_perm _ _ P).
  assert (D : dx t * dy t = dx s * dy s).
  { clear P U. revert s t H. induction ms as [|m ms IH]; cbn [moved]; intros s t H; [subst; reflexivity|]. destruct H as (u & (_ & _ & M) & H). rewrite (IH u t H). destruct m; destruct M as (_ & _ & -> & -> & _); lra. }
  unfold cavity_volume, stepheight. rewrite <- U. split; [reflexivity|]. split; [reflexivity|]. intros th.
  destruct (upper_lower (concat (points s))) as [[u l]|e]; [|reflexivity]. cbn [rbind]. f_equal.
  set (depths := fun d => map (fun h => hsub u h) (List.filter (fun h => hgt (hsub u (hmul (Some th) (hsub u l))) h) d)).
  assert (Q : Permutation (depths (concat (points s))) (depths (concat (points t)))) by (apply Permutation_map, filter_perm, P).
  fold (depths (concat (points s))) (depths (concat (points t))). rewrite (nan_perm _ _ Q). destruct (existsb is_nan _); [reflexivity|].
  rewrite (sumR_perm _ _ (measured_perm _ _ Q)). f_equal. rewrite !Rmult_assoc, D. reflexivity.
Qed.

(** *** Sdq and the developed area *)
Lemma at_point (s : area R) i j : well_shaped s -> (i < n_rows s)%nat -> (j < n_cols s)%nat -> point_at s i j = Some (at_ (points s) i j).
Proof. intros W Hi Hj. apply point_nth; assumption. Qed.
Lemma sum_rev n (f : nat -> R) : sumR (map (fun i => f (n - 1 - i)%nat) (seq 0 n)) = sumR (map f (seq 0 n)).
Proof.
  rewrite (sumR_perm (map f (seq 0 n)) (map f (map (fun i => n - 1 - i)%nat (seq 0 n)))); [rewrite map_map; reflexivity|]. apply Permutation_map. apply NoDup_Permutation_bis.
  - apply seq_NoDup.
  - rewrite map_length. reflexivity.
  - intros i Hi. apply in_seq in Hi. apply in_map_iff. exists (n - 1 - i)%nat. split; [lia|]. apply in_seq. lia.
Qed.
Lemma dbl_rows n m F : dbl n m (fun i j => F (n - 1 - i)%nat j) = dbl n m F.
Proof. unfold dbl. apply (sum_rev n (fun i => sumR (map (fun j => F i j) (seq 0 m)))). Qed.
Lemma dbl_cols n m F : dbl n m (fun i j => F i (m - 1 - j)%nat) = dbl n m F.
Proof. unfold dbl. apply sumR_ext. intros i _. apply (sum_rev m (fun j => F i j)). Qed.
Lemma sum_exchange (li lj : list nat) F : sumR (map (fun i => sumR (map (fun j => F i j) lj)) li) = sumR (map (fun j => sumR (map (fun i => F i j) li)) lj).
Proof.
  induction li as [|i li IH]; cbn [map].
  - transitivity (INR (length lj) * 0); [unfold sumR; cbn [fold_right]; lra|]. rewrite <- sumR_map_const. reflexivity.
  - rewrite sumR_cons, IH, <- sumR_map_plus. apply sumR_ext. intros j _. rewrite sumR_cons. reflexivity.
Qed.
Lemma dbl_swap n m F : dbl n m F = dbl m n (fun i j => F j i).
Proof. apply sum_exchange. Qed.
Lemma moves_at m (s t : area R) : moves m s t -> forall i j, (i < n_rows t)%nat -> (j < n_cols t)%nat ->
  at_ (points t) i j = match m with Left_right => at_ (points s) i (n_cols s - 1 - j) | Top_bottom => at_ (points s) (n_rows s - 1 - i) j | Transposed => at_ (points s) j i end.
Proof.
  intros (Ws & Wt & M) i j Hi Hj. assert (P := at_point t i j Wt Hi Hj).
  destruct m; destruct M as (E1 & E2 & _ & _ & M); rewrite E1 in Hi; rewrite E2 in Hj; rewrite (M i j Hi Hj) in P; rewrite (at_point s _ _ Ws) in P by lia; congruence.
Qed.
Lemma moves_Sdq m (s t : area R) : moves m s t -> Sdq (points t) (n_rows t) (n_cols t) (dx t) (dy t) = Sdq (points s) (n_rows s) (n_cols s) (dx s) (dy s).
Proof.
  intros H. assert (At := moves_at m s t H). destruct H as (Ws & Wt & M).
  rewrite (Sdq_dbl _ _ _ _ _ Wt), (Sdq_dbl _ _ _ _ _ Ws). apply f_equal.
  assert (Area : INR (n_rows t) * INR (n_cols t) = INR (n_rows s) * INR (n_cols s)) by (clear At; destruct m; destruct M as (-> & -> & _); lra). rewrite Area. unfold Rdiv at 1 4. apply (f_equal (fun v => v * _)). clear Area.
  destruct m; destruct M as (E1 & E2 & E3 & E4 & _); rewrite E1, E2 in *; rewrite E3, E4; [f_equal|f_equal|].
  - rewrite <- (dbl_cols (n_rows s) (n_cols s - 1)). apply dbl_ext. intros i j Hi Hj. unfold dzx. rewrite !At by lia.
    replace (n_cols s - 1 - S (n_cols s - 1 - 1 - j))%nat with j by lia. replace (n_cols s - 1 - (n_cols s - 1 - 1 - j))%nat with (S j) by lia. unfold Rdiv. ring.
  - rewrite <- (dbl_cols (n_rows s - 1) (n_cols s)). apply dbl_ext. intros i j Hi Hj. unfold dzy. rewrite !At by lia.
    replace (n_cols s - 1 - (n_cols s - 1 - j))%nat with j by lia. reflexivity.
  - rewrite <- (dbl_rows (n_rows s) (n_cols s - 1)). apply dbl_ext. intros i j Hi Hj. unfold dzx. rewrite !At by lia.
    replace (n_rows s - 1 - (n_rows s - 1 - i))%nat with i by lia. reflexivity.
  - rewrite <- (dbl_rows (n_rows s - 1) (n_cols s)). apply dbl_ext. intros i j Hi Hj. unfold dzy. rewrite !At by lia.
    replace (n_rows s - 1 - S (n_rows s - 1 - 1 - i))%nat with i by lia. replace (n_rows s - 1 - (n_rows s - 1 - 1 - i))%nat with (S i) by lia. unfold Rdiv. ring.
  - rewrite Rplus_comm. f_equal.
    + rewrite dbl_swap. apply dbl_ext. intros i j Hi Hj. unfold dzx, dzy. rewrite !At by lia. reflexivity.
    + rewrite dbl_swap. apply dbl_ext. intros i j Hi Hj. unfold dzx, dzy. rewrite !At by lia. reflexivity.
Qed.
(** Sdq is the same for every mirror image and every turn. *)
Theorem C114_Sdq : forall ms (s t : area R), moved ms s t ->
  Sdq (points t) (n_rows t) (n_cols t) (dx t) (dy t) = Sdq (points s) (n_rows s) (n_cols s) (dx s) (dy s).
Proof.
  induction ms as [|m ms IH]; cbn [moved]; intros s t H; [subst; reflexivity|]. destruct H as (u & M & H). rewrite (IH u t H). apply (moves_Sdq m), M.
Qed.
(** The developed area and Sdr are the same after exchanging rows and columns ... *)
Theorem C114_transposed_area : forall s t : area R, moves Transposed s t ->
  surface_area (points t) (dx t) (dy t) = surface_area (points s) (dx s) (dy s) /\
  Sdr (points t) (n_rows t) (n_cols t) (dx t) (dy t) = Sdr (points s) (n_rows s) (n_cols s) (dx s) (dy s).
Proof.
  intros s t H. assert (At := moves_at _ s t H). destruct H as (Ws & Wt & E1 & E2 & E3 & E4 & _).
  assert (S : surface_area (points t) (dx t) (dy t) = surface_area (points s) (dx s) (dy s)).
  { rewrite (surface_area_dbl _ _ _ _ _ Wt), (surface_area_dbl _ _ _ _ _ Ws). f_equal. rewrite E1, E2 in *. rewrite E3, E4, dbl_swap. apply dbl_ext. intros i j Hi Hj.
    unfold dzx, dzy. rewrite !At by lia. unfold quad. apply f_equal, f_equal. ring. }
  split; [exact S|]. unfold Sdr. rewrite S. do 2 f_equal. unfold projected_area. rewrite E1, E2, E3, E4. ring.
Qed.
(** ... but not after mirroring: for every size and every step there is an area whose developed area differs from that of its mirror image. *)
Definition corner (r c : nat) (i j : nat) : R := if Nat.eqb i r && Nat.eqb j c then 1 else 0.
Lemma corner_moves (m : motion) ny nx sx sy : (2 <= ny)%nat -> (2 <= nx)%nat -> m <> Transposed ->
  exists r c, (r < ny)%nat /\ (c < nx)%nat /\ ~ (r = ny - 1 /\ c = nx - 1)%nat /\
  moves m (mkArea (table (corner r c) ny nx) ny nx sx sy) (mkArea (table (corner (ny - 1) (nx - 1)) ny nx) ny nx sx sy).
Proof.
  intros Hy Hx Hm. exists (match m with Top_bottom => 0 | _ => ny - 1 end)%nat, (match m with Left_right => 0 | _ => nx - 1 end)%nat.
  split; [destruct m; lia|]. split; [destruct m; lia|]. split; [destruct m; [lia|lia|congruence]|]. split; [apply table_shaped|]. split; [apply table_shaped|].
  destruct m; [| |congruence]; cbn [n_rows n_cols dx dy]; repeat split; auto; intros i j Hi Hj; rewrite !table_at by lia; f_equal; unfold corner;
    repeat match goal with |- context[Nat.eqb ?a ?b] => destruct (Nat.eqb_spec a b) end; cbn [andb]; try reflexivity; exfalso; lia.
Qed.
Lemma corner_at r c ny nx i j : (i < ny)%nat -> (j < nx)%nat -> at_ (table (corner r c) ny nx) i j = corner r c i j.
Proof.
  intros Hi Hj. assert (P := at_point _ i j (table_shaped (corner r c) ny nx 1 1) Hi Hj). rewrite table_at in P by assumption. cbn [points] in P. congruence.
Qed.
Lemma corner_area r c ny nx sx sy : (2 <= ny)%nat -> (2 <= nx)%nat -> 0 < sx -> 0 < sy -> (r < ny)%nat -> (c < nx)%nat ->
  (surface_area (table (corner r c) ny nx) sx sy = rectangle ny nx sx sy <-> (r = ny - 1 /\ c = nx - 1)%nat).
Proof.
  intros Hy Hx Sx Sy Hr Hc. rewrite (C24_equality_partial _ ny nx sx sy (table_shaped (corner r c) ny nx sx sy) Hy Hx Sx Sy). split.
  - intros C. destruct (Nat.eq_dec r (ny - 1)) as [Er|Er], (Nat.eq_dec c (nx - 1)) as [Ec|Ec]; [auto|exfalso..].
    + assert (X := C r c 0%nat 0%nat). cbn [points] in X; specialize (X ltac:(lia) ltac:(lia)). rewrite !corner_at in X by lia. unfold corner in X. rewrite !Nat.eqb_refl in X. cbn [andb] in X.
      destruct (Nat.eqb_spec 0 r); [lia|]. cbn [andb] in X. lra.
    + assert (X := C r c 0%nat 0%nat). cbn [points] in X; specialize (X ltac:(lia) ltac:(lia)). rewrite !corner_at in X by lia. unfold corner in X. rewrite !Nat.eqb_refl in X. cbn [andb] in X.
      destruct (Nat.eqb_spec 0 c); [lia|]. rewrite andb_false_r in X. lra.
    + destruct (Nat.eq_dec r 0) as [R0|R0].
      * assert (X := C r c 1%nat 0%nat). cbn [points] in X; specialize (X ltac:(lia) ltac:(lia)). rewrite !corner_at in X by lia. unfold corner in X. rewrite !Nat.eqb_refl in X. cbn [andb] in X.
        destruct (Nat.eqb_spec 1 r); [lia|]. cbn [andb] in X. lra.
      * assert (X := C r c 0%nat 0%nat). cbn [points] in X; specialize (X ltac:(lia) ltac:(lia)). rewrite !corner_at in X by lia. unfold corner in X. rewrite !Nat.eqb_refl in X. cbn [andb] in X.
        destruct (Nat.eqb_spec 0 r); [lia|]. cbn [andb] in X. lra.
  - cbn [points].  intros [-> ->] i j i' j' (Hi & Hj & N) (Hi' & Hj' & N'). rewrite !corner_at by assumption. unfold corner.
    destruct (Nat.eqb_spec i (ny - 1)), (Nat.eqb_spec j (nx - 1)), (Nat.eqb_spec i' (ny - 1)), (Nat.eqb_spec j' (nx - 1)); cbn [andb]; try reflexivity; lia.
Qed.
Theorem C114_mirror_area_refuted : forall m ny nx sx sy, m <> Transposed -> (2 <= ny)%nat -> (2 <= nx)%nat -> 0 < sx -> 0 < sy ->
  exists s t : area R, moves m s t /\ n_rows s = ny /\ n_cols s = nx /\ dx s = sx /\ dy s = sy /\
    surface_area (points t) (dx t) (dy t) < surface_area (points s) (dx s) (dy s).
Proof.
  intros m ny nx sx sy Hm Hy Hx Sx Sy. destruct (corner_moves m ny nx sx sy Hy Hx Hm) as (r & c & Hr & Hc & N & M).
  eexists. eexists. split; [exact M|]. cbn [points n_rows n_cols dx dy]. repeat split; auto.
  assert (A := proj2 (corner_area (ny - 1) (nx - 1) ny nx sx sy Hy Hx Sx Sy ltac:(lia) ltac:(lia)) (conj eq_refl eq_refl)). rewrite A.
  destruct (C24_lower_bound _ ny nx sx sy (table_shaped (corner r c) ny nx sx sy) Hy Hx Sx Sy) as [L|L]; [exact L|]. exfalso. apply N. apply (proj1 (corner_area r c ny nx sx sy Hy Hx Sx Sy Hr Hc)). symmetry. exact L.
Qed.
Theorem C114_mirror_Sdr_refuted : forall m ny nx sx sy, m <> Transposed -> (3 <= ny)%nat -> (3 <= nx)%nat -> 0 < sx -> 0 < sy ->
  exists (s t : area R) v w, moves m s t /\ n_rows s = ny /\ n_cols s = nx /\ dx s = sx /\ dy s = sy /\
    Sdr (points s) ny nx sx sy = Some v /\ Sdr (points t) ny nx sx sy = Some w /\ w < v.
Proof.
  intros m ny nx sx sy Hm Hy Hx Sx Sy. destruct (C114_mirror_area_refuted m ny nx sx sy Hm ltac:(lia) ltac:(lia) Sx Sy) as (s & t & M & E1 & E2 & E3 & E4 & L).
  assert (Pos : 0 < projected_area ny nx sx sy).
  { unfold projected_area. assert (3 <= INR ny) by (replace 3 with (INR 3) by (cbn; lra); apply le_INR; exact Hy). assert (3 <= INR nx) by (replace 3 with (INR 3) by (cbn; lra); apply le_INR; exact Hx). apply Rmult_lt_0_compat.
    - replace ((INR nx - 1) * sx - sx) with ((INR nx - 2) * sx) by ring. apply Rmult_lt_0_compat; lra.
    - replace ((INR ny - 1) * sy - sy) with ((INR ny - 2) * sy) by ring. apply Rmult_lt_0_compat; lra. }
  assert (D : dx t = sx /\ dy t = sy) by (destruct M as (_ & _ & M); destruct m; [| |congruence]; destruct M as (_ & _ & -> & -> & _); auto). destruct D as [D1 D2]. rewrite D1, D2, E3, E4 in L.
  unfold Sdr, ndiv. destruct (Req_EM_T (projected_area ny nx sx sy) 0) as [Z|Z]; [lra|]. cbn [option_map].
  exists s, t. eexists. eexists. split; [exact M|]. repeat split; auto.
  apply Rmult_lt_compat_r; [lra|]. apply Rplus_lt_compat_r. apply Rmult_lt_compat_r; [apply Rinv_0_lt_compat, Pos|exact L].
Qed.

(** *** The autocorrelation function of a moved area is the autocorrelation function moved in the same way *)
Definition acf_area (s : area height) (d : matrix) : area R := mkArea d (2 * n_rows s - 1) (2 * n_cols s - 1) (dx s) (dy s).
Lemma nodup_map_on {A B} (f : A -> B) l : NoDup l -> (forall a b, In a l -> In b l -> f a = f b -> a = b) -> NoDup (map f l).
Proof.
  induction 1 as [|c l H N IH]; intros I; cbn; constructor.
  - intros X. apply in_map_iff in X. destruct X as (c' & E & X). apply H. rewrite <- (I c' c (or_intror X) (or_introl eq_refl) E). exact X.
  - apply IH. intros a b Ha Hb. apply I; right; assumption.
Qed.
Definition heights_of (s : area height) (i j : nat) : R := at2 (matrix_of (points s)) i j.
Lemma as_grid (s : area height) : well_shaped s -> has_missing (points s) = false -> (0 < n_rows s)%nat -> points s = grid_of (heights_of s) (n_rows s) (n_cols s).
Proof.
  intros [L H] Hm Hr. assert (Hc : ncols (points s) = n_cols s) by (unfold ncols; destruct (points s) as [|r g]; [cbn in L; lia|apply H; left; reflexivity]).
  rewrite (C41_all_grids (points s)) at 1; [|intros r Hin; rewrite Hc; apply H, Hin|exact Hm]. unfold nrows. rewrite L, Hc. reflexivity.
Qed.
Lemma grid_point (s : area height) z i j : points s = grid_of z (n_rows s) (n_cols s) -> (i < n_rows s)%nat -> (j < n_cols s)%nat -> point_at s i j = Some (Some (z i j)).
Proof. intros E Hi Hj. unfold point_at. rewrite E. unfold grid_of. rewrite nth_error_map_seq by exact Hi. apply (nth_error_map_seq (fun j => Some (z i j))), Hj. Qed.
Definition origin (m : motion) (s : area height) (c : nat * nat) : nat * nat :=
  match m with Left_right => (fst c, n_cols s - 1 - snd c)%nat | Top_bottom => (n_rows s - 1 - fst c, snd c)%nat | Transposed => (snd c, fst c) end.
Definition origin_lag (m : motion) (l : Z * Z) : Z * Z :=
  match m with Left_right => (fst l, - snd l)%Z | Top_bottom => (- fst l, snd l)%Z | Transposed => (snd l, fst l) end.
Lemma enumerates_moved m (s t : area height) L l : moves m s t -> enumerates L (n_rows t) (n_cols t) (fst l) (snd l) ->
  enumerates (map (fun c => (origin m s (fst c), origin m s (snd c))) L) (n_rows s) (n_cols s) (fst (origin_lag m l)) (snd (origin_lag m l)).
Proof.
  intros (_ & _ & M) [N H]. destruct l as [ly lx]. cbn [fst snd] in *. split.
  - apply nodup_map_on; [exact N|]. intros [[i j] [k l]] [[i' j'] [k' l']] Hc Hc' E. apply H in Hc, Hc'. cbn [fst snd] in E.
    destruct m; destruct M as (E1 & E2 & _); rewrite E1, E2 in *; cbn [origin fst snd] in E; injection E as X1 X2 X3 X4; repeat f_equal; lia.
  - intros i j k l. rewrite in_map_iff. destruct m; destruct M as (E1 & E2 & _); rewrite E1, E2 in H; cbn [origin origin_lag fst snd] in *; split.
    + intros ([[a b] [c d]] & E & Hi). apply H in Hi. cbn [fst snd] in E. injection E as <- <- <- <-. lia.
    + intros (B & X & Y). exists ((i, n_cols s - 1 - j), (k, n_cols s - 1 - l))%nat. cbn [fst snd]. split; [repeat f_equal; lia|]. apply H. lia.
    + intros ([[a b] [c d]] & E & Hi). apply H in Hi. cbn [fst snd] in E. injection E as <- <- <- <-. lia.
    + intros (B & X & Y). exists ((n_rows s - 1 - i, j), (n_rows s - 1 - k, l))%nat. cbn [fst snd]. split; [repeat f_equal; lia|]. apply H. lia.
    + intros ([[a b] [c d]] & E & Hi). apply H in Hi. cbn [fst snd] in E. injection E as <- <- <- <-. lia.
    + intros (B & X & Y). exists ((j, i), (l, k)). cbn [fst snd]. split; [reflexivity|]. apply H. lia.
Qed.
Lemma acf_moves m (s t : area height) d : moves m s t -> (0 < n_rows s)%nat -> (0 < n_cols s)%nat -> acf_new (points s) = Ok d ->
  exists d', acf_new (points t) = Ok d' /\ moves m (acf_area s d) (acf_area t d').
Proof.
  intros M Hr Hc E. assert (P := moves_permutation m s t M). assert (EN := enumerates_moved m s t). 
  assert (Ms : has_missing (points s) = false) by (unfold acf_new in E; destruct (has_missing (points s)); [discriminate|reflexivity]).
  assert (Mt : has_missing (points t) = false) by (etransitivity; [symmetry; apply (nan_perm _ _ P)|exact Ms]).
  assert (Ht : (0 < n_rows t)%nat /\ (0 < n_cols t)%nat) by (destruct M as (_ & _ & M); destruct m; destruct M as (-> & -> & _); auto). destruct Ht as [Htr Htc].
  destruct M as (Ws & Wt & M0). assert (M : moves m s t) by (split; auto).
  assert (Gs := as_grid s Ws Ms Hr). assert (Gt := as_grid t Wt Mt Htr).
  assert (Et : exists d', acf_new (points t) = Ok d') by (unfold acf_new; rewrite Mt; eauto). destruct Et as [d' Et]. exists d'. split; [exact Et|].
  assert (Mean : mean_height (heights_of t) (n_rows t) (n_cols t) = mean_height (heights_of s) (n_rows s) (n_cols s)).
  { unfold mean_height. rewrite <- !measured_grid_of, <- Gs, <- Gt. apply meanR_perm, measured_perm, Permutation_sym, P. }
  assert (Zp : forall c, (fst c < n_rows t)%nat -> (snd c < n_cols t)%nat -> heights_of t (fst c) (snd c) = heights_of s (fst (origin m s c)) (snd (origin m s c))).
  { intros [i j] Hi Hj. cbn [fst snd] in *. assert (A := grid_point t _ i j Gt Hi Hj).
    assert (B : point_at t i j = point_at s (fst (origin m s (i, j))) (snd (origin m s (i, j)))) by (destruct m; destruct M0 as (X1 & X2 & _ & _ & X); rewrite X1, X2 in *; apply X; assumption).
    rewrite B in A. rewrite (grid_point s _ _ _ Gs) in A by (destruct m; destruct M0 as (X1 & X2 & _); rewrite X1, X2 in *; cbn [origin fst snd]; lia). congruence. }
  rewrite Gs in E. rewrite Gt in Et.
  destruct (C41_shape (heights_of s) (n_rows s) (n_cols s) Hr Hc d E) as [Ls Cs]. destruct (C41_shape (heights_of t) (n_rows t) (n_cols t) Htr Htc d' Et) as [Lt Ct].
  assert (Wd : well_shaped (acf_area s d)) by (split; assumption). assert (Wd' : well_shaped (acf_area t d')) by (split; assumption).
  assert (Lag : forall ly lx, (Z.abs ly < Z.of_nat (n_rows t))%Z -> (Z.abs lx < Z.of_nat (n_cols t))%Z ->
    at2 d' (Z.to_nat (Z.of_nat (n_rows t) - 1 + ly)) (Z.to_nat (Z.of_nat (n_cols t) - 1 + lx)) =
    at2 d (Z.to_nat (Z.of_nat (n_rows s) - 1 + fst (origin_lag m (ly, lx)))) (Z.to_nat (Z.of_nat (n_cols s) - 1 + snd (origin_lag m (ly, lx))))).
  { intros ly lx By Bx.
    assert (HE := pairs_enumerate (n_rows t) (n_cols t) (Z.to_nat (Z.of_nat (n_rows t) - 1 - ly)) (Z.to_nat (Z.of_nat (n_cols t) - 1 - lx)) ltac:(lia) ltac:(lia)).
    set (L := map _ _) in HE. replace (Z.of_nat (n_rows t) - 1 - Z.of_nat (Z.to_nat (Z.of_nat (n_rows t) - 1 - ly)))%Z with ly in HE by lia.
    replace (Z.of_nat (n_cols t) - 1 - Z.of_nat (Z.to_nat (Z.of_nat (n_cols t) - 1 - lx)))%Z with lx in HE by lia. clearbody L.
    rewrite (C41_lag _ _ _ Htr Htc d' ly lx L Et By Bx HE). assert (HS := EN L (ly, lx) M HE).
    assert (B1 : (Z.abs (fst (origin_lag m (ly, lx))) < Z.of_nat (n_rows s))%Z) by (clear - By Bx M0; destruct m; destruct M0 as (X1 & X2 & _); rewrite X1 in By; rewrite X2 in Bx; cbn [origin_lag fst snd]; lia).
    assert (B2 : (Z.abs (snd (origin_lag m (ly, lx))) < Z.of_nat (n_cols s))%Z) by (clear - By Bx M0; destruct m; destruct M0 as (X1 & X2 & _); rewrite X1 in By; rewrite X2 in Bx; cbn [origin_lag fst snd]; lia).
    rewrite (C41_lag _ _ _ Hr Hc d _ _ _ E B1 B2 HS).
    unfold products. rewrite map_map, Mean. apply meanR_ext. intros [[i j] [k l]] Hin. destruct HE as [_ HE]. apply HE in Hin. cbn [fst snd].
    assert (A1 := Zp (i, j) ltac:(cbn [fst snd]; lia) ltac:(cbn [fst snd]; lia)). assert (A2 := Zp (k, l) ltac:(cbn [fst snd]; lia) ltac:(cbn [fst snd]; lia)). cbn [fst snd] in A1, A2. rewrite A1, A2. reflexivity. }
  split; [exact Wd|]. split; [exact Wd'|].
  assert (Go : forall p q, (p < 2 * n_rows t - 1)%nat -> (q < 2 * n_cols t - 1)%nat -> point_at (acf_area t d') p q = Some (at2 d' p q)) by (intros p q Hp Hq; apply (point_nth (acf_area t d') 0 p q Wd' Hp Hq)).
  assert (Go' : forall p q, (p < 2 * n_rows s - 1)%nat -> (q < 2 * n_cols s - 1)%nat -> point_at (acf_area s d) p q = Some (at2 d p q)) by (intros p q Hp Hq; apply (point_nth (acf_area s d) 0 p q Wd Hp Hq)).
  destruct m; destruct M0 as (X1 & X2 & X3 & X4 & _); rewrite X1, X2 in *; cbn [acf_area n_rows n_cols dx dy]; repeat split; auto; intros i j Hi Hj;
    rewrite Go, Go' by lia; f_equal.
  - assert (Q := Lag (Z.of_nat i - (Z.of_nat (n_rows s) - 1))%Z (Z.of_nat j - (Z.of_nat (n_cols s) - 1))%Z ltac:(lia) ltac:(lia)). cbn [origin_lag fst snd] in Q.
    etransitivity; [etransitivity; [|exact Q]|]; f_equal; lia.
  - assert (Q := Lag (Z.of_nat i - (Z.of_nat (n_rows s) - 1))%Z (Z.of_nat j - (Z.of_nat (n_cols s) - 1))%Z ltac:(lia) ltac:(lia)). cbn [origin_lag fst snd] in Q.
    etransitivity; [etransitivity; [|exact Q]|]; f_equal; lia.
  - assert (Q := Lag (Z.of_nat i - (Z.of_nat (n_cols s) - 1))%Z (Z.of_nat j - (Z.of_nat (n_rows s) - 1))%Z ltac:(lia) ltac:(lia)). cbn [origin_lag fst snd] in Q.
    etransitivity; [etransitivity; [|exact Q]|]; f_equal; lia.
Qed.
Theorem C114_autocorrelation : forall ms (s t : area height) d, moved ms s t -> (0 < n_rows s)%nat -> (0 < n_cols s)%nat -> acf_new (points s) = Ok d ->
  exists d', acf_new (points t) = Ok d' /\ moved ms (acf_area s d) (acf_area t d').
Proof.
  induction ms as [|m ms IH]; cbn [moved]; intros s t d H Hr Hc E; [subst; eauto|]. destruct H as (u & M & H).
  destruct (acf_moves m s u d M Hr Hc E) as (e & Ee & Me).
  assert (Hu : (0 < n_rows u)%nat /\ (0 < n_cols u)%nat) by (destruct M as (_ & _ & M); destruct m; destruct M as (-> & -> & _); auto).
  destruct (IH u t e H (proj1 Hu) (proj2 Hu) Ee) as (d' & Ed & Md). exists d'. split; [exact Ed|]. eauto.
Qed.

(** *** A profile read from the other end *)
Lemma diff1_rev l : diff1 (rev l) = rev (map Ropp (diff1 l)).
Proof.
  apply nth_ext with (d := 0) (d' := 0); [rewrite diff1_length, !rev_length, map_length, diff1_length; reflexivity|].
  intros i Hi. rewrite diff1_length, rev_length in Hi. rewrite diff1_nth by (rewrite rev_length; lia). rewrite !rev_nth by (rewrite ?map_length, ?diff1_length; lia).
  rewrite map_length, diff1_length. replace 0 with (- 0) at 3 by lra. rewrite map_nth. rewrite diff1_nth by lia.
  replace (length l - S i)%nat with (S (length l - S (S i))) by lia. replace (S (length l - 1 - S i)) with (S (length l - S (S i))) by lia. replace (length l - 1 - S i)%nat with (length l - S (S i))%nat by lia. lra.
Qed.
Lemma sum_rev_map (f : R -> R) l : sumR (map f (rev l)) = sumR (map f l).
Proof. apply sumR_perm, Permutation_map, Permutation_sym, Permutation_rev. Qed.
Lemma mean_rev l : meanR (rev l) = meanR l.
Proof. apply meanR_perm, Permutation_sym, Permutation_rev. Qed.
Theorem C114_profile : forall z step,
  Ra (rev z) = Ra z /\ Rq (rev z) = Rq z /\ Rsk (rev z) = Rsk z /\ Rku (rev z) = Rku z /\ Rt (rev z) = Rt z /\ Rdq (rev z) step = Rdq z step.
Proof.
  intros z step. assert (Q : Rq (rev z) = Rq z) by (unfold Rq; rewrite mean_rev, rev_length, sum_rev_map; reflexivity).
  split; [unfold Ra; rewrite mean_rev, rev_length, sum_rev_map; reflexivity|]. split; [exact Q|].
  split; [unfold Rsk; rewrite Q, mean_rev, rev_length, sum_rev_map; reflexivity|]. split; [unfold Rku; rewrite Q, mean_rev, rev_length, sum_rev_map; reflexivity|].
  split; [unfold Rt; rewrite (lmax_perm _ _ (Permutation_sym (Permutation_rev z))), (lmin_perm _ _ (Permutation_sym (Permutation_rev z))); reflexivity|].
  unfold Rdq. rewrite diff1_rev, map_rev, mean_rev, map_map. f_equal. apply meanR_ext. intros x _. unfold Rdiv. ring.
Qed.
(** With sections of equal length Rp, Rv and Rz are the same from both ends ... *)
Lemma split_equal {A} k : (0 < k)%nat -> forall (a b : list (list A)), (forall p, In p a -> length p = k) -> (forall p, In p b -> length p = k) -> concat a = concat b -> a = b.
Proof.
  intros Hk. induction a as [|p a IH]; intros [|q b] Ha Hb E; auto.
  - exfalso. cbn in E. assert (L := Hb q (or_introl eq_refl)). destruct q; [cbn in L; lia|discriminate].
  - exfalso. cbn in E. assert (L := Ha p (or_introl eq_refl)). destruct p; [cbn in L; lia|discriminate].
  - cbn [concat] in E. assert (L : length p = length q) by (rewrite (Ha p), (Hb q) by (left; reflexivity); reflexivity).
    assert (E1 : p = q) by (apply (f_equal (firstn (length p))) in E; rewrite L in E at 2; rewrite !firstn_app, !firstn_all, !Nat.sub_diag, !firstn_O, !app_nil_r in E; exact E).
    subst q. apply app_inv_head in E. f_equal. apply IH; [intros x Hx; apply Ha; right; exact Hx|intros x Hx; apply Hb; right; exact Hx|exact E].
Qed.
Lemma concat_rev {A} (l : list (list A)) : concat (map (@rev A) (rev l)) = rev (concat l).
Proof. induction l as [|x l IH]; [reflexivity|]. cbn [rev concat]. rewrite map_app, concat_app, IH, rev_app_distr. cbn. rewrite app_nil_r. reflexivity. Qed.
Lemma sizes_all_equal {A} (l : list A) k n : length l = (n * k)%nat -> concat (split_sizes l (repeat k n)) = l /\ forall p, In p (split_sizes l (repeat k n)) -> length p = k.
Proof.
  revert l. induction n as [|n IH]; cbn [repeat split_sizes concat Nat.mul]; intros l L; [destruct l; [split; [reflexivity|intros p []]|discriminate]|].
  destruct (IH (skipn k l)) as [C B]; [rewrite skipn_length; lia|]. rewrite C. split; [apply firstn_skipn|]. intros p [<-|Hp]; [rewrite firstn_length; lia|apply B, Hp].
Qed.
Lemma sections_rev z n s : (1 <= n)%nat -> Nat.divide n (length z) -> sectioned_data z (Z.of_nat n) = Ok s -> sectioned_data (rev z) (Z.of_nat n) = Ok (map (@rev R) (rev s)).
Proof.
  intros Hn [k Hk] E. unfold sectioned_data in *. rewrite rev_length. destruct (Z.of_nat n <? 1)%Z; [discriminate|]. destruct (Z.ltb_spec (Z.of_nat (length z)) (Z.of_nat n)) as [H|H]; [discriminate|].
  apply (f_equal (fun r => match r with Ok x => x | Err _ => [] end)) in E. cbv beta iota in E. subst s. apply f_equal. rewrite Nat2Z.id, mean_rev.
  assert (Sz : section_sizes (length z) n = repeat k n) by (unfold section_sizes; rewrite Hk, Nat.mod_mul, Nat.div_mul, Nat.sub_0_r by lia; reflexivity). rewrite Sz.
  set (c := map (fun x => x - meanR z) z). assert (Lc : length c = (n * k)%nat) by (unfold c; rewrite map_length, Hk; lia).
  rewrite map_rev. fold c. destruct (sizes_all_equal c k n Lc) as [C1 B1]. destruct (sizes_all_equal (rev c) k n ltac:(rewrite rev_length; exact Lc)) as [C2 B2].
  assert (Kp : (0 < k)%nat) by nia.
  apply (split_equal k Kp); [exact B2| |rewrite concat_rev, C2, C1; reflexivity].
  intros p Hp. apply in_map_iff in Hp. destruct Hp as (q & <- & Hq). rewrite rev_length. apply B1. apply in_rev. exact Hq.
Qed.
Lemma mean_of_rev (f : list R -> R) s : (forall l, f (rev l) = f l) -> meanR (map f (map (@rev R) (rev s))) = meanR (map f s).
Proof. intros H. rewrite map_map, (map_ext _ f H), map_rev. apply mean_rev. Qed.
Theorem C114_sections : forall z n, (1 <= n)%nat -> Nat.divide n (length z) ->
  Rp (rev z) (Z.of_nat n) = Rp z (Z.of_nat n) /\ Rv (rev z) (Z.of_nat n) = Rv z (Z.of_nat n) /\ Rz (rev z) (Z.of_nat n) = Rz z (Z.of_nat n).
Proof.
  intros z n Hn D.
  assert (Gx : forall l, getmax (rev l) = getmax l) by (intros l; unfold getmax; rewrite (lmax_perm _ _ (Permutation_sym (Permutation_rev l))); reflexivity).
  assert (Gn : forall l, getmin (rev l) = getmin l) by (intros l; unfold getmin; rewrite (lmin_perm _ _ (Permutation_sym (Permutation_rev l))); reflexivity).
  unfold Rp, Rv, Rz. destruct (sectioned_data z (Z.of_nat n)) as [s|e] eqn:E.
  - rewrite (sections_rev z n s Hn D E). cbn [rbind]. rewrite !mean_of_rev; auto; intros l; rewrite ?Gx, ?Gn; reflexivity.
  - assert (E' : sectioned_data (rev z) (Z.of_nat n) = Err e); [|rewrite E'; auto].
    unfold sectioned_data in *. rewrite rev_length. destruct (Z.of_nat n <? 1)%Z; [exact E|]. destruct (Z.ltb_spec (Z.of_nat (length z)) (Z.of_nat n)); [exact E|discriminate].
Qed.
(** ... but not otherwise: the longer sections come first. *)
Theorem C114_sections_refuted : exists z n a b, (1 <= n <= Z.of_nat (length z))%Z /\ Rz z n = Ok a /\ Rz (rev z) n = Ok b /\ a < b.
Proof.
  exists [0; 0; 1], 2%Z, 0, (1 / 2). split; [cbn; lia|]. unfold Rz, sectioned_data. cbn [length rev app].
  change (2 <? 1)%Z with false. change (Z.of_nat 3 <? 2)%Z with false. cbv iota. change (Z.to_nat 2) with 2%nat. change (section_sizes 3 2) with [2; 1]%nat.
  cbn [map split_sizes firstn skipn rbind]. unfold getmax, getmin, lmax, lmin. cbn [maxR minR]. unfold meanR, sumR. cbn [map fold_right length INR]. 
  repeat split; try (apply f_equal); try lra; unfold Rmax, Rmin; repeat destruct (Rle_dec _ _); try lra.
Qed.

(** *** An instance: two rows of three points, turned to the left *)
Definition sample_points : list (list height) := [[Some 0; Some 3; Some 1]; [Some 7; Some 2; Some 5]].
Definition turned_points : list (list height) := [[Some 1; Some 5]; [Some 3; Some 2]; [Some 0; Some 7]].
Theorem C114_example : forall polyfit, let s := mkArea sample_points 2 3 1 2 in let t := mkArea turned_points 3 2 2 1 in
  quarter_turn s t /\ moved [Left_right; Transposed] s t /\ (exists d, acf_new (points s) = Ok d) /\ (exists a, afc_init polyfit 10000 (concat (points s)) = Ok a) /\
  stepheight (concat (points t)) = stepheight (concat (points s)).
Proof.
  intros polyfit s t. assert (Qt : quarter_turn s t).
  { split; [split; [reflexivity|intros r [<-|[<-|[]]]; reflexivity]|]. split; [split; [reflexivity|intros r [<-|[<-|[<-|[]]]]; reflexivity]|]. cbn [n_rows n_cols dx dy s t]. repeat split; auto.
    intros i j Hi Hj. destruct i as [|[|[|i]]], j as [|[|j]]; try lia; reflexivity. }
  assert (M := C114_quarter_turn _ s t Qt). split; [exact Qt|]. split; [exact M|]. split; [|split].
  - eexists. unfold acf_new, s. reflexivity.
  - apply (proj2 (C32_defined polyfit 10000 _)). split; [apply Nat.leb_le; reflexivity|]. split; [discriminate|cbn; intuition discriminate].
  - apply (C114_levels _ _ _ M).
Qed.
