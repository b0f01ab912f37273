(** C41, second part: the autocorrelation length Sal and the texture aspect ratio Str. *)
From Coq Require Import Reals List Bool Arith ZArith Lia Lra.
From Verif Require Import Base RList ModelMath ModelHeights ModelDetrend ModelGeom ModelAcf ProofMath ProofHeights ProofParams PropsFill PropsAcf.
Import ListNotations.
Local Open Scope R_scope.

(** *** Specification *)
(** ndimage.label on an n x m mask (default structure: the four neighbours): background cells are 0, the others carry
    the same label exactly when a path of neighbouring mask cells joins them *)
Definition inside (n m : nat) (e : nat * nat) : Prop := (fst e < n)%nat /\ (snd e < m)%nat.
Definition adjacent (e f : nat * nat) : Prop :=
  (fst e = fst f /\ (snd e = S (snd f) \/ snd f = S (snd e))) \/ (snd e = snd f /\ (fst e = S (fst f) \/ fst f = S (fst e))).
Inductive joined (n m : nat) (mask : nat -> nat -> bool) : nat * nat -> nat * nat -> Prop :=
| joined_self e : inside n m e -> mask (fst e) (snd e) = true -> joined n m mask e e
| joined_step e f g : joined n m mask e f -> adjacent f g -> inside n m g -> mask (fst g) (snd g) = true -> joined n m mask e g.
Definition labels (label : (nat -> nat -> bool) -> nat -> nat -> nat) (n m : nat) (mask : nat -> nat -> bool) : Prop :=
  (forall e, inside n m e -> (label mask (fst e) (snd e) = 0%nat <-> mask (fst e) (snd e) = false)) /\
  (forall e f, inside n m e -> inside n m f -> mask (fst e) (snd e) = true -> mask (fst f) (snd f) = true ->
     (label mask (fst e) (snd e) = label mask (fst f) (snd f) <-> joined n m mask e f)).
(** the centre of the autocorrelation array and the level at which correlation counts as lost *)
Definition centre (d : matrix) : nat * nat := (length d / 2, length (hd [] d) / 2)%nat.
Definition level_of (d : matrix) (s : R) : R := s * at2 d (fst (centre d)) (snd (centre d)).
Definition correlated (d : matrix) (s : R) (e : nat * nat) : Prop :=
  joined (length d) (length (hd [] d)) (fun i j => Rltb (level_of d s) (at2 d i j)) (centre d) e.
(** a point just outside the correlated region around the centre *)
Definition border (d : matrix) (s : R) (e : nat * nat) : Prop :=
  inside (length d) (length (hd [] d)) e /\ ~ correlated d s e /\ exists f, adjacent e f /\ correlated d s f.
Definition lag_length (sx sy : R) (d : matrix) (e : nat * nat) : R :=
  sqrt (((INR (fst e) - INR (fst (centre d))) * sy) ^ 2 + ((INR (snd e) - INR (snd (centre d))) * sx) ^ 2).
(** the k-th of 1000 equally spaced points from the centre to e, k from 0 to 999 *)
Definition on_line (d : matrix) (e : nat * nat) (k : nat) : R * R :=
  (INR (fst (centre d)) + INR k / 999 * (INR (fst e) - INR (fst (centre d))),
   INR (snd (centre d)) + INR k / 999 * (INR (snd e) - INR (snd (centre d)))).
(** [v] is the length of the part of the line up to the sample whose interpolated autocorrelation is closest to the level *)
Definition decays_at (spline : matrix -> R -> R -> R) (d : matrix) (s sx sy : R) (e : nat * nat) (v : R) : Prop :=
  exists k, (k <= 999)%nat /\ v = INR k / 999 * lag_length sx sy d e /\
    forall l, (l <= 999)%nat -> Rabs (spline d (fst (on_line d e k)) (snd (on_line d e k)) - level_of d s) <=
                               Rabs (spline d (fst (on_line d e l)) (snd (on_line d e l)) - level_of d s).

(** *** Proofs *)
Lemma in_argwhere n m b e : In e (argwhere n m b) <-> inside n m e /\ b (fst e) (snd e) = true.
Proof.
  unfold argwhere, inside. rewrite in_flat_map. split.
  - intros (i & Hi & He). apply in_map_iff in He. destruct He as (j & <- & Hj). apply filter_In in Hj. rewrite in_seq in *. cbn [fst snd]. split; [lia|tauto].
  - intros [[H1 H2] Hb]. exists (fst e). rewrite in_seq. split; [lia|]. apply in_map_iff. exists (snd e). split; [destruct e; reflexivity|]. apply filter_In. rewrite in_seq. split; [lia|exact Hb].
Qed.
Lemma nth_combine_lin {B} (f : R * R -> B) a b c e n k d : (k < n)%nat -> (1 < n)%nat ->
  nth k (map f (combine (linspace a b n) (linspace c e n))) d = f (a + INR k * ((b - a) / (INR n - 1)), c + INR k * ((e - c) / (INR n - 1))).
Proof.
  intros H H1. unfold linspace. replace (Nat.eqb n 1) with false by (symmetry; apply Nat.eqb_neq; lia).
  assert (G : forall l (u v : nat -> R), combine (map u l) (map v l) = map (fun i => (u i, v i)) l) by (intros l u v; induction l as [|x l IH]; cbn [map combine]; [reflexivity|rewrite IH; reflexivity]).
  rewrite G, map_map. rewrite nth_map_seq by exact H. reflexivity.
Qed.
Lemma length_combine_lin {B} (f : R * R -> B) a b c e n : length (map f (combine (linspace a b n) (linspace c e n))) = n.
Proof. rewrite map_length, combine_length. unfold linspace. rewrite !map_length, seq_length. apply Nat.min_id. Qed.
Lemma nth_lin a b n k : (k < n)%nat -> (1 < n)%nat -> nth k (linspace a b n) 0 = a + INR k * ((b - a) / (INR n - 1)).
Proof. intros H H1. unfold linspace. rewrite nth_map_seq by exact H. replace (Nat.eqb n 1) with false by (symmetry; apply Nat.eqb_neq; lia). reflexivity. Qed.
Lemma samples_R : INR SAMPLES - 1 = 999.
Proof. unfold SAMPLES. rewrite INR_IZR_INZ. change (Z.of_nat 1000) with 1000%Z. lra. Qed.
Lemma samples_lt k : (k < SAMPLES)%nat <-> (k <= 999)%nat.
Proof. unfold SAMPLES. lia. Qed.
Lemma decay_along_ok spline d s sx sy e len v : decay_along spline d (level_of d s) (centre d) e len = Ok v -> len = lag_length sx sy d e ->
  decays_at spline d s sx sy e v.
Proof.
  intros H ->. unfold decay_along in H. cbv zeta in H. destruct (argclosest _ _) as [k|er] eqn:E; cbn [rbind] in H; [|discriminate H].
  apply argclosest_spec in E. rewrite length_combine_lin in E. destruct E as (Hk & Hm & _).
  exists k. split; [apply samples_lt; exact Hk|]. rewrite nth_lin in H by (try exact Hk; unfold SAMPLES; lia). rewrite samples_R in H. split; [injection H as <-; lra|].
  intros l Hl. apply samples_lt in Hl. specialize (Hm l Hl). rewrite !nth_combine_lin in Hm by (try assumption; unfold SAMPLES; lia). rewrite !samples_R in Hm. cbn [fst snd] in Hm. unfold on_line. cbn [fst snd].
  replace (INR k / 999 * (INR (fst e) - INR (fst (centre d)))) with (INR k * ((INR (fst e) - INR (fst (centre d))) / 999)) by lra.
  replace (INR k / 999 * (INR (snd e) - INR (snd (centre d)))) with (INR k * ((INR (snd e) - INR (snd (centre d))) / 999)) by lra.
  replace (INR l / 999 * (INR (fst e) - INR (fst (centre d)))) with (INR l * ((INR (fst e) - INR (fst (centre d))) / 999)) by lra.
  replace (INR l / 999 * (INR (snd e) - INR (snd (centre d)))) with (INR l * ((INR (snd e) - INR (snd (centre d))) / 999)) by lra. exact Hm.
Qed.
Lemma best_in d l e : best d l = Ok e -> In e l.
Proof.
  unfold best. destruct (argmin _) as [i|er] eqn:E; cbn [rbind]; [|discriminate]. intros H. injection H as <-. apply argmin_spec in E. destruct E as (Hi & _). rewrite map_length in Hi. apply nth_In. exact Hi.
Qed.
Lemma all_min_in f l e : In e (all_min f l) -> In e l /\ forall e', In e' l -> f e <= f e'.
Proof.
  unfold all_min. destruct (lmin (map f l)) as [m|] eqn:E; [|intros []]. intros H. apply filter_In in H. destruct H as [H Hf]. split; [exact H|].
  destruct (Req_EM_T (f e) m) as [->|]; [|discriminate]. apply lmin_spec in E. destruct E as [_ E]. intros e' He'. apply E. apply in_map. exact He'.
Qed.
Lemma all_max_in f l e : In e (all_max f l) -> In e l /\ forall e', In e' l -> f e' <= f e.
Proof.
  unfold all_max. destruct (lmax (map f l)) as [m|] eqn:E; [|intros []]. intros H. apply filter_In in H. destruct H as [H Hf]. split; [exact H|].
  destruct (Req_EM_T (f e) m) as [->|]; [|discriminate]. apply lmax_spec in E. destruct E as [_ E]. intros e' He'. apply E. apply in_map. exact He'.
Qed.
Lemma distance_eq sx sy d e : distance sx sy (centre d) e = lag_length sx sy d e.
Proof. unfold distance, lag_length. f_equal. lra. Qed.
Lemma dilate_iff n m r i j : (i < n)%nat -> (j < m)%nat -> (dilate n m r i j = true <-> r i j = true \/ exists f, adjacent (i, j) f /\ inside n m f /\ r (fst f) (snd f) = true).
Proof.
  intros Hi Hj. unfold dilate. rewrite !orb_true_iff, !andb_true_iff, !Nat.ltb_lt. split.
  - intros [[[[H|[H H']]|[H H']]|[H H']]|[H H']]; [left; exact H|right..].
    + exists (S i, j). unfold adjacent, inside. cbn [fst snd]. repeat split; [right; lia|lia|lia|exact H'].
    + exists ((i - 1)%nat, j). unfold adjacent, inside. cbn [fst snd]. repeat split; [right; lia|lia|lia|exact H'].
    + exists (i, S j). unfold adjacent, inside. cbn [fst snd]. repeat split; [left; lia|lia|lia|exact H'].
    + exists (i, (j - 1)%nat). unfold adjacent, inside. cbn [fst snd]. repeat split; [left; lia|lia|lia|exact H'].
  - intros [H|([a b] & Ha & [H1 H2] & Hr)]; [tauto|]. cbn [fst snd] in *. destruct Ha as [[E [E'|E']]|[E [E'|E']]]; cbn [fst snd] in *; subst.
    + right. split; [lia|]. replace (S b - 1)%nat with b by lia. exact Hr.
    + left. right. split; [lia|exact Hr].
    + left. left. right. split; [lia|]. replace (S a - 1)%nat with a by lia. exact Hr.
    + left. left. left. right. split; [lia|exact Hr].
Qed.
Section Decay.
Variables (spline : matrix -> R -> R -> R) (label : (nat -> nat -> bool) -> nat -> nat -> nat) (d : matrix) (sx sy s : R).
Let n := length d.
Let m := length (hd [] d).
Let mask := fun i j => Rltb (level_of d s) (at2 d i j).
Hypothesis HL : labels label n m mask.
Hypothesis Hin : inside n m (centre d).
Hypothesis Hpos : level_of d s < at2 d (fst (centre d)) (snd (centre d)).
Lemma region_iff e : inside n m e -> (label mask (fst e) (snd e) = label mask (fst (centre d)) (snd (centre d)) <-> correlated d s e).
Proof.
  intros He. destruct HL as [H0 H1]. assert (Hc : mask (fst (centre d)) (snd (centre d)) = true) by (unfold mask, Rltb; destruct (Rlt_dec _ _); [reflexivity|contradiction]).
  destruct (mask (fst e) (snd e)) eqn:Em.
  - rewrite (H1 e (centre d) He Hin Em Hc). unfold correlated. fold n m. change (fun i j => Rltb (level_of d s) (at2 d i j)) with mask.
    assert (Sym : forall a b, joined n m mask a b -> joined n m mask b a).
    { assert (Tr : forall a b c, joined n m mask b c -> joined n m mask a b -> joined n m mask a c) by (intros a b c H; induction H as [|b f c H IH Ha Hi Hm]; intros H'; [exact H'|apply joined_step with (f := f); [apply IH; exact H'|exact Ha|exact Hi|exact Hm]]).
      assert (Adj : forall a b, adjacent a b -> adjacent b a) by (unfold adjacent; intros; lia).
      intros a b H. induction H as [|a f g H IH Ha Hi Hm]; [constructor; assumption|]. apply Tr with (b := f); [exact IH|].
      assert (Hf : inside n m f /\ mask (fst f) (snd f) = true) by (clear -H; inversion H; subst; split; assumption). destruct Hf as [Hf1 Hf2]. eapply joined_step; [apply joined_self; assumption|apply Adj; exact Ha|exact Hf1|exact Hf2]. }
    split; intros H; apply Sym; exact H.
  - split; intros H.
    + exfalso. apply (H0 e He) in Em. rewrite Em in H. symmetry in H. apply (H0 (centre d) Hin) in H. congruence.
    + exfalso. inversion H; subst; unfold mask in Em; congruence.
Qed.
Lemma edge_iff e : In e (argwhere (mrows d) (mcols d) (fun i j => xorb (Nat.eqb (label mask i j) (label mask (fst (centre d)) (snd (centre d))))
    (dilate (mrows d) (mcols d) (fun i j => Nat.eqb (label mask i j) (label mask (fst (centre d)) (snd (centre d)))) i j))) <-> border d s e.
Proof.
  rewrite in_argwhere. change (mrows d) with n. change (mcols d) with m. unfold border. fold n m. set (r := fun i j => Nat.eqb (label mask i j) (label mask (fst (centre d)) (snd (centre d)))).
  assert (Rr : forall f, inside n m f -> (r (fst f) (snd f) = true <-> correlated d s f)) by (intros f Hf; unfold r; rewrite Nat.eqb_eq; apply region_iff; exact Hf).
  change (Nat.eqb (label mask (fst e) (snd e)) (label mask (fst (centre d)) (snd (centre d)))) with (r (fst e) (snd e)).
  assert (Ci : forall f, correlated d s f -> inside n m f) by (intros f Hf; inversion Hf; subst; assumption).
  split; intros [He H]; (split; [exact He|]).
  - destruct (r (fst e) (snd e)) eqn:Er; cbn [xorb] in H.
    + exfalso. assert (D : dilate n m r (fst e) (snd e) = true) by (unfold dilate; rewrite Er; reflexivity). rewrite D in H. discriminate H.
    + split; [intros C; apply (Rr e He) in C; congruence|]. assert (H' : dilate n m r (fst e) (snd e) = true) by (destruct (dilate n m r (fst e) (snd e)); [reflexivity|discriminate H]). clear H. rename H' into H. apply dilate_iff in H; [|apply He|apply He]. destruct H as [H|(f & Ha & Hf & Hr)]; [congruence|]. exists f. split; [destruct e; exact Ha|]. apply Rr; assumption.
  - destruct H as [Hn (f & Ha & Hf)]. assert (Er : r (fst e) (snd e) = false) by (destruct (r (fst e) (snd e)) eqn:Er; [|reflexivity]; apply (Rr e He) in Er; contradiction).
    rewrite Er. assert (D : dilate n m r (fst e) (snd e) = true); [|rewrite D; reflexivity]. apply dilate_iff; [apply He|apply He|]. right. exists f. split; [destruct e; exact Ha|]. split; [apply Ci; exact Hf|]. apply Rr; [apply Ci|]; exact Hf.
Qed.
(** The two decay lengths are read off the lines from the centre to a nearest and to a farthest border point. *)
Theorem C41_decay (a b : R) : decay_lengths spline label d sx sy s = Ok (a, b) -> exists near far, border d s near /\ border d s far /\
  (forall e, border d s e -> lag_length sx sy d near <= lag_length sx sy d e <= lag_length sx sy d far) /\
  decays_at spline d s sx sy near a /\ decays_at spline d s sx sy far b.
Proof.
  intros H. unfold decay_lengths in H. cbv zeta in H. change (Nat.div (mrows d) 2, Nat.div (mcols d) 2) with (centre d) in H. change (s * point_data d (centre d)) with (level_of d s) in H.
  change (fun i j : nat => Rltb (level_of d s) (at2 d i j)) with mask in H.
  set (idx := argwhere _ _ _) in H. assert (Hi : forall e, In e idx <-> border d s e) by (intros e; apply edge_iff).
  destruct (best d (all_min (distance sx sy (centre d)) idx)) as [near|er] eqn:E1; cbn [rbind] in H; [|discriminate H].
  destruct (best d (all_max (distance sx sy (centre d)) idx)) as [far|er] eqn:E2; cbn [rbind] in H; [|discriminate H].
  destruct (decay_along spline d (level_of d s) (centre d) near _) as [u|er] eqn:E3; cbn [rbind] in H; [|discriminate H].
  destruct (decay_along spline d (level_of d s) (centre d) far _) as [v|er] eqn:E4; cbn [rbind] in H; [|discriminate H].
  injection H as <- <-. apply best_in, all_min_in in E1. apply best_in, all_max_in in E2. destruct E1 as [I1 M1], E2 as [I2 M2].
  exists near, far. split; [apply Hi; exact I1|]. split; [apply Hi; exact I2|]. split.
  - intros e He. apply Hi in He. specialize (M1 e He). specialize (M2 e He). rewrite !distance_eq in M1, M2. split; assumption.
  - split; eapply decay_along_ok; try eassumption; apply distance_eq.
Qed.
(** Sal is not negative and at most the distance to any border point; the slowest decay at most the largest of these. *)
Theorem C41_bounds (a b : R) : decay_lengths spline label d sx sy s = Ok (a, b) ->
  0 <= a /\ (forall e, border d s e -> a <= lag_length sx sy d e) /\ 0 <= b /\ exists e, border d s e /\ b <= lag_length sx sy d e.
Proof.
  intros H. destruct (C41_decay a b H) as (near & far & Hn & Hf & Hm & Da & Db).
  assert (G : forall e v, decays_at spline d s sx sy e v -> 0 <= v <= lag_length sx sy d e).
  { intros e v (k & Hk & -> & _). pose proof (sqrt_pos (((INR (fst e) - INR (fst (centre d))) * sy) ^ 2 + ((INR (snd e) - INR (snd (centre d))) * sx) ^ 2)) as P. fold (lag_length sx sy d e) in P.
    assert (0 <= INR k / 999 <= 1). { apply le_INR in Hk. rewrite (INR_IZR_INZ 999) in Hk. change (Z.of_nat 999) with 999%Z in Hk. pose proof (pos_INR k). lra. }
    nra. }
  apply G in Da, Db. split; [lra|]. split; [intros e He; specialize (Hm e He); lra|]. split; [lra|]. exists far. split; [exact Hf|lra].
Qed.
(** They are defined as soon as there is a border point. *)
Theorem C41_defined e : border d s e -> exists a b, decay_lengths spline label d sx sy s = Ok (a, b).
Proof.
  intros He. unfold decay_lengths. cbv zeta. change (Nat.div (mrows d) 2, Nat.div (mcols d) 2) with (centre d). change (s * point_data d (centre d)) with (level_of d s).
  change (fun i j : nat => Rltb (level_of d s) (at2 d i j)) with mask.
  set (idx := argwhere _ _ _). assert (Hi : In e idx) by (apply edge_iff; exact He).
  assert (A : forall l, In e l -> exists x, best d (all_min (distance sx sy (centre d)) l) = Ok x /\ exists y, best d (all_max (distance sx sy (centre d)) l) = Ok y).
  { intros l Hl. assert (Bs : forall l', l' <> [] -> exists x, best d l' = Ok x) by (intros l' Hl'; unfold best; destruct (argmin_ok (map (point_data d) l')) as [i Ei]; [destruct l'; [congruence|discriminate]|rewrite Ei; cbn [rbind]; eexists; reflexivity]).
    assert (Ne : map (distance sx sy (centre d)) l <> []) by (destruct l; [destruct Hl|discriminate]).
    destruct (Bs (all_min (distance sx sy (centre d)) l)) as [x Ex].
    { unfold all_min. destruct (lmin_ex _ Ne) as [mn Emn]. rewrite Emn. apply lmin_spec in Emn. destruct Emn as [I _]. apply in_map_iff in I. destruct I as (e' & E' & I').
      intros C. assert (X : In e' []); [|destruct X]. eapply eq_ind with (P := fun t => In e' t); [|exact C]. apply filter_In. split; [exact I'|]. destruct (Req_EM_T _ _); [reflexivity|contradiction]. }
    destruct (Bs (all_max (distance sx sy (centre d)) l)) as [y Ey].
    { unfold all_max. destruct (lmax_ex _ Ne) as [mx Emx]. rewrite Emx. apply lmax_spec in Emx. destruct Emx as [I _]. apply in_map_iff in I. destruct I as (e' & E' & I').
      intros C. assert (X : In e' []); [|destruct X]. eapply eq_ind with (P := fun t => In e' t); [|exact C]. apply filter_In. split; [exact I'|]. destruct (Req_EM_T _ _); [reflexivity|contradiction]. }
    eauto. }
  destruct (A idx Hi) as (x & Ex & y & Ey). rewrite Ex, Ey. cbn [rbind].
  assert (D : forall e' len, exists v, decay_along spline d (level_of d s) (centre d) e' len = Ok v).
  { intros e' len. unfold decay_along. cbv zeta. match goal with |- context [argclosest ?t ?l] => destruct (argclosest_ok t l) as [i Ei] end.
    - intros C. apply (f_equal (@length R)) in C. rewrite length_combine_lin in C. discriminate C.
    - rewrite Ei. cbn [rbind]. eexists. reflexivity. }
  destruct (D x (distance sx sy (centre d) x)) as [u Eu]. destruct (D y (distance sx sy (centre d) y)) as [v Ev]. rewrite Eu, Ev. cbn [rbind]. eauto.
Qed.
(** Sal is the distance of decay towards the nearest border point; Str its ratio to that towards the farthest one. *)
Theorem C41_Sal (v : R) : Sal spline label d sx sy s = Ok v -> exists near, border d s near /\
  (forall e, border d s e -> lag_length sx sy d near <= lag_length sx sy d e) /\ decays_at spline d s sx sy near v.
Proof.
  unfold Sal. intros H. destruct (decay_lengths spline label d sx sy s) as [[a b]|] eqn:E; [|discriminate H]. cbn in H.
  assert (a = v) as -> by congruence. destruct (C41_decay v b E) as (near & far & Hn & Hf & Hm & Da & Db).
  exists near. split; [exact Hn|]. split; [intros e He; apply (Hm e He) | exact Da].
Qed.
Theorem C41_Str (o : option R) : Str spline label d sx sy s = Ok o -> exists a b far, Sal spline label d sx sy s = Ok a /\ border d s far /\
  (forall e, border d s e -> lag_length sx sy d e <= lag_length sx sy d far) /\ decays_at spline d s sx sy far b /\
  (b = 0 -> o = None) /\ (b <> 0 -> o = Some (a / b)).
Proof.
  unfold Str, Sal. intros H. destruct (decay_lengths spline label d sx sy s) as [[a b]|] eqn:E; [|discriminate H]. cbn in H.
  destruct (C41_decay a b E) as (near & far & Hn & Hf & Hm & Da & Db). exists a, b, far. split; [reflexivity|]. split; [exact Hf|].
  split; [intros e He; apply (Hm e He)|]. split; [exact Db|]. destruct (Req_EM_T b 0) as [Z|Z]; split; intros Z'; try contradiction; congruence.
Qed.
End Decay.
