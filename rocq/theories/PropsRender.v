(** C106: the picture of a static 3d plot shows the whole rendering and the whole colour bar. *)
From Coq Require Import String List Bool Arith ZArith Lia.
From Verif Require Import Base ModelRender.
Import ListNotations.
Local Open Scope nat_scope.

(** *** Specification *)
(** the small picture is seen in the big one, [dx] columns from its left border and at the same rows *)
Definition seen (big small : image) (dx : nat) : Prop :=
  dx + width small <= width big /\ height small <= height big /\ forall x y, x < width small -> y < height small -> px big (dx + x) y = px small x y.
(** every pixel of the columns from [a] to below [b] is white *)
Definition blank (im : image) (a b : nat) : Prop := forall x y, a <= x < b -> x < width im -> y < height im -> px im x y = (255, 255, 255)%Z.
(** some pixel of this column is not white *)
Definition used (im : image) (x : nat) : Prop := exists y, y < height im /\ px im x y <> (255, 255, 255)%Z.

Lemma is_white_spec p : is_white p = true <-> p = (255, 255, 255)%Z.
Proof.
  destruct p as [[r g] b]. unfold is_white. rewrite !andb_true_iff, !Z.eqb_eq. split.
  - intros [[A B] C]. f_equal; [f_equal|]; lia.
  - intros E. injection E as -> -> ->. repeat split; reflexivity.
Qed.
Lemma used_columns_spec im x : In x (used_columns im) <-> x < width im /\ used im x.
Proof.
  unfold used_columns. rewrite filter_In, in_seq, existsb_exists. split.
  - intros [Hx (y & Hy & W)]. split; [lia|]. exists y. apply in_seq in Hy. split; [lia|]. intros E. apply is_white_spec in E. rewrite E in W. discriminate.
  - intros [Hx (y & Hy & W)]. split; [lia|]. exists y. rewrite in_seq. split; [lia|]. destruct (is_white _) eqn:E; [apply is_white_spec in E; contradiction | reflexivity].
Qed.
Lemma not_used im x : x < width im -> ~ used im x -> blank im x (S x).
Proof.
  intros Hx N x' y Hx' _ Hy. assert (x' = x) by lia. subst. destruct (is_white (px im x y)) eqn:E; [apply is_white_spec; exact E|].
  exfalso. apply N. exists y. split; [exact Hy|]. intros W. apply is_white_spec in W. congruence.
Qed.

(** increasing lists: the head is the smallest, the last the largest element *)
Fixpoint increasing (l : list nat) : Prop := match l with [] => True | x :: l' => (forall y, In y l' -> x < y) /\ increasing l' end.
Lemma seq_increasing n : forall a, increasing (seq a n).
Proof. induction n as [|n IH]; intros a; [exact I|]. cbn. split; [intros y Hy; apply in_seq in Hy; lia | apply IH]. Qed.
Lemma filter_increasing f l : increasing l -> increasing (filter f l).
Proof.
  induction l as [|x l IH]; [tauto|]. intros [H1 H2]. cbn. destruct (f x); [|apply IH; exact H2]. split; [|apply IH; exact H2].
  intros y Hy. apply filter_In in Hy. apply H1. tauto.
Qed.
Lemma last_in (l : list nat) x : In (last l x) (x :: l).
Proof. revert x. induction l as [|a l IH]; intros x; [left; reflexivity|]. destruct l as [|b l]; [right; left; reflexivity|]. change (last (a :: b :: l) x) with (last (b :: l) x). specialize (IH x). destruct IH as [E|E]; [left; exact E|right; right; exact E]. Qed.
Lemma last_max (l : list nat) : forall x, increasing (x :: l) -> forall y, In y (x :: l) -> y <= last l x.
Proof.
  induction l as [|a l IH]; intros x [H1 H2] y Hy.
  - destruct Hy as [<-|[]]. cbn. lia.
  - assert (E : last (a :: l) x = last l a). { clear. revert a x. induction l as [|b l IH]; intros a x; [reflexivity|]. change (last (a :: b :: l) x) with (last (b :: l) x). rewrite IH. symmetry. rewrite IH. reflexivity. }
    rewrite E. destruct Hy as [<-|Hy]; [|apply IH; assumption]. specialize (IH a H2 a (or_introl eq_refl)). specialize (H1 a (or_introl eq_refl)). lia.
Qed.
Lemma bbox_none im : getbbox im = None -> blank im 0 (width im).
Proof.
  unfold getbbox. destruct (used_columns im) as [|x0 l] eqn:E; [|discriminate]. intros _ x y Hx Hx' Hy.
  apply (not_used im x Hx'); [|lia|assumption|assumption]. intros U. assert (In x (used_columns im)) by (apply used_columns_spec; tauto). rewrite E in H. contradiction.
Qed.
Lemma bbox_some im l r : getbbox im = Some (l, r) -> l < r <= width im /\ blank im 0 l /\ blank im r (width im) /\ used im l /\ used im (r - 1).
Proof.
  unfold getbbox. destruct (used_columns im) as [|x0 u] eqn:E; [discriminate|]. intros [= <- <-].
  assert (Inc : increasing (x0 :: u)) by (rewrite <- E; apply filter_increasing, seq_increasing).
  assert (U : forall x, In x (x0 :: u) <-> x < width im /\ used im x) by (intros x; rewrite <- E; apply used_columns_spec).
  pose proof (last_in u x0) as L. pose proof (last_max u x0 Inc) as M. pose proof (proj1 (U _) L) as [L1 L2]. pose proof (proj1 (U x0) (or_introl eq_refl)) as [F1 F2].
  split; [specialize (M x0 (or_introl eq_refl)); lia|]. split; [|split; [|split]].
  - intros x y Hx Hx' Hy. apply (not_used im x Hx'); [|lia|assumption|assumption]. intros Ux. destruct (proj2 (U x) (conj Hx' Ux)) as [<-|Hin]; [lia|]. destruct Inc as [I1 _]. specialize (I1 x Hin). lia.
  - intros x y Hx Hx' Hy. apply (not_used im x Hx'); [|lia|assumption|assumption]. intros Ux. specialize (M x (proj2 (U x) (conj Hx' Ux))). lia.
  - exact F2.
  - replace (S (last u x0) - 1) with (last u x0) by lia. exact L2.
Qed.

(** Cropping removes columns at the left and at the right that are white throughout, all of them, and no row; what remains is unchanged. A
    picture that is white throughout is left alone. *)
Theorem C106_crop (shot : image) : exists l, seen shot (crop_borders shot) l /\ height (crop_borders shot) = height shot /\
  blank shot 0 l /\ blank shot (l + width (crop_borders shot)) (width shot) /\
  (blank shot 0 (width shot) -> crop_borders shot = shot) /\
  (~ blank shot 0 (width shot) -> 0 < width (crop_borders shot) /\ used (crop_borders shot) 0 /\ used (crop_borders shot) (width (crop_borders shot) - 1)).
Proof.
  unfold crop_borders. destruct (getbbox shot) as [[l r]|] eqn:E.
  - apply bbox_some in E as (LR & B1 & B2 & U1 & U2). exists l. cbn [crop width height]. split; [|split; [reflexivity|split; [exact B1|split; [replace (l + (r - l)) with r by lia; exact B2|split]]]].
    + split; [cbn; lia|]. split; [cbn; lia|]. intros x y _ _. reflexivity.
    + intros W. destruct U1 as (y & Hy & N). exfalso. apply N. apply W; lia.
    + intros _. split; [lia|]. split.
      * destruct U1 as (y & Hy & N). exists y. cbn. replace (l + 0) with l by lia. auto.
      * destruct U2 as (y & Hy & N). exists y. cbn. replace (l + (r - l - 1)) with (r - 1) by lia. auto.
  - apply bbox_none in E. exists 0. split; [|split; [reflexivity|split; [|split; [|split; [reflexivity|contradiction]]]]].
    + split; [lia|]. split; [lia|]. reflexivity.
    + intros x y H. lia.
    + intros x y H. lia.
Qed.

Section Render.
Variable resampled : image -> nat -> nat -> nat -> nat -> pixel.
Notation picture := (picture resampled).
Notation plot_3d := (plot_3d resampled).

(** Side by side: with a padding that is not negative the rendering, [pad] white columns and the colour bar, scaled to the height of the
    rendering with its proportions (to less than a column), follow one another and nothing else is in the picture. *)
Theorem C106_colorbar (shot cb : image) (white_off : bool) (pad : nat) : 0 < height shot -> 0 < height cb -> height cb <= width cb * height shot ->
  let im := if white_off then crop_borders shot else shot in
  exists p bar, picture shot cb white_off true (Z.of_nat pad) = Ok p /\
    height p = height shot /\ height bar = height shot /\ width p = width im + pad + width bar /\
    seen p im 0 /\ blank p (width im) (width im + pad) /\ seen p bar (width im + pad) /\
    px bar = resampled cb (width bar) (height bar) /\
    width bar * height cb <= width cb * height shot < (width bar + 1) * height cb.
Proof.
  intros Hs Hc Hw im. assert (Him : height im = height shot). { unfold im. destruct white_off; [|reflexivity]. destruct (C106_crop shot) as (l & _ & H & _). exact H. }
  unfold ModelRender.picture. fold im. unfold resize. rewrite Him. destruct (Nat.eqb_spec (height cb) 0); [lia|].
  set (w := Nat.div (width cb * height shot) (height cb)). assert (W : w <> 0). { unfold w. intros Z. apply Nat.div_small_iff in Z; lia. }
  destruct (Nat.eqb_spec w 0); [contradiction|]. destruct (Nat.eqb_spec (height shot) 0); [lia|]. cbn [orb rbind]. set (bar := mkImg w (height shot) (resampled cb w (height shot))).
  unfold side_by_side, new. rewrite Him. destruct (Z.ltb_spec (Z.of_nat (width im) + Z.of_nat (width bar) + Z.of_nat pad) 0) as [L|L]; [lia|]. cbn [rbind].
  eexists. exists bar. split; [reflexivity|]. unfold paste, seen, blank. cbn [width height px]. change (width bar) with w. change (height bar) with (height shot).
  assert (D : w * height cb <= width cb * height shot < (w + 1) * height cb).
  { unfold w. pose proof (Nat.div_mod (width cb * height shot) (height cb) ltac:(lia)). pose proof (Nat.mod_upper_bound (width cb * height shot) (height cb) ltac:(lia)). nia. }
  split; [reflexivity|]. split; [reflexivity|]. split; [lia|]. split; [|split; [|split; [|split; [reflexivity|exact D]]]].
  - split; [lia|]. split; [lia|]. intros x y Hx Hy.
    destruct (Z.leb_spec (Z.of_nat (width im) + Z.of_nat pad) (Z.of_nat (0 + x))) as [A|A]; [lia|]. cbn [andb].
    destruct (Z.leb_spec 0 (Z.of_nat (0 + x))) as [B|B]; [|lia]. destruct (Z.ltb_spec (Z.of_nat (0 + x)) (0 + Z.of_nat (width im))) as [C|C]; [|lia]. cbn [andb].
    rewrite Him in *. destruct (Nat.ltb_spec y (height shot)); [|lia]. f_equal. lia.
  - intros x y Hx _ Hy. destruct (Z.leb_spec (Z.of_nat (width im) + Z.of_nat pad) (Z.of_nat x)) as [A|A]; [lia|]. cbn [andb].
    destruct (Z.leb_spec 0 (Z.of_nat x)) as [B|B]; [|lia]. destruct (Z.ltb_spec (Z.of_nat x) (0 + Z.of_nat (width im))) as [C|C]; [lia|]. reflexivity.
  - split; [lia|]. split; [lia|]. intros x y Hx Hy.
    destruct (Z.leb_spec (Z.of_nat (width im) + Z.of_nat pad) (Z.of_nat (width im + pad + x))) as [A|A]; [|lia].
    destruct (Z.ltb_spec (Z.of_nat (width im + pad + x)) (Z.of_nat (width im) + Z.of_nat pad + Z.of_nat w)) as [B|B]; [|lia]. cbn [andb].
    destruct (Nat.ltb_spec y (height shot)); [|lia]. f_equal. lia.
Qed.
(** So no coloured pixel of the rendering is lost: it is in the picture, moved by the same number of columns as every other. *)
Theorem C106_nothing_lost (shot cb : image) (white_off colorbar : bool) (pad : nat) : 0 < height shot -> 0 < height cb -> height cb <= width cb * height shot ->
  exists p l, picture shot cb white_off colorbar (Z.of_nat pad) = Ok p /\ height p = height shot /\
    forall x y, x < width shot -> y < height shot -> px shot x y <> (255, 255, 255)%Z -> exists x', x = l + x' /\ x' < width p /\ px p x' y = px shot x y.
Proof.
  intros Hs Hc Hw. set (im := if white_off then crop_borders shot else shot).
  assert (L : exists l, seen shot im l /\ height im = height shot /\ blank shot 0 l /\ blank shot (l + width im) (width shot)).
  { unfold im. destruct white_off.
    - destruct (C106_crop shot) as (l & S1 & H & B1 & B2 & _). exists l. tauto.
    - exists 0. split; [repeat split; lia|]. split; [reflexivity|]. split; intros x y H; lia. }
  destruct L as (l & S1 & H & B1 & B2).
  assert (P : exists p, picture shot cb white_off colorbar (Z.of_nat pad) = Ok p /\ height p = height shot /\ seen p im 0).
  { destruct colorbar.
    - destruct (C106_colorbar shot cb white_off pad Hs Hc Hw) as (p & bar & E & Hp & _ & _ & S2 & _). exists p. auto.
    - exists im. split; [reflexivity|]. split; [exact H|]. repeat split; lia. }
  destruct P as (p & E & Hp & (W2 & _ & S2)). exists p, l. split; [exact E|]. split; [exact Hp|]. intros x y Hx Hy N.
  destruct (Nat.lt_ge_cases x l) as [A|A]; [exfalso; apply N; apply B1; lia|]. destruct (Nat.lt_ge_cases x (l + width im)) as [B|B]; [|exfalso; apply N; apply B2; lia].
  exists (x - l). split; [lia|]. split; [lia|]. destruct S1 as (_ & _ & S1). specialize (S2 (x - l) y ltac:(lia) ltac:(lia)). cbn in S2. rewrite S2. rewrite <- (S1 (x - l) y) by lia. f_equal. lia.
Qed.

(** A negative padding is accepted and draws the colour bar over the rendering: the last columns of the rendering are lost. *)
Theorem C106_overlap_refuted (shot cb : image) (k : nat) : 0 < height shot -> height cb = height shot -> 0 < width cb -> 0 < k <= width cb -> k <= width shot ->
  exists p, picture shot cb false true (- Z.of_nat k) = Ok p /\
    forall x y, width shot - k <= x < width shot -> y < height shot -> px p x y = resampled cb (width cb) (height cb) (x - (width shot - k)) y.
Proof.
  intros Hs Hc Hw Hk Hk'. unfold ModelRender.picture, resize. rewrite Hc. rewrite Nat.div_mul by lia.
  destruct (Nat.eqb_spec (height shot) 0); [lia|]. destruct (Nat.eqb_spec (width cb) 0); [lia|]. cbn [orb rbind].
  unfold side_by_side, new. cbn [width height]. destruct (Z.ltb_spec (Z.of_nat (width shot) + Z.of_nat (width cb) + - Z.of_nat k) 0) as [L|L]; [lia|]. cbn [rbind].
  eexists. split; [reflexivity|]. intros x y Hx Hy. unfold paste. cbn [width height px].
  destruct (Z.leb_spec (Z.of_nat (width shot) + - Z.of_nat k) (Z.of_nat x)) as [A|A]; [|lia].
  destruct (Z.ltb_spec (Z.of_nat x) (Z.of_nat (width shot) + - Z.of_nat k + Z.of_nat (width cb))) as [B|B]; [|lia]. cbn [andb].
  destruct (Nat.ltb_spec y (height shot)); [|lia]. f_equal. lia.
Qed.

(** A static plot returns the picture and saves that same picture under the name asked for, if any; an interactive one returns None, and
    asking it to save is a ValueError. *)
Theorem C106_save (shot cb : image) (crop_white colorbar : bool) (pad : Z) :
  (forall name, name <> ""%string -> plot_3d shot cb crop_white colorbar pad (Some name) true = Err ValueError) /\
  (forall name, name = None \/ name = Some ""%string -> plot_3d shot cb crop_white colorbar pad name true = Ok (None, None)) /\
  (forall name p, picture shot cb crop_white colorbar pad = Ok p -> name <> ""%string ->
     plot_3d shot cb crop_white colorbar pad (Some name) false = Ok (Some p, Some (name, p)) /\ plot_3d shot cb crop_white colorbar pad None false = Ok (Some p, None)).
Proof.
  unfold ModelRender.plot_3d, truthy. split; [|split].
  - intros name H. apply String.eqb_neq in H. rewrite H. reflexivity.
  - intros name [-> | ->]; reflexivity.
  - intros name p E H. rewrite E. apply String.eqb_neq in H. rewrite H. split; reflexivity.
Qed.
End Render.

(** a rendering of 6 x 2 pixels, black at (2, 0) and (3, 1), and a red colour bar of 1 x 1 pixels, resampled by repetition *)
Definition ex_shot : image := mkImg 6 2 (fun x y => if (Nat.eqb x 2 && Nat.eqb y 0) || (Nat.eqb x 3 && Nat.eqb y 1) then (0, 0, 0)%Z else (255, 255, 255)%Z).
Definition ex_bar : image := mkImg 1 1 (fun _ _ => (255, 0, 0)%Z).
Definition ex_resampled (im : image) (w h x y : nat) : pixel := px im 0 0.
Definition rows (im : image) : list (list pixel) := map (fun y => map (fun x => px im x y) (seq 0 (width im))) (seq 0 (height im)).
Theorem C106_example : let W := (255, 255, 255)%Z in let B := (0, 0, 0)%Z in let R := (255, 0, 0)%Z in
  match picture ex_resampled ex_shot ex_bar true true 1 with Ok p => rows p = [[B; W; W; R; R]; [W; B; W; R; R]] | Err _ => False end /\
  (0 < height ex_shot /\ 0 < height ex_bar /\ height ex_bar <= width ex_bar * height ex_shot)%nat.
Proof. split; [vm_compute; reflexivity|]. cbn. lia. Qed.
