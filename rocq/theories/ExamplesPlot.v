(** Concrete cases that meet the hypotheses of PropsPlot.v and PropsFplot.v. *)
From Coq Require Import String Reals List Bool Arith ZArith Lia Lra.
From Verif Require Import Base RList ModelMath ModelHeights ModelDetrend ModelGeom ModelAcf ModelFourier ModelPlot SpecPlot ProofGeom PropsAcf PropsPlot PropsFplot.
Import ListNotations.
Local Open Scope R_scope.

(** two rows of four points, 1/2 um by 2 um *)
Definition grid_e : grid := [[Some 0; Some 1; Some 0; Some (-1)]; [Some 1; Some 2; Some 1; Some 0]].
Definition surf_e : surf := mkSurf grid_e (1 / 2) 2.
(** the point in row 1 and column 3 is drawn 1.5 um from the left, at the bottom *)
Example C87_example : exists f, plot_2d (fun p : unit => 2%nat) surf_e [] "Topography" None = Ok f /\ f_colorbar f = true /\ in_cell (f_extent f) 2 4 1 3 (3 / 2) 0.
Proof.
  eexists. split; [reflexivity|]. split; [reflexivity|]. unfold in_cell. cbn -[Rmult Rplus Rdiv Rminus]. unfold extent, between. cbn. split; [left|right]; lra.
Qed.
Example C87_acf_example : exists d e, plot_autocorrelation grid_e (1 / 2) 2 = Ok (d, e) /\ in_cell e 3 7 0 6 (3 / 2) 2.
Proof.
  assert (R : rect grid_e) by (intros r [<-|[<-|[]]]; reflexivity). assert (E : exists d e, plot_autocorrelation grid_e (1 / 2) 2 = Ok (d, e)) by (unfold plot_autocorrelation; cbn [acf_new has_missing flat grid_e concat existsb is_nan app orb rbind]; do 2 eexists; reflexivity).
  destruct E as (d & e & E). exists d, e. split; [exact E|]. destruct (C87_autocorrelation grid_e (1 / 2) 2 d e 0 6 R ltac:(lra) ltac:(lra) ltac:(cbn; lia) ltac:(cbn; lia) E ltac:(cbn; lia) ltac:(cbn; lia)) as [_ C].
  cbn [nrows ncols grid_e length hd Nat.mul Nat.add Nat.sub] in C. cbn [INR] in C. match type of C with in_cell _ _ _ _ _ ?x ?y => replace x with (3 / 2) in C by lra; replace y with 2 in C by lra end. exact C.
Qed.
(** the same surface, frequencies up to 1/1.5 per um: columns -1, 0, 1 of the spectrum of 4 columns *)
Example C88_example : exists v e, plot_fourier grid_e (1 / 2) 2 true true true true (Some (2 / 3)) None = Ok (v, e).
Proof.
  destruct (C88_plot grid_e (1 / 2) 2 true true true true (Some (2 / 3)) None) as (v & e & _ & _ & _ & _ & H & _).
  - cbn; lia. - cbn; lia. - lra. - lra. - intros f [= <-]. split; [lra|exists 2%nat; reflexivity]. - intros f [=]. - exists v, e. exact H.
Qed.
(** three columns, one pixel of 1 um each *)
Definition grid_odd : grid := [[Some 0; Some 1; Some 0]; [Some 1; Some 2; Some 1]].
Example C88_refuted_example : plot_fourier grid_odd 1 1 true false true true (Some (1 / 8)) None = Err ValueError.
Proof. apply C88_small_refuted; try (cbn; lia); try lra; [exists 1%nat; reflexivity|]. unfold width. cbn. lra. Qed.
(** ten columns at half the detail: 8 um instead of 9 *)
Definition zoom_e (g : grid) (n m : nat) : grid := repeat (repeat (Some 0) m) n.
Lemma zoom_e_resizes : resizes zoom_e.
Proof. intros g n m. unfold zoom_e, nrows, ncols. rewrite repeat_length. split; [reflexivity|]. intros H. destruct n; [lia|]. cbn. apply repeat_length. Qed.
Definition surf_ten : surf := mkSurf (repeat (repeat (Some 0) 10) 10) 1 1.
Example C89_example : let t := detail zoom_e 50 surf_ten in extent (ncols (s_data t)) (s_sx t) = 8 /\ extent (ncols (s_data surf_ten)) (s_sx surf_ten) = 9.
Proof.
  intros t. assert (P : (0 < zoomed_length (nrows (s_data surf_ten)) (50 / 100))%nat).
  { apply INR_lt. rewrite zoomed_INR by lra. cbn [surf_ten s_data nrows repeat length]. replace (INR 10 * (50 / 100)) with (IZR 5) by (rewrite INR_IZR_INZ; change (Z.of_nat 10) with 10%Z; lra). rewrite pyround_IZR. cbn [INR]. lra. }
  destruct (C89_extent_refuted zoom_e 50 surf_ten 5 zoom_e_resizes ltac:(lra) ltac:(cbn; lra) P ltac:(cbn; lra)) as [H _]. fold t in H. split; [rewrite H; unfold extent; cbn; lra|unfold extent; cbn; lra].
Qed.
