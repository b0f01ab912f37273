(** Concrete cases meeting the hypotheses of the C91 theorems. *)
From Coq Require Import String Reals List Bool Arith ZArith Lra Lia.
From Verif Require Import Base RList ModelMath ModelHeights ModelParams ModelDetrend SpecDetrend ModelStep ModelAfc ModelAbbottPlot ProofStep ProofAfc PropsAfc PropsAfc2 PropsAbbottPlot.
Import ListNotations.
Local Open Scope R_scope.

Definition four_heights : list R := [0; 1; 2; 4].
(** two bars over 0, 1, 2, 4: the upper shows the half of the points from 2 on, and the lower adds the rest *)
Example abbott_bars_four : is_min 0 four_heights /\ is_max 4 four_heights /\ exists bars, abbott_bars 2 four_heights = Ok bars /\
  sumR (map b_length (firstn 1 bars)) = 50 /\ sumR (map b_length bars) = 100.
Proof.
  assert (L : is_min 0 four_heights) by (split; [left; reflexivity|]; intros y [<-|[<-|[<-|[<-|[]]]]]; lra).
  assert (U : is_max 4 four_heights) by (split; [do 3 right; left; reflexivity|]; intros y [<-|[<-|[<-|[<-|[]]]]]; lra).
  split; [exact L|split; [exact U|]]. destruct (C91_bars 2 four_heights 0 4 ltac:(lia) L U ltac:(lra)) as (bars & E & _). exists bars. split; [exact E|].
  destruct (C91_cumulative 2 four_heights 0 4 bars 0 ltac:(lia) L U ltac:(lra) E ltac:(lia)) as (A & B & _). split; [|exact B]. rewrite A. unfold share, four_heights.
  replace (4 - INR 1 * ((4 - 0) / INR 2)) with 2 by (cbn [INR]; field). cbn [List.filter].
  rewrite (proj2 (Rleb_false 2 0) ltac:(lra)), (proj2 (Rleb_false 2 1) ltac:(lra)), (proj2 (Rleb_spec 2 2) ltac:(lra)), (proj2 (Rleb_spec 2 4) ltac:(lra)). cbn [length INR]. field.
Qed.
(** the study is drawn: the plateau of C33_ratio_order_refuted *)
Example study_drawn : exists data ord, sorter_ok ord /\ forall polyfit, lsq_contract polyfit -> exists f, parameter_study polyfit ord 21 data = Ok (Some f).
Proof.
  destruct C33_ratio_order_refuted as (ord & data & Ho & _ & H). exists data, ord. split; [exact Ho|]. intros polyfit HP. destruct (H polyfit HP) as (a & E & M).
  destruct (C33_ratios_range _ _ _ _ _ Ho (proj1 (Nat.leb_le 2 21) eq_refl) E) as [R1 R2]. unfold parameter_study. rewrite E. cbn [rbind].
  destruct (C35_defined ord a) as [D1 D2]. destruct (pk ord a) as [p|]; [|apply proj1 in D1; specialize (D1 eq_refl); lra].
  destruct (vk ord a) as [v|]; [|apply proj1 in D2; specialize (D2 eq_refl); lra]. eexists. reflexivity.
Qed.
