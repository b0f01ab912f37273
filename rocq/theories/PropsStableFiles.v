(** C108, continued: the parameters of a surface survive being written to a file and read back. *)
From Coq Require Import String Ascii ZArith Lia Bool Reals Lra.
From Coq Require Import List.
From Flocq Require Import Core.Core.
From Flocq Require Import IEEE754.BinarySingleNaN IEEE754.Binary IEEE754.Bits.
From Verif Require Import Base ModelBytes SpecBytes ProofBytes PropsLayout ModelUnits ProofFloat ModelSur ProofSur ProofCodec ProofSurHeader ProofSurReal ModelFormats PropsTmd PropsSdf PropsAl3d PropsSur ModelSflz ProofSflz ProofSflzReal PropsSflz.
From Verif Require ModelParams PropsStable.
Import ListNotations.
Local Open Scope R_scope.

(** *** Specification *)
(** the heights of a surface, as numbers; no point is missing *)
Definition points (g : list (list f64)) : list R := map R64 (concat g).
Definition complete (g : list (list f64)) : Prop := forall x, In x (concat g) -> isnan x = false.
(** Sa, Sq, Sp, Sv and Sz of both exist and differ by at most 2 e *)
Definition same_parameters (e : R) (g g' : list (list f64)) : Prop := exists p p',
  ModelParams.height_parameters (points g) = Ok p /\ ModelParams.height_parameters (points g') = Ok p' /\
  Rabs (ModelParams.Sa p' - ModelParams.Sa p) <= 2 * e /\ Rabs (ModelParams.Sq p' - ModelParams.Sq p) <= 2 * e /\
  Rabs (ModelParams.Sp p' - ModelParams.Sp p) <= 2 * e /\ Rabs (ModelParams.Sv p' - ModelParams.Sv p) <= 2 * e /\
  Rabs (ModelParams.Sz p' - ModelParams.Sz p) <= 2 * e.
(** no height is larger than H *)
Definition up_to (H : R) (g : list (list f64)) : Prop := forall x, In x (concat g) -> Rabs (R64 x) <= H.

Lemma grid_within (P : f64 -> f64 -> Prop) e g g' : (forall x x', In x (concat g) -> P x x' -> Rabs (R64 x' - R64 x) <= e) ->
  Forall2 (Forall2 P) g g' -> PropsStable.within e (points g) (points g').
Proof.
  intros K H. unfold points, PropsStable.within. induction H as [|r r' g g' C H IH]; [constructor|]. cbn [concat]. rewrite !map_app. apply Forall2_app.
  - assert (K' : forall x x', In x r -> P x x' -> Rabs (R64 x' - R64 x) <= e) by (intros; apply K; [cbn; apply in_or_app; left|]; assumption).
    clear K IH. induction C as [|x x' r r' C1 C IH]; cbn; constructor; [apply K'; [left; reflexivity|exact C1]|apply IH; intros; apply K'; [right|]; assumption].
  - apply IH. intros; apply K; [cbn; apply in_or_app; right|]; assumption.
Qed.
Lemma same_by (P : f64 -> f64 -> Prop) e g g' : concat g <> [] -> (forall x x', In x (concat g) -> P x x' -> Rabs (R64 x' - R64 x) <= e) ->
  Forall2 (Forall2 P) g g' -> same_parameters e g g'.
Proof.
  intros N K H. pose proof (grid_within P e g g' K H) as W.
  assert (E : exists p, ModelParams.height_parameters (points g) = Ok p).
  { unfold ModelParams.height_parameters. set (c := map _ (points g)). assert (Nc : c <> []) by (unfold c, points; destruct (concat g); [congruence|discriminate]).
    destruct (RList.lmin_ex c Nc) as [a ->]. destruct (RList.lmax_ex c Nc) as [b ->]. eexists. reflexivity. }
  destruct E as [p E]. destruct (PropsStable.C108_height e _ _ p W E) as (p' & E' & R). exists p, p'. split; [exact E|]. split; [exact E'|]. exact R.
Qed.
Lemma shaped_ne s : shaped s -> concat (rdata s) <> [].
Proof.
  intros [A B C]. unfold rows, cols in *. destruct (rdata s) as [|[|x r] g]; cbn in *; try lia. discriminate.
Qed.

(** SDF, binary *)
Theorem C108_sdf : forall scale_of convert rest r s create_date mod_date H,
  scale_ok scale_of -> compatible Utf8 r -> shaped s -> (Z.of_nat (cols s) < 65536)%Z -> (Z.of_nat (rows s) < 65536)%Z ->
  ordinary s -> step_ok (rstep_x s) -> step_ok (rstep_y s) -> date_ok create_date -> date_ok mod_date -> complete (rdata s) -> up_to H (rdata s) ->
  exists b s', write_sdf scale_of s create_date mod_date = Ok b /\ read_sdf convert rest r (open_rb b) = Ok s' /\
    same_parameters (bpow radix2 (-49) * H + bpow radix2 (-900)) (rdata s) (rdata s').
Proof.
  intros scale_of convert rest r s d1 d2 H A1 A2 A3 A4 A5 A6 A7 A8 A9 A10 Hc Hh.
  destruct (C48_binary scale_of convert rest r s d1 d2 A1 A2 A3 A4 A5 A6 A7 A8 A9 A10) as (b & s' & W & R & D & _).
  exists b, s'. split; [exact W|]. split; [exact R|]. apply (same_by near); [apply shaped_ne, A3| |exact D].
  intros x x' Hx N. unfold near in N. rewrite (Hc x Hx) in N. destruct N as [_ N]. eapply Rle_trans; [exact N|].
  apply Rplus_le_compat_r, Rmult_le_compat_l; [apply bpow_ge_0|apply Hh, Hx].
Qed.
(** Alicona *)
Theorem C108_al3d : forall ft w r s H,
  float_text_ok ft -> w <> Auto -> shaped s -> (Z.of_nat (cols s) < 10 ^ 30)%Z -> (Z.of_nat (rows s) < 10 ^ 30)%Z ->
  step_ok (rstep_x s) -> step_ok (rstep_y s) -> complete (rdata s) -> Forall fin64 (concat (rdata s)) -> up_to H (rdata s) -> H <= bpow radix2 99 ->
  exists b s', write_al3d ft w s = Ok b /\ read_al3d ft r (open_rb b) = Ok s' /\
    same_parameters (bpow radix2 (-21) * H + bpow radix2 (-128)) (rdata s) (rdata s').
Proof.
  intros ft w r s H A1 A2 A3 A4 A5 A6 A7 Hc Hf Hh HH.
  destruct (C50_roundtrip ft w r s A1 A2 A3 A4 A5 A6 A7) as (b & s' & W & R & D & _).
  exists b, s'. split; [exact W|]. split; [exact R|]. apply (same_by micron_single); [apply shaped_ne, A3| |exact D].
  intros x x' Hx N. unfold micron_single in N. rewrite (Hc x Hx) in N. rewrite Forall_forall in Hf. destruct (N (Hf x Hx)) as [_ N']; [eapply Rle_trans; [apply Hh, Hx|exact HH]|].
  eapply Rle_trans; [exact N'|]. apply Rplus_le_compat_r, Rmult_le_compat_l; [apply bpow_ge_0|apply Hh, Hx].
Qed.
Lemma single_by H g g' : concat g <> [] -> complete g -> Forall fin64 (concat g) -> up_to H g -> H <= bpow radix2 127 -> Forall2 (Forall2 as_single) g g' ->
  same_parameters (bpow radix2 (-24) * H + bpow radix2 (-150)) g g'.
Proof.
  intros N Hc Hf Hh HH D. apply (same_by as_single); [exact N| |exact D]. intros x x' Hx K. unfold as_single in K. rewrite (Hc x Hx) in K. rewrite Forall_forall in Hf.
  destruct K as [_ ->]; [split; [apply Hf, Hx|eapply Rle_trans; [apply Hh, Hx|exact HH]]|]. eapply Rle_trans; [apply rnd32_err|].
  apply Rplus_le_compat_r, Rmult_le_compat_l; [apply bpow_ge_0|apply Hh, Hx].
Qed.
(** TrueMap *)
Theorem C108_tmd : forall en s comment H,
  shaped s -> (Z.of_nat (cols s) < 2 ^ 32)%Z -> (Z.of_nat (rows s) < 2 ^ 32)%Z -> step_ok (rstep_x s) -> step_ok (rstep_y s) ->
  ascii comment -> (length comment <= 21)%nat -> complete (rdata s) -> Forall fin64 (concat (rdata s)) -> up_to H (rdata s) -> H <= bpow radix2 127 ->
  exists b s', write_tmd en s comment = Ok b /\ read_tmd (open_rb b) = Ok s' /\
    same_parameters (bpow radix2 (-24) * H + bpow radix2 (-150)) (rdata s) (rdata s').
Proof.
  intros en s comment H A1 A2 A3 A4 A5 A6 A7 Hc Hf Hh HH.
  destruct (C49_roundtrip_partial en s comment A1 A2 A3 A4 A5 A6 A7) as (b & s' & W & R & D & _).
  exists b, s'. split; [exact W|]. split; [exact R|]. apply single_by; auto. apply shaped_ne, A1.
Qed.
(** the native format: doubles keep the parameters exactly, singles and unsigned integers up to their resolution *)
Theorem C108_sflz_float : forall c cast s (layers : list layer) n_meta comp (save : bool) dt (rl : bool) H, lossless (c_zlib c) -> lossless (c_lzma c) ->
  dt = F8 \/ dt = F4 -> saveable c comp s (if save then layers else []) n_meta (store cast dt s) -> concat (rdata s) <> [] ->
  complete (rdata s) -> Forall fin64 (concat (rdata s)) -> up_to H (rdata s) -> H <= bpow radix2 127 ->
  exists b r hs, write_sflz c cast s layers n_meta comp save dt = Ok b /\ read_sflz c rl (open_rb b) = Ok r /\ sf_heights r = Some hs /\
    (dt = F8 -> same_parameters 0 (rdata s) hs) /\ (dt = F4 -> same_parameters (bpow radix2 (-24) * H + bpow radix2 (-150)) (rdata s) hs).
Proof.
  intros c cast s layers n_meta comp save dt rl H A1 A2 A3 A4 N Hc Hf Hh HH.
  destruct (C47_float c cast s layers n_meta comp save dt rl A1 A2 A3 A4) as (b & r & hs & W & R & E & _ & _ & _ & D8 & D4).
  exists b, r, hs. split; [exact W|]. split; [exact R|]. split; [exact E|]. split; intros F.
  - rewrite (D8 F). apply (same_by eq); [exact N| |].
    + intros x x' _ <-. rewrite Rminus_diag_eq, Rabs_R0 by reflexivity. apply Rle_refl.
    + generalize (rdata s). intros g. induction g as [|row g IH]; constructor; [|exact IH]. clear. induction row; constructor; auto.
  - apply single_by; auto.
Qed.
Theorem C108_sflz_uint : forall c cast s (layers : list layer) n_meta comp (save : bool) n (rl : bool) lo hi, lossless (c_zlib c) -> lossless (c_lzma c) ->
  cast_ok cast -> (n = 1 \/ n = 2 \/ n = 4)%nat -> saveable c comp s (if save then layers else []) n_meta (store cast (U n) s) ->
  Forall small (concat (rdata s)) -> lowest s lo -> highest s hi -> bpow radix2 (-90) <= hi - lo ->
  exists b r hs, write_sflz c cast s layers n_meta comp save (U n) = Ok b /\ read_sflz c rl (open_rb b) = Ok r /\ sf_heights r = Some hs /\
    same_parameters ((hi - lo) / IZR (2 ^ (8 * Z.of_nat n) - 1) + bpow radix2 (-47) * Rmax (Rabs lo) (Rabs hi)) (rdata s) hs.
Proof.
  intros c cast s layers n_meta comp save n rl lo hi A1 A2 A3 A4 A5 A6 A7 A8 A9.
  destruct (C47_uint c cast s layers n_meta comp save n rl lo hi A1 A2 A3 A4 A5 A6 A7 A8 A9) as (b & r & hs & W & R & E & _ & _ & _ & D).
  exists b, r, hs. split; [exact W|]. split; [exact R|]. split; [exact E|]. eapply same_by; [| |exact D].
  - destruct A7 as [(x & Hx & _) _]. intros Z. rewrite Z in Hx. exact Hx.
  - cbn beta. intros x x' _ [_ K]. exact K.
Qed.
(** Digital Surf *)
Theorem C108_sur : forall z lower w r t s comment cb lo hi,
  lower_ok lower -> compatible w r -> good_time t -> good_surface s -> encode w comment = Ok cb -> (zlen cb < 2 ^ 15)%Z -> complete (rdata s) ->
  In lo (concat (rdata s)) -> In hi (concat (rdata s)) -> (forall y, In y (concat (rdata s)) -> R64 lo <= R64 y <= R64 hi) -> bpow radix2 (-90) <= R64 hi - R64 lo ->
  exists b s', write_sur z w t s false comment = Ok b /\ read_sur z lower r (open_rb b) = Ok s' /\
    same_parameters (bpow radix2 (-23) * Rmax (Rabs (R64 lo)) (Rabs (R64 hi)) + 2 * ((R64 hi - R64 lo) / 4294967292)) (rdata s) (rdata s').
Proof.
  intros z lower w r t s comment cb lo hi A1 A2 A3 A4 A5 A6 Hc Hlo Hhi Hr HD.
  destruct (C45_roundtrip_partial z lower w r t s comment cb lo hi A1 A2 A3 A4 A5 A6) as (b & s' & W & R & D & _).
  - apply measured_in; auto.
  - apply measured_in; auto.
  - intros y Hy. apply Hr. apply in_measured in Hy. apply Hy.
  - exact HD.
  - exists b, s'. split; [exact W|]. split; [exact R|]. eapply same_by; [| |exact D].
    + intros Z. rewrite Z in Hlo. exact Hlo.
    + intros x x' Hx K. unfold kept in K. rewrite (Hc x Hx) in K. apply K.
Qed.

(** *** Example: a 2 x 2 surface without a gap meets the hypotheses; the contracts of the writers are met by the examples of C45 to C50 *)
Example C108_file_example : let s := {| rdata := [[f64_of_Z 1; f64_of_Z 2]; [f64_of_Z (-7); f64_of_Z 3]]; rstep_x := f64_of_Z 1; rstep_y := f64_of_Z 2 |} in
  shaped s /\ complete (rdata s) /\ Forall fin64 (concat (rdata s)) /\ up_to 7 (rdata s) /\ 7 <= bpow radix2 99 /\ ordinary s /\ step_ok (rstep_x s) /\ step_ok (rstep_y s).
Proof.
  intros s. assert (S : forall n, (Z.abs n <= 8)%Z -> fin64 (f64_of_Z n) /\ R64 (f64_of_Z n) = IZR n).
  { intros n Hn. destruct (f64_of_Z_ok n) as [E F]; [change (2 ^ 53)%Z with 9007199254740992%Z; lia|]. auto. }
  assert (A : forall x, In x (concat (rdata s)) -> exists n, x = f64_of_Z n /\ (Z.abs n <= 7)%Z).
  { intros x [<-|[<-|[<-|[<-|[]]]]]; eexists; (split; [reflexivity|cbn; lia]). }
  assert (C : complete (rdata s)) by (intros x Hx; destruct (A x Hx) as (n & -> & Hn); apply isnan_int; change (2 ^ 53)%Z with 9007199254740992%Z; lia).
  destruct C48_example as (_ & _ & S1 & S2 & _).
  split; [constructor; [apply le_n_S, Nat.le_0_l|apply le_n_S, Nat.le_0_l|repeat constructor]|]. split; [exact C|].
  assert (B7 : 7 <= bpow radix2 99) by (apply Rle_trans with (bpow radix2 3); [change (bpow radix2 3) with 8; lra|apply bpow_le; lia]).
  assert (U : up_to 7 (rdata s)) by (intros x Hx; destruct (A x Hx) as (n & -> & Hn); destruct (S n ltac:(lia)) as [_ ->]; rewrite <- abs_IZR; apply IZR_le, Hn).
  assert (F : Forall fin64 (concat (rdata s))) by (apply Forall_forall; intros x Hx; destruct (A x Hx) as (n & -> & Hn); apply S; lia).
  split; [exact F|]. split; [exact U|]. split; [exact B7|]. split; [|split; [exact S1|exact S2]].
  rewrite Forall_forall in F. split.
  - apply Forall_forall. intros x Hx. apply in_measured in Hx as [Hx _]. split; [apply F, Hx|]. apply Rle_trans with 7; [apply U, Hx|]. apply Rle_trans with (bpow radix2 99); [exact B7|apply bpow_le; lia].
  - right. exists (f64_of_Z 1). split; [apply measured_in; [left; reflexivity|apply C; left; reflexivity]|]. destruct (S 1%Z ltac:(lia)) as [_ ->]. rewrite <- abs_IZR. change (IZR (Z.abs 1)) with (bpow radix2 0). apply bpow_le. lia.
Qed.
