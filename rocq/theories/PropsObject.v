(** C97: what accompanies the heights of a surface or profile. *)
From Coq Require Import String Reals List Bool Arith ZArith Lra Lia.
From Verif Require Import Base RList ModelMath ModelHeights ModelGeom ModelObject.
Import ListNotations.
Local Open Scope R_scope.

Section Props.
Context {M : Type}.
Implicit Types (o : sobj M) (r : rawobj M).

(** Surface.load: heights, pixel sizes, metadata and pictures are those the reader returned, the layer names in the order of the file; the extents fit. *)
Theorem C97_load r : let o := fst (from_raw_surface r) in
  s_data (o_surf o) = r_data r /\ s_sx (o_surf o) = r_sx r /\ s_sy (o_surf o) = r_sy r /\ o_meta o = r_meta r /\ o_layers o = r_layers r /\
  image_layer_names o = map fst (r_layers r) /\ size o = (nrows (r_data r), ncols (r_data r)) /\
  o_width o = (INR (ncols (r_data r)) - 1) * r_sx r /\ o_height o = (INR (nrows (r_data r)) - 1) * r_sy r.
Proof. repeat split. Qed.
(** ... where the reader's RawSurface(data, step_x, step_y, metadata, image_layers) without metadata or pictures counts as having none. *)
Theorem C97_reader (g : grid) (sx sy : R) (m : option (metadata M)) (l : option layers) : let o := fst (from_raw_surface (new_raw g sx sy m l)) in
  o_surf o = mkSurf g sx sy /\ o_meta o = match m with Some d => d | None => nil end /\ o_layers o = match l with Some p => p | None => nil end.
Proof. repeat split. Qed.
(** The warning about different pixel sizes appears exactly when they differ by a millionth of a micrometre or more. *)
Theorem C97_warning (g : grid) (sx sy : R) (m : option (metadata M)) (l : option layers) :
  In DifferentPixelSize (snd (new_surface g sx sy m l)) <-> Rabs (sx - sy) >= / 1000000.
Proof.
  cbn [new_surface snd]. unfold approximately_equal. destruct (Rlt_dec (Rabs (sx - sy)) (/ 1000000)) as [H|H]; split; intros H'.
  - destruct H'.
  - exfalso. lra.
  - lra.
  - left. reflexivity.
Qed.
(** consistent: the extents fit shape and steps *)
Definition consistent o : Prop := o_width o = (INR (snd (size o)) - 1) * s_sx (o_surf o) /\ o_height o = (INR (fst (size o)) - 1) * s_sy (o_surf o).
(** Whatever is done in place to a surface - successful or failing operations, assignments, edits of single heights - it keeps its metadata and pictures,
    and its extents always fit its heights. *)
Theorem C97_in_place (es : list event) : forall o, consistent o -> (forall f, In (EEdit f) es -> forall g, nrows (f g) = nrows g /\ ncols (f g) = ncols g) ->
  let o' := fold_left happens es o in o_meta o' = o_meta o /\ o_layers o' = o_layers o /\ consistent o'.
Proof.
  induction es as [|e es IH]; intros o Hc He; cbn [fold_left]; [auto|].
  assert (H1 : o_meta (happens o e) = o_meta o /\ o_layers (happens o e) = o_layers o /\ consistent (happens o e)).
  { destruct e as [f|g|f]; cbn [happens].
    - unfold in_place. destruct (f (o_surf o)) as [s|x]; cbn [rmap]; [|auto]. repeat split.
    - repeat split.
    - destruct (He f (or_introl eq_refl) (s_data (o_surf o))) as [Hr Hk]. destruct Hc as [Hw Hh]. split; [reflexivity|]. split; [reflexivity|].
      unfold consistent, size in *. cbn [o_surf s_data s_sx s_sy o_width o_height fst snd] in *. rewrite Hr, Hk. split; assumption. }
  destruct H1 as (A & B & C). destruct (IH (happens o e) C) as (A' & B' & C'); [intros f Hf; apply He; right; exact Hf|]. rewrite A', B'. auto.
Qed.
(** An operation in place and its copying version yield the same heights, pixel sizes and extents, or the same error. *)
Theorem C97_agree_partial (f : operation) o :
  match in_place f o, copying f o with
  | Ok a, Ok (b, _) => o_surf a = o_surf b /\ o_width a = o_width b /\ o_height a = o_height b /\ consistent a
  | Err x, Err y => x = y
  | _, _ => False
  end.
Proof. unfold in_place, copying. destruct (f (o_surf o)) as [s|x]; cbn [rmap]; [|reflexivity]. destruct s. repeat split. Qed.
(** ... but the copy never has any metadata or picture. *)
Theorem C97_copy_drops (f : operation) o b w : copying f o = Ok (b, w) -> o_meta b = [] /\ o_layers b = [].
Proof. unfold copying. destruct (f (o_surf o)) as [s|x]; cbn [rmap]; [|discriminate]. intros H. assert (E : b = fst (new_surface (M:=M) (s_data s) (s_sx s) (s_sy s) None None)) by (cbn [fst new_surface]; unfold new_surface in H; congruence). rewrite E. split; reflexivity. Qed.
(** Profiles: a profile along a row or column has the length of the surface. *)
Theorem C97_profile_lengths o y x av st p : consistent o ->
  (horizontal_profile y av st o = Ok p -> q_length p = (INR (ncols (s_data (o_surf o))) - 1) * s_sx (o_surf o)) /\
  (vertical_profile x av st o = Ok p -> q_length p = (INR (nrows (s_data (o_surf o))) - 1) * s_sy (o_surf o)).
Proof.
  intros [Hw Hh]. unfold size in *. cbn [fst snd] in *. split.
  - unfold horizontal_profile. destruct (get_horizontal_profile y av st (o_surf o)) as [q|]; cbn [rmap]; [|discriminate]. intros E. assert (p = new_profile (p_data q) (p_step q) (Some (o_width o))) by congruence. subst p. exact Hw.
  - unfold vertical_profile. destruct (get_vertical_profile x av st (o_surf o)) as [q|]; cbn [rmap]; [|discriminate]. intros E. assert (p = new_profile (p_data q) (p_step q) (Some (o_height o))) by congruence. subst p. exact Hh.
Qed.
(** The copying and in-place versions of profile operations agree, and their extent fits. *)
Theorem C97_profile_operations (f : list height -> res (list height)) (q : pobj) :
  prof_in_place f q = prof_copying f q /\
  forall p, prof_copying f q = Ok p -> q_length p = (INR (length (p_data (q_prof p))) - 1) * p_step (q_prof p) /\ p_step (q_prof p) = p_step (q_prof q).
Proof.
  unfold prof_in_place, prof_copying. destruct (f (p_data (q_prof q))) as [d|x]; cbn [rmap]; (split; [reflexivity|]); [|discriminate].
  intros p E. assert (p = new_profile d (p_step (q_prof q)) None) by congruence. subst p. split; reflexivity.
Qed.
(** Not guaranteed: the length of an oblique profile fits its points.  It is always one step too long, and so every operation shortens it by one step. *)
Theorem C97_oblique_length_refuted sample x0 y0 x1 y1 o p : oblique_profile sample x0 y0 x1 y1 o = Ok p ->
  q_length p = INR (length (p_data (q_prof p))) * p_step (q_prof p) /\
  forall q, prof_copying (fun d => Ok d) p = Ok q -> q_length q = q_length p - p_step (q_prof p).
Proof.
  unfold oblique_profile. destruct (oblique_points x0 y0 x1 y1 (o_surf o)) as [pts|]; cbn [rbind]; [|discriminate]. destruct pts as [|a pts]; [discriminate|].
  set (len := sqrt _). intros E. assert (Ep : p = new_profile (map (sample (s_data (o_surf o))) (a :: pts)) (len / INR (length (a :: pts))) (Some len)) by congruence.
  assert (Hn : INR (length (a :: pts)) <> 0) by (apply not_0_INR; discriminate).
  assert (H1 : q_length p = INR (length (p_data (q_prof p))) * p_step (q_prof p)).
  { rewrite Ep. cbn [new_profile q_length q_prof p_data p_step]. rewrite map_length. field. exact Hn. }
  split; [exact H1|]. intros q Eq. unfold prof_copying in Eq. cbn [rmap] in Eq. assert (q = new_profile (p_data (q_prof p)) (p_step (q_prof p)) None) by congruence. subst q.
  rewrite H1. cbn [new_profile q_length]. unfold extent. ring.
Qed.
(** It is the distance between the two pixels the end points fall into. *)
Theorem C97_oblique_length sample x0 y0 x1 y1 o p : oblique_profile sample x0 y0 x1 y1 o = Ok p ->
  let col x := IZR (oblique_px x (o_width o) (ncols (s_data (o_surf o)))) in
  let row y := IZR (oblique_px y (o_height o) (nrows (s_data (o_surf o)))) in
  0 <= q_length p /\ (q_length p) ^ 2 = ((col x1 - col x0) * s_sx (o_surf o)) ^ 2 + ((row y1 - row y0) * s_sy (o_surf o)) ^ 2.
Proof.
  unfold oblique_profile. destruct (oblique_points x0 y0 x1 y1 (o_surf o)) as [pts|]; cbn [rbind]; [|discriminate]. destruct pts as [|a pts]; [discriminate|].
  match goal with |- context [sqrt ?e] => set (r := e) end. intros E. cbv zeta. assert (Ep : q_length p = sqrt r) by (match type of E with Ok ?q = _ => assert (p = q) as -> by congruence end; reflexivity).
  rewrite Ep. split; [apply sqrt_pos|]. rewrite pow2_sqrt.
  - unfold r. rewrite !minus_IZR. ring.
  - unfold r. apply Rplus_le_le_0_compat; apply Rle_0_sqr.
Qed.
End Props.
(** is_grayscale holds exactly if all three channels of every pixel are equal. *)
Theorem C97_grayscale (rows : list (list (list Z))) : (forall r px, In r rows -> In px r -> length px = 3%nat) ->
  (is_grayscale rows = true <-> forall r px, In r rows -> In px r -> exists v, px = [v; v; v]).
Proof.
  intros H3. unfold is_grayscale. rewrite forallb_forall. split.
  - intros H r px Hr Hp. specialize (H r Hr). rewrite forallb_forall in H. specialize (H px Hp). apply andb_true_iff in H. destruct H as [A B].
    apply Z.eqb_eq in A. apply Z.eqb_eq in B. specialize (H3 r px Hr Hp). destruct px as [|a [|b [|c [|d px]]]]; try discriminate. cbn [nth] in A, B. subst. exists c. reflexivity.
  - intros H r Hr. rewrite forallb_forall. intros px Hp. destruct (H r px Hr Hp) as (v & ->). cbn [nth]. rewrite Z.eqb_refl. reflexivity.
Qed.

(** *** An example: a 2 x 3 surface with one grey picture *)
Definition ex_grid : grid := [[Some 1; Some 2; Some 3]; [Some 4; Some 5; Some 6]].
Definition ex_pic : picture := Grey [[1; 2; 3]; [4; 5; 6]]%Z.
Definition ex_obj : sobj string := fst (new_surface ex_grid 2 2 (Some [("operator", "me")])%string (Some [("Intensity", ex_pic)])%string).
Lemma ex_crop : crop (BPixels 0 1 0 1) (o_surf ex_obj) = Ok (mkSurf [[Some 1; Some 2]; [Some 4; Some 5]] 2 2).
Proof. reflexivity. Qed.
Theorem C97_example : consistent ex_obj /\ image_layer_names ex_obj = ["Intensity"%string] /\ snd (new_surface (M:=string) ex_grid 2 2 None None) = [] /\
  exists o', in_place (crop (BPixels 0 1 0 1)) ex_obj = Ok o' /\ size o' = (2, 2)%nat /\ o_width o' = 2 /\ o_meta o' = [("operator", "me")]%string.
Proof.
  split; [split; reflexivity|]. split; [reflexivity|]. split.
  - cbn [new_surface snd]. unfold approximately_equal. destruct (Rlt_dec (Rabs (2 - 2)) (/ 1000000)) as [|H]; [reflexivity|]. exfalso. apply H. rewrite Rminus_diag_eq, Rabs_R0 by reflexivity. lra.
  - unfold in_place. rewrite ex_crop. cbn [rmap]. eexists. split; [reflexivity|]. split; [reflexivity|]. split; [|reflexivity]. cbn. unfold extent. cbn. lra.
Qed.
(** Not guaranteed: in-place and copying versions agree in everything. *)
Theorem C97_agree_refuted : exists (o : sobj string) f a b w, in_place f o = Ok a /\ copying f o = Ok (b, w) /\ o_meta a <> o_meta b /\ image_layer_names a <> image_layer_names b.
Proof. exists ex_obj, (crop (BPixels 0 1 0 1)). unfold in_place, copying. rewrite ex_crop. cbn [rmap]. do 3 eexists. split; [reflexivity|]. split; [unfold new_surface; reflexivity|]. split; discriminate. Qed.
(** Not guaranteed: the pictures fit the heights.  crop in place leaves them as they are. *)
Theorem C97_layers_fit_refuted : exists (o o' : sobj string) f p, In ("Intensity"%string, p) (o_layers o) /\ pic_size p = size o /\
  in_place f o = Ok o' /\ In ("Intensity"%string, p) (o_layers o') /\ pic_size p <> size o'.
Proof.
  exists ex_obj. unfold in_place. eexists. exists (crop (BPixels 0 1 0 1)), ex_pic. rewrite ex_crop. cbn [rmap].
  split; [left; reflexivity|]. split; [reflexivity|]. split; [reflexivity|]. split; [left; reflexivity|discriminate].
Qed.
(** Not guaranteed: the warning tells pixel sizes that differ from those that are equal up to rounding: the tolerance is absolute. *)
Theorem C97_warning_scale_refuted :
  (exists sx sy, 0 < sx /\ sy = 2 * sx /\ snd (new_surface (M:=string) ex_grid sx sy None None) = []) /\
  (exists sx sy, 0 < sx /\ Rabs (sx - sy) <= sx / 100000000 /\ snd (new_surface (M:=string) ex_grid sx sy None None) = [DifferentPixelSize]).
Proof.
  split.
  - exists (/ 10000000), (2 * / 10000000). split; [lra|]. split; [lra|]. cbn [new_surface snd]. unfold approximately_equal.
    destruct (Rlt_dec (Rabs (/ 10000000 - 2 * / 10000000)) (/ 1000000)) as [|H]; [reflexivity|]. exfalso. apply H. rewrite Rabs_left by lra. lra.
  - exists 1000, (1000 + / 100000). split; [lra|]. split; [rewrite Rabs_left by lra; lra|]. cbn [new_surface snd]. unfold approximately_equal.
    destruct (Rlt_dec (Rabs (1000 - (1000 + / 100000))) (/ 1000000)) as [H|]; [|reflexivity]. exfalso. rewrite Rabs_left in H by lra. lra.
Qed.
