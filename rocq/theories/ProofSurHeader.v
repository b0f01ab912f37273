(** The header of the Digital Surf format is read back. *)
From Coq Require Import String Ascii ZArith Lia Bool Reals Lra.
From Coq Require Import List.
From Flocq Require Import Core.Core.
From Flocq Require Import IEEE754.BinarySingleNaN IEEE754.Binary IEEE754.Bits.
From Verif Require Import Base ModelBytes SpecBytes ProofBytes PropsLayout ModelUnits PropsUnits ProofFloat ProofSurReal ModelSur ProofSur ProofCodec.
Import ListNotations.
Local Open Scope Z_scope.

(** A surface with at least one point, rectangular, fewer than 2^31 points, whose heights are NaN or finite and of
    moderate size, and whose steps are representable as single precision numbers. *)
Record good_surface (s : raw) : Prop := {
  gs_rows : (0 < rows s)%nat;
  gs_cols : (0 < cols s)%nat;
  gs_rect : Forall (fun r => length r = cols s) (rdata s);
  gs_count : Z.of_nat (cols s) * Z.of_nat (rows s) < 2 ^ 31;
  gs_heights : forall x, In x (concat (rdata s)) -> isnan x = true \/ small x;
  gs_step_x : singleable (rstep_x s);
  gs_step_y : singleable (rstep_y s) }.
Definition good_time (t : timestamp) : Prop :=
  Forall (fun v => 0 <= v < 2 ^ 15) [t_second t; t_minute t; t_hour t; t_day t; t_month t; t_year t; t_weekday t].

Definition spz (s : raw) : f64 := fdiv (fsub (nanmax s) (nanmin s)) (f64_of_Z (INT_DATA_MAX - INT_DATA_MIN)).
Definition ofz (s : raw) : f64 := fadd (nanmin s) (fdiv (fsub (nanmax s) (nanmin s)) (f64_of_Z 2)).

Lemma sur_names : NoDup (names sur_layout).
Proof. apply forallb_names_nodup. vm_compute. reflexivity. Qed.
Lemma sur_size : lsize sur_layout = 512%nat.
Proof. vm_compute. reflexivity. Qed.

Ltac header_field C :=
  first
    [ lazymatch goal with |- reads_back _ _ (FStr _) _ _ => idtac end; apply rb_lit with (1 := C); vm_compute; reflexivity
    | lazymatch goal with |- reads_back _ _ _ (VInt ?z) _ => let z' := eval cbv in z in match z' with Z0 => idtac | Zpos _ => idtac | Zneg _ => idtac end end; apply rb_int_lit; [repeat constructor|vm_compute; reflexivity]
    | lazymatch goal with |- reads_back _ _ FF32 (VInt _) _ => idtac end; eapply rb_f32_int; vm_compute; reflexivity
    | lazymatch goal with H : singleable ?x |- reads_back _ _ _ (VFloat ?x) _ => exact (rb_single _ _ _ H) end
    | apply rb_int; [repeat constructor|cbn [int_fits]; change (8 * Z.of_nat 2 - 1) with 15; change (8 * Z.of_nat 4 - 1) with 31; lia] ].

Section Roundtrip.
Context (w r : encoding) (C : compatible w r) (t : timestamp) (Ht : good_time t) (s : raw) (G : good_surface s)
        (compressed : bool) (len : Z) (Hlen : 0 <= len < 2 ^ 15)
        (Hs : singleable (spz s)) (Ho : singleable (ofz s)).

Lemma one_single : singleable (f64_of_Z 1).
Proof.
  destruct (f64_of_Z_ok 1) as [E F]; [vm_compute; discriminate|]. split; [exact F|]. rewrite E, Rabs_R1.
  change 1%R with (bpow radix2 0). apply bpow_le. lia.
Qed.
Lemma counts : 0 <= Z.of_nat (cols s) < 2 ^ 31 /\ 0 <= Z.of_nat (rows s) < 2 ^ 31 /\
  0 <= Z.of_nat (cols s) * Z.of_nat (rows s) < 2 ^ 31.
Proof. pose proof (gs_rows s G). pose proof (gs_cols s G). pose proof (gs_count s G). nia. Qed.

Lemma header_fields : forall name f, In (Entry name (Fixed f)) sur_layout ->
  exists v v', dget (sur_header s compressed t len) name = Some v /\ reads_back w r f v v'.
Proof.
  pose proof one_single as H1. pose proof (gs_step_x s G) as Hx. pose proof (gs_step_y s G) as Hy.
  pose proof counts as (N1 & N2 & N3). clear G. unfold spz in Hs. unfold ofz in Ho.
  unfold good_time in Ht. repeat (match goal with H : Forall _ (_ :: _) |- _ => inversion H; clear H; subst end).
  assert (Hc : reads_back w r (FStr 12) (VStr (str (if compressed then "DSCOMPRESSED" else "DIGITAL SURF")))
                 (VStr (str (if compressed then "DSCOMPRESSED" else "DIGITAL SURF")))).
  { destruct compressed; apply rb_lit with (1 := C); vm_compute; reflexivity. }
  assert (Hm : 0 <= Z.b2z (has_missing s) <= 1) by (destruct (has_missing s); cbn; lia).
  intros name f Hin. unfold sur_layout, E in Hin.
  repeat (destruct Hin as [Hin|Hin];
    [first [discriminate Hin
           |injection Hin as <- <-; eexists; eexists; split; [reflexivity|]; first [exact Hc|header_field C]]|]).
  destruct Hin.
Qed.

(** the header as the reader sees it *)
Definition f32r (x : f64) : f64 := f64_of_f32 (f32_of_f64 x).
Record header_as_read (d : dict) : Prop := {
  hr_code : hstr d "code" = Ok (str (if compressed then "DSCOMPRESSED" else "DIGITAL SURF"));
  hr_version : hint d "version_number" = Ok 1;
  hr_type : hint d "studiable_type" = Ok 2;
  hr_acq : hint d "acquisition_type" = Ok 0;
  hr_comment : hint d "length_comment" = Ok len;
  hr_private : hint d "length_private" = Ok 0;
  hr_bits : hint d "bits_per_point" = Ok 32;
  hr_lines : hint d "n_lines" = Ok (Z.of_nat (rows s));
  hr_points : hint d "n_points_per_line" = Ok (Z.of_nat (cols s));
  hr_total : hint d "n_total_points" = Ok (Z.of_nat (cols s) * Z.of_nat (rows s));
  hr_comp : hint d "compressed_data_size" = Ok 0;
  hr_nobj : hint d "n_objects" = Ok 1;
  hr_nm : hint d "non_measured_points" = Ok (Z.b2z (has_missing s));
  hr_min : hint d "min_point" = Ok INT_DATA_MIN;
  hr_spz : hflt d "spacing_z" = Ok (f32r (spz s));
  hr_ofz : hflt d "offset_z" = Ok (f32r (ofz s));
  hr_spx : hflt d "spacing_x" = Ok (f32r (rstep_x s));
  hr_spy : hflt d "spacing_y" = Ok (f32r (rstep_y s));
  hr_ux : hstr d "unit_step_x" = Ok um_sign;
  hr_uy : hstr d "unit_step_y" = Ok um_sign;
  hr_uz : hstr d "unit_step_z" = Ok um_sign;
  hr_no : hstr d "name_object" = Ok [];
  hr_np : hstr d "name_operator" = Ok [] }.

Lemma header_roundtrip : exists head d, write_layout w (sur_header s compressed t len) sur_layout = Ok head /\
  length head = 512%nat /\ header_as_read d /\
  forall rest, read_layout r sur_layout (open_rb (head ++ rest)) = Ok (d, at_ head rest).
Proof.
  destruct (C44_roundtrip w r (sur_header s compressed t len) sur_layout) as (b & d & B1 & B2 & B3 & B4).
  { intros e He. unfold sur_layout, E in He. repeat (destruct He as [<-|He]; [exact I|]). destruct He. }
  { exact sur_names. }
  { exact header_fields. }
  assert (K : forall name f, In (Entry name (Fixed f)) sur_layout -> forall v v',
     dget (sur_header s compressed t len) name = Some v -> reads_back w r f v v' -> dget d name = Some v').
  { intros name f Hin v v' Hv Hrb. apply (B4 name f v v' Hin Hv Hrb). }
  exists b, d. rewrite sur_size in B2. repeat split; auto.
  all: pose proof one_single as H1; pose proof (gs_step_x s G) as Hx; pose proof (gs_step_y s G) as Hy;
       pose proof counts as (N1 & N2 & N3); unfold spz in Hs; unfold ofz in Ho;
       assert (Hc : reads_back w r (FStr 12) (VStr (str (if compressed then "DSCOMPRESSED" else "DIGITAL SURF")))
                 (VStr (str (if compressed then "DSCOMPRESSED" else "DIGITAL SURF"))))
        by (destruct compressed; apply rb_lit with (1 := C); vm_compute; reflexivity);
       assert (Hm : 0 <= Z.b2z (has_missing s) <= 1) by (destruct (has_missing s); cbn; lia).
  all: try (first [apply hint_ok|apply hflt_ok|apply hstr_ok];
       eapply K; [unfold sur_layout, E; repeat (first [left; reflexivity|right])|reflexivity|];
       clear K B4 G Ht; first [exact Hc|unfold f32r, spz, ofz; header_field C]).
  intros rest. specialize (B3 [] rest). unfold open_rb. cbn [app length] in B3. rewrite B3. reflexivity.
Qed.
End Roundtrip.
