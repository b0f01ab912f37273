(** C47 and C51 for the native format (.sflz). *)
From Coq Require Import String Ascii ZArith Lia Bool Reals Lra.
From Coq Require Import List.
From Flocq Require Import Core.Core.
From Flocq Require Import IEEE754.BinarySingleNaN IEEE754.Binary IEEE754.Bits.
From Verif Require Import Base ModelBytes SpecBytes ProofBytes PropsLayout ModelUnits ProofFloat ModelSur ProofSur ProofCodec ProofSurReal ModelFormats PropsTmd ModelSflz ProofSflz ProofSflzReal.
Import ListNotations.
Local Open Scope Z_scope.

(** A file the writer can produce: a rectangular surface, a known compression, counts that fit their fields ... *)
Record framed (c : codecs) (comp : pystr) (s : raw) (used : list layer) (n_meta : Z) (data : bytes) : Prop := {
  sv_shape : shaped s;
  sv_cols : Z.of_nat (cols s) < 2 ^ 32;
  sv_rows : Z.of_nat (rows s) < 2 ^ 32;
  sv_comp : known_compression comp;
  sv_count : zlen used < 65535;
  sv_meta : 0 <= n_meta < 65536;
  sv_size : zlen (ccompress c comp data) < 2 ^ 32 }.
(** ... and plain image layers with distinct names. *)
Record saveable (c : codecs) (comp : pystr) (s : raw) (used : list layer) (n_meta : Z) (data : bytes) : Prop := {
  sv_frame : framed c comp s used n_meta data;
  sv_layers : Forall (image_layer c comp) used;
  sv_names : NoDup (map lname used) }.

Lemma store_length cast dt s : shaped s -> length (store cast dt s) = (rows s * (cols s * 1) * dsize dt)%nat.
Proof.
  intros [_ _ R]. rewrite Nat.mul_1_r. unfold store. pose proof (concat_length_grid (cols s) (rdata s) R) as L. fold (rows s) in L. destruct dt.
  - rewrite int_tobytes_length, map_length, L. reflexivity.
  - rewrite int_tobytes_length, map_length, L. reflexivity.
  - rewrite f32_tobytes_length, map_length, L. reflexivity.
  - rewrite f64_tobytes_length, L. reflexivity.
Qed.
Lemma topo_name : plain_name (str "topography").
Proof. split; [vm_compute; repeat constructor; discriminate|]. split; [reflexivity|]. apply last_ok. vm_compute. reflexivity. Qed.

Section File.
Context (c : codecs) (Hz : lossless (c_zlib c)) (Hl : lossless (c_lzma c)) (cast : dtype -> f64 -> Z).
Context (s : raw) (layers : list layer) (n_meta : Z) (comp : pystr) (save : bool) (dt : dtype) (Hd : In dt dtypes).
Let used := if save then layers else [].
Context (FR : framed c comp s used n_meta (store cast dt s)).
Let heights := layer_heights (is_int dt) (if is_int dt then amin s else f64_of_Z 0) (if is_int dt then amax s else f64_of_Z 0)
  {| lname := str "topography"; lshape := [rows s; cols s]; ldt := dt; lbytes := store cast dt s |}.
Definition back (rl : bool) (hs : list (list f64)) : sflz :=
  {| sf_heights := Some hs; sf_step_x := rstep_x s; sf_step_y := rstep_y s; sf_layers := if rl then map drop_single used else [] |}.

Lemma frame_ok : exists head lh, let data := ccompress c comp (store cast dt s) in
  length head = 48%nat /\ length lh = 28%nat /\
  (forall rest, write_layers c comp used = Ok rest ->
     write_sflz c cast s layers n_meta comp save dt = Ok (str "SFLZ" ++ head ++ lh ++ data ++ rest)) /\
  (forall rl t, read_sflz c rl (open_rb (str "SFLZ" ++ head ++ lh ++ data ++ t)) =
     rbind heights (fun hs => rbind (read_layers c comp (if rl then length used else 0%nat) [] (at_ ((str "SFLZ" ++ head) ++ lh ++ data) t)) (fun ls =>
     Ok {| sf_heights := Some hs; sf_step_x := rstep_x s; sf_step_y := rstep_y s; sf_layers := ls |}))) /\
  (rejects_cut (c_zlib c) -> rejects_cut (c_lzma c) ->
     forall rest k rl, (k < length (str "SFLZ" ++ head ++ lh ++ data))%nat ->
       exists e, read_sflz c rl (open_rb (firstn k (str "SFLZ" ++ head ++ lh ++ data ++ rest))) = Err e).
Proof.
  destruct FR as [S1 S2 S3 S4 S7 S8 S9].
  set (data := ccompress c comp (store cast dt s)) in *.
  assert (ST := main_head s (1 + zlen used) n_meta comp dt S4 ltac:(unfold zlen in *; lia) S8).
  destruct (layout_roundtrip _ _ _ _ _ _ _ ST) as (head & W & WL & RD). change (length head = 48%nat) in WL.
  destruct (read_layer_ok c comp Hz Hl (str "topography") (rows s) (cols s) 1 dt (store cast dt s) [rows s; cols s] topo_name S3 S2
     ltac:(lia) Hd S9 eq_refl (store_length cast dt s S1)) as (lh & LW & LL & LR & LC).
  fold data in LW, LL, LR, LC. change (length (str "topography")) with 10%nat in LL.
  exists head, lh. cbv zeta. fold data. split; [exact WL|split; [exact LL|]]. split.
  { intros rest RW. unfold write_sflz. destruct S1 as [P1 P2 _]. replace (Nat.eqb (rows s * cols s) 0) with false by (symmetry; apply Nat.eqb_neq; nia).
    rewrite andb_false_r. fold used. rewrite W. cbn [rbind]. fold data. rewrite LW. cbn [rbind]. rewrite RW. reflexivity. }
  assert (MAIN : forall rl t, read_sflz c rl (open_rb (str "SFLZ" ++ head ++ t)) =
     rbind (read_layer c comp (at_ (str "SFLZ" ++ head) t)) (fun '(x, h3) =>
     rbind (if zs_eqb (lname x) (str "topography") then rmap Some (layer_heights (is_int dt) (if is_int dt then amin s else f64_of_Z 0) (if is_int dt then amax s else f64_of_Z 0) x) else Ok None) (fun heights =>
     rbind (read_layers c comp (if rl then length used else 0%nat) (match heights with Some _ => [] | None => [x] end) h3) (fun ls =>
     Ok {| sf_heights := heights; sf_step_x := rstep_x s; sf_step_y := rstep_y s; sf_layers := ls |})))).
  { intros rl t. unfold read_sflz. pose proof (fread_at [] (str "SFLZ") (head ++ t)) as F. change (length (str "SFLZ")) with 4%nat in F.
    change (open_rb (str "SFLZ" ++ head ++ t)) with (at_ [] (str "SFLZ" ++ head ++ t)). rewrite F.
    rewrite zs_eqb_refl. cbn [negb]. cbn [app]. unfold read_layout. rewrite RD. cbn [rbind].
    assert (E1 : hstr (header_read s (1 + zlen used) n_meta comp dt) "compression_algorithm" = Ok comp) by reflexivity.
    assert (E2 : hint (header_read s (1 + zlen used) n_meta comp dt) "num_layers" = Ok (1 + zlen used)) by reflexivity.
    assert (E3 : hflt (header_read s (1 + zlen used) n_meta comp dt) "step_x" = Ok (rstep_x s)) by reflexivity.
    assert (E4 : hflt (header_read s (1 + zlen used) n_meta comp dt) "step_y" = Ok (rstep_y s)) by reflexivity.
    assert (E5 : hbool (header_read s (1 + zlen used) n_meta comp dt) "scaled" = Ok (is_int dt)) by reflexivity.
    assert (E6 : hflt (header_read s (1 + zlen used) n_meta comp dt) "min_value" = Ok (if is_int dt then amin s else f64_of_Z 0)) by reflexivity.
    assert (E7 : hflt (header_read s (1 + zlen used) n_meta comp dt) "max_value" = Ok (if is_int dt then amax s else f64_of_Z 0)) by reflexivity.
    rewrite E1. cbn [rbind]. rewrite E2. cbn [rbind]. rewrite E3. cbn [rbind]. rewrite E4. cbn [rbind]. rewrite E5. cbn [rbind].
    rewrite E6. cbn [rbind]. rewrite E7. cbn [rbind].
    replace (if rl then Z.to_nat (1 + zlen used) else 1%nat) with (S (if rl then length used else 0%nat))
      by (destruct rl; [unfold zlen; lia|reflexivity]).
    reflexivity. }
  assert (MID : forall rl t, read_sflz c rl (open_rb (str "SFLZ" ++ head ++ lh ++ data ++ t)) =
     rbind heights (fun hs => rbind (read_layers c comp (if rl then length used else 0%nat) [] (at_ ((str "SFLZ" ++ head) ++ lh ++ data) t)) (fun ls =>
     Ok {| sf_heights := Some hs; sf_step_x := rstep_x s; sf_step_y := rstep_y s; sf_layers := ls |}))).
  { intros rl t. rewrite MAIN, LR. cbn [rbind lname]. rewrite zs_eqb_refl. fold heights.
    destruct heights as [hs|e]; reflexivity. }
  split; [exact MID|]. intros Rz Rl.
  assert (CUT1 : forall rest k rl, (k < length (str "SFLZ" ++ head ++ lh ++ data))%nat ->
     exists e, read_sflz c rl (open_rb (firstn k (str "SFLZ" ++ head ++ lh ++ data ++ rest))) = Err e).
  { intros rest k rl Hk. rewrite !app_length in Hk. change (length (str "SFLZ")) with 4%nat in Hk. destruct (Nat.lt_ge_cases k 4) as [C|C].
    - exists ValueError. rewrite firstn_app. change (length (str "SFLZ")) with 4%nat. replace (k - 4)%nat with 0%nat by lia. rewrite firstn_O, app_nil_r.
      do 4 (destruct k as [|k]; [reflexivity|]). lia.
    - rewrite firstn_app. change (length (str "SFLZ")) with 4%nat. rewrite (firstn_all2 (str "SFLZ")) by (cbn; lia).
      rewrite firstn_app. rewrite WL in *. destruct (Nat.lt_ge_cases (k - 4) 48) as [C2|C2].
      + replace (k - 4 - 48)%nat with 0%nat by lia. rewrite firstn_O, app_nil_r.
        destruct (layout_cut _ _ _ _ _ _ _ ST sflz_layout_nr head (k - 4)%nat (str "SFLZ") W ltac:(lia)) as (e & He).
        exists e. unfold read_sflz. pose proof (fread_at [] (str "SFLZ") (firstn (k - 4) head)) as F. change (length (str "SFLZ")) with 4%nat in F.
        change (open_rb (str "SFLZ" ++ firstn (k - 4) head)) with (at_ [] (str "SFLZ" ++ firstn (k - 4) head)). rewrite F.
        rewrite zs_eqb_refl. cbn [negb app]. unfold read_layout. rewrite He. reflexivity.
      + rewrite (firstn_all2 head) by lia. rewrite MAIN.
        rewrite app_assoc, firstn_app. match goal with |- context [firstn ?n rest] => replace n with 0%nat by (rewrite app_length; lia) end.
        rewrite firstn_O, app_nil_r.
        match goal with |- context [firstn ?n (lh ++ data)] => destruct (LC Rz Rl (str "SFLZ" ++ head) n) as (e & He); [rewrite app_length; lia|] end.
        rewrite He. exists e. reflexivity. }
  exact CUT1.
Qed.
Context (PL : Forall (image_layer c comp) used) (ND : NoDup (map lname used)).
Lemma file_ok : exists head lh rest, let data := ccompress c comp (store cast dt s) in
  let b := str "SFLZ" ++ head ++ lh ++ data ++ rest in
  write_sflz c cast s layers n_meta comp save dt = Ok b /\ length head = 48%nat /\ length lh = 28%nat /\
  (forall rl, read_sflz c rl (open_rb b) = rmap (back rl) heights) /\
  (used <> [] -> (0 < length rest)%nat) /\
  (rejects_cut (c_zlib c) -> rejects_cut (c_lzma c) ->
     (forall k rl, (k < length (str "SFLZ" ++ head ++ lh ++ data))%nat -> exists e, read_sflz c rl (open_rb (firstn k b)) = Err e) /\
     (forall k, (length (str "SFLZ" ++ head ++ lh ++ data) <= k)%nat -> read_sflz c false (open_rb (firstn k b)) = rmap (back false) heights) /\
     (forall k, (k < length b)%nat -> exists e, read_sflz c true (open_rb (firstn k b)) = Err e)).
Proof.
  destruct frame_ok as (head & lh & WL & LL & WR & MID & CUT0). cbv zeta in WR, MID, CUT0.
  set (data := ccompress c comp (store cast dt s)) in *.
  destruct (layers_ok c comp Hz Hl used PL) as (rest & RW & RR & RN & RC).
  exists head, lh, rest. cbv zeta. fold data. split; [exact (WR rest RW)|]. split; [exact WL|split; [exact LL|]].
  assert (FULL : forall rl, read_sflz c rl (open_rb (str "SFLZ" ++ head ++ lh ++ data ++ rest)) = rmap (back rl) heights).
  { intros rl. rewrite MID. destruct heights as [hs|e]; [|reflexivity]. cbn [rbind rmap].
    destruct rl; [|reflexivity]. rewrite <- (app_nil_r rest), RR by exact ND. reflexivity. }
  split; [exact FULL|]. split; [exact RN|]. intros Rz Rl.
  pose proof (CUT0 Rz Rl rest) as CUT1.
  assert (TAIL : forall k, (length (str "SFLZ" ++ head ++ lh ++ data) <= k)%nat ->
     firstn k (str "SFLZ" ++ head ++ lh ++ data ++ rest) = str "SFLZ" ++ head ++ lh ++ data ++ firstn (k - length (str "SFLZ" ++ head ++ lh ++ data)) rest).
  { intros k Hk. replace (str "SFLZ" ++ head ++ lh ++ data ++ rest) with ((str "SFLZ" ++ head ++ lh ++ data) ++ rest) by (rewrite <- !app_assoc; reflexivity).
    rewrite firstn_app, firstn_all2 by exact Hk. rewrite <- !app_assoc. reflexivity. }
  split; [exact CUT1|]. split.
  - intros k Hk. rewrite TAIL by exact Hk. rewrite MID. destruct heights as [hs|e]; reflexivity.
  - intros k Hk. destruct (Nat.lt_ge_cases k (length (str "SFLZ" ++ head ++ lh ++ data))) as [C|C]; [apply CUT1, C|].
    rewrite TAIL by exact C. rewrite MID. destruct heights as [hs|e]; [|eexists; reflexivity]. cbn [rbind].
    destruct (RC Rz Rl [] ((str "SFLZ" ++ head) ++ lh ++ data) (k - length (str "SFLZ" ++ head ++ lh ++ data))%nat) as (e & He).
    { rewrite !app_length in *. lia. }
    rewrite He. exists e. reflexivity.
Qed.
End File.

(** ** Float storage *)
Lemma reshape_rows {A} (g : list (list A)) c : Forall (fun r => length r = c) g -> reshape (length g) c (concat g) = Ok g.
Proof. intros H. apply reshape_concat. exact H. Qed.

(** *** C47: with float64 storage every bit of the heights comes back, with float32 storage the nearest single; gaps, steps and
    image layers are kept.  For every compression, and whether or not the layers are saved and read. *)
Theorem C47_float : forall c cast s (layers : list layer) n_meta comp (save : bool) dt (rl : bool), lossless (c_zlib c) -> lossless (c_lzma c) ->
  dt = F8 \/ dt = F4 -> saveable c comp s (if save then layers else []) n_meta (store cast dt s) ->
  exists b r hs, write_sflz c cast s layers n_meta comp save dt = Ok b /\ read_sflz c rl (open_rb b) = Ok r /\
    sf_heights r = Some hs /\ sf_step_x r = rstep_x s /\ sf_step_y r = rstep_y s /\
    sf_layers r = (if rl && save then map drop_single layers else []) /\
    (dt = F8 -> hs = rdata s) /\ (dt = F4 -> Forall2 (Forall2 as_single) (rdata s) hs).
Proof.
  intros c cast s layers n_meta comp save dt rl Hz Hl Hdt SV.
  assert (Hd : In dt dtypes) by (destruct Hdt as [->| ->]; cbn; tauto).
  destruct SV as [FR PL ND].
  destruct (file_ok c Hz Hl cast s layers n_meta comp save dt Hd FR PL ND) as (head & lh & rest & W & _ & _ & R & _).
  cbv zeta in W, R. specialize (R rl).
  pose proof (sv_shape _ _ _ _ _ _ FR) as [_ _ Rect].
  assert (G : exists hs, layer_heights (is_int dt) (if is_int dt then amin s else f64_of_Z 0) (if is_int dt then amax s else f64_of_Z 0)
      {| lname := str "topography"; lshape := [rows s; cols s]; ldt := dt; lbytes := store cast dt s |} = Ok hs /\
      (dt = F8 -> hs = rdata s) /\ (dt = F4 -> Forall2 (Forall2 as_single) (rdata s) hs)).
  { destruct Hdt as [->| ->]; unfold layer_heights; cbn [lshape ldt lbytes is_int dsize store].
    - exists (rdata s). split; [|split; [auto|discriminate]].
      pose proof (f64_array_tobytes (concat (rdata s))) as A. unfold f64_array in A. apply rmap_ok in A as (items & A1 & A2).
      rewrite A1. cbn [rbind]. rewrite <- A2. unfold rows. apply reshape_rows, Rect.
    - exists (map (map (fun x => f64_of_f32 (f32_of_f64 x))) (rdata s)). split; [|split; [discriminate|]].
      + pose proof (f32_array_tobytes (map f32_of_f64 (concat (rdata s)))) as A. unfold f32_array in A. apply rmap_ok in A as (items & A1 & A2).
        rewrite A1. cbn [rbind].
        assert (E : map (fun b => f64_of_f32 (b32_of_bits (unle b))) items = concat (map (map (fun x => f64_of_f32 (f32_of_f64 x))) (rdata s))).
        { rewrite <- concat_map_map. rewrite <- (map_map f32_of_f64 f64_of_f32), A2, map_map. reflexivity. }
        rewrite E. replace (rows s) with (length (map (map (fun x => f64_of_f32 (f32_of_f64 x))) (rdata s))) by (rewrite map_length; reflexivity).
        apply reshape_rows. apply Forall_forall. intros r Hr. apply in_map_iff in Hr as (y & <- & Hy). rewrite map_length.
        rewrite Forall_forall in Rect. apply Rect, Hy.
      + intros _. clear. induction (rdata s) as [|row g IH]; cbn [map]; constructor; auto.
        clear. induction row as [|x row IH]; cbn [map]; constructor; auto. apply single_kept. }
  destruct G as (hs & G1 & G2 & G3). rewrite G1 in R. cbn [rmap] in R.
  eexists. eexists. exists hs. split; [exact W|]. split; [exact R|]. unfold back. cbn [sf_heights sf_step_x sf_step_y sf_layers].
  repeat (split; [reflexivity|]). split; [destruct rl, save; reflexivity|]. split; assumption.
Qed.

(** ** Integer storage *)
(** numpy's conversion of a double to an integer type: truncation whenever the truncated value fits; otherwise some value of the type *)
Definition cast_ok (cast : dtype -> f64 -> Z) : Prop := forall dt x, In dt dtypes -> is_int dt = true ->
  dmin dt <= cast dt x <= dmax dt /\ (fin64 x -> dmin dt <= Ztrunc (R64 x) <= dmax dt -> cast dt x = Ztrunc (R64 x)).
(** the lowest and the highest height *)
Definition lowest (s : raw) (lo : R) : Prop :=
  (exists x, In x (concat (rdata s)) /\ R64 x = lo) /\ forall x, In x (concat (rdata s)) -> (lo <= R64 x)%R.
Definition highest (s : raw) (hi : R) : Prop :=
  (exists x, In x (concat (rdata s)) /\ R64 x = hi) /\ forall x, In x (concat (rdata s)) -> (R64 x <= hi)%R.
(** the integer types of one, two and four bytes *)
Definition int_type (dt : dtype) : Prop := exists n, (n = 1 \/ n = 2 \/ n = 4)%nat /\ (dt = U n \/ dt = I n).

Lemma int_type_facts dt : int_type dt -> In dt dtypes /\ is_int dt = true /\ 255 <= dmax dt - dmin dt <= 4294967295 /\
  dmin dt <= 0 /\ - (dmax dt - dmin dt + 1) <= 2 * dmin dt.
Proof.
  intros (n & Hn & Hdt). destruct Hn as [->|[->| ->]], Hdt as [->| ->]; cbn [is_int]; (split; [cbn; tauto|]); split; try reflexivity; vm_compute; intuition discriminate.
Qed.
Lemma ints_back dt l : int_type dt -> Forall (fun z => dmin dt <= z <= dmax dt) l ->
  exists items, frombuffer (dsize dt) (int_tobytes (dsize dt) l) = Ok items /\
    (forall n, dt = U n -> map unle items = l) /\ (forall n, dt = I n -> map (fun b => to_signed n (unle b)) items = l).
Proof.
  intros HT HF. destruct (int_type_facts dt HT) as (_ & Hi & HK & _).
  assert (Hp : (0 < dsize dt)%nat) by (destruct HT as (n & Hn & [->| ->]); cbn; lia).
  unfold int_tobytes. rewrite frombuffer_concat; [|exact Hp|].
  2:{ apply Forall_forall. intros b Hb. apply in_map_iff in Hb as (z & <- & _). apply le_length. }
  eexists. split; [reflexivity|]. split.
  - intros n ->. cbn [dsize dmin dmax] in *. rewrite map_map. rewrite <- (map_id l) at 2. apply map_ext_in. intros z Hz.
    rewrite Forall_forall in HF. specialize (HF z Hz). rewrite Z.mod_small by lia. apply unle_le. lia.
  - intros n ->. cbn [dsize dmin dmax] in *. rewrite map_map. rewrite <- (map_id l) at 2. apply map_ext_in. intros z Hz.
    rewrite Forall_forall in HF. specialize (HF z Hz). rewrite unle_le by (apply Z.mod_pos_bound, pow_pos_8). apply to_signed_mod; [exact Hp|lia].
Qed.
(** the heights as read *)
Definition unscaled (cast : dtype -> f64 -> Z) (dt : dtype) (s : raw) (x : f64) : f64 :=
  unscale_height dt (amin s) (amax s) (cast dt (scale_height dt (amin s) (amax s) x)).
Lemma int_heights cast dt s : cast_ok cast -> int_type dt -> shaped s ->
  layer_heights true (amin s) (amax s) {| lname := str "topography"; lshape := [rows s; cols s]; ldt := dt; lbytes := store cast dt s |}
  = Ok (map (map (unscaled cast dt s)) (rdata s)).
Proof.
  intros HC HT [_ _ Rect]. destruct (int_type_facts dt HT) as (Hd & Hi & _).
  pose (l := map (fun x => cast dt (scale_height dt (amin s) (amax s) x)) (concat (rdata s))).
  assert (Est : store cast dt s = int_tobytes (dsize dt) l) by (destruct dt; try discriminate; reflexivity).
  destruct (ints_back dt l HT) as (items & FB & B1 & B2).
  { apply Forall_forall. intros z Hz. apply in_map_iff in Hz as (x & <- & _). apply HC; [exact Hd|exact Hi]. }
  unfold layer_heights. cbn [lshape ldt lbytes]. rewrite Est, FB. cbn [rbind].
  assert (E : reshape (rows s) (cols s) (map (unscale_height dt (amin s) (amax s)) l) = Ok (map (map (unscaled cast dt s)) (rdata s))).
  { unfold l. rewrite map_map. fold (unscaled cast dt s). rewrite concat_map_map.
    replace (rows s) with (length (map (map (unscaled cast dt s)) (rdata s))) by (rewrite map_length; reflexivity).
    apply reshape_rows. apply Forall_forall. intros r Hr. apply in_map_iff in Hr as (y & <- & Hy). rewrite map_length.
    rewrite Forall_forall in Rect. apply Rect, Hy. }
  destruct dt as [n|n| |]; try discriminate; cbn [rbind].
  - rewrite <- (B1 n eq_refl), map_map in E. exact E.
  - rewrite <- (B2 n eq_refl), map_map in E. exact E.
Qed.

Lemma b1000 r e : (Rabs r <= bpow radix2 e)%R -> e <= 1000 -> (Rabs r <= bpow radix2 1000)%R.
Proof. intros H He. eapply Rle_trans; [exact H|apply bpow_big, He]. Qed.
Section Heights.
Context (cast : dtype -> f64 -> Z) (HC : cast_ok cast) (dt : dtype) (HT : int_type dt) (mn mx : f64).
Context (Hmn : small mn) (Hmx : small mx) (HD : (bpow radix2 (-90) <= R64 mx - R64 mn)%R).
Let Kz := dmax dt - dmin dt.
Let Nz := dmin dt.
Lemma Kf : R64 (f64_of_Z Kz) = IZR Kz /\ fin64 (f64_of_Z Kz).
Proof. apply f64_of_Z_ok. destruct (int_type_facts dt HT) as (_ & _ & H & _). unfold Kz. lia. Qed.
Lemma Nf : R64 (f64_of_Z Nz) = IZR Nz /\ fin64 (f64_of_Z Nz).
Proof. apply f64_of_Z_ok. destruct (int_type_facts dt HT) as (_ & _ & H & H1 & H2). unfold Nz, Kz in *. lia. Qed.
Lemma height_error x : fin64 x -> (R64 mn <= R64 x <= R64 mx)%R ->
  let x' := unscale_height dt mn mx (cast dt (scale_height dt mn mx x)) in
  fin64 x' /\ (Rabs (R64 x' - (R64 x + 2 * IZR Nz / IZR Kz * (R64 mx - R64 mn))) <=
    (R64 mx - R64 mn) / IZR Kz + bpow radix2 (-47) * Rmax (Rabs (R64 mn)) (Rabs (R64 mx)))%R.
Proof.
  intros Hx Hr. cbv zeta. destruct (int_type_facts dt HT) as (Hdt & Hint & HK & HN1 & HN2). fold Kz in HK, HN2. fold Nz in HN1, HN2.
  destruct Kf as [EK FK]. destruct Nf as [EN FN].
  assert (HKr : (255 <= IZR Kz <= 4294967295)%R) by (split; apply IZR_le; lia).
  assert (HNr : (-4294967296 <= IZR Nz <= 0)%R) by (split; apply IZR_le; lia).
  assert (Sx : small x).
  { split; auto. destruct Hmn as [_ B1]. destruct Hmx as [_ B2]. apply Rabs_le_inv in B1. apply Rabs_le_inv in B2.
    apply Rabs_le. lra. }
  destruct (sub_small x mn Sx Hmn) as (Ea & Fa & Ba). destruct (d_ok mn mx Hmn Hmx HD) as (Ed & Fd & Bd).
  pose proof (bpow_gt_0 radix2 (-90)) as H90.
  assert (Q0 := q_range0 x mn mx Hr HD). assert (Q1 := q_range x mn mx Hr HD). cbv zeta in Q0, Q1.
  assert (T := ts_range x mn mx Kz Hr HD HK). assert (T2 := t2_range x mn mx Kz Nz Hr HD HK (conj HN1 HN2)).
  assert (SR := stored_range x mn mx Kz Nz Hr HD HK (conj HN1 HN2)).
  assert (ERR := scale_error x mn mx Kz Nz Hr HD HK (conj HN1 HN2)).
  assert (RR := r_range x mn mx Kz Nz Hr HD HK (conj HN1 HN2)).
  assert (VR := v_range x mn mx Kz Nz Hr HD HK (conj HN1 HN2)).
  assert (QR := quot_range x mn mx Kz Nz Hr HD HK (conj HN1 HN2)).
  assert (Big : (10000000000 <= bpow radix2 1000)%R).
  { apply Rle_trans with (bpow radix2 34); [change (bpow radix2 34) with 17179869184%R; lra|apply bpow_big; lia]. }
  destruct (b64_div_ok (fsub x mn) (fsub mx mn) Fa) as [E1 F1]; [lra| |].
  { rewrite Ea, Ed, Rabs_pos_eq by apply Q0. lra. }
  rewrite Ea, Ed in E1.
  destruct (b64_mult_ok (fdiv (fsub x mn) (fsub mx mn)) (f64_of_Z Kz) F1 FK) as [E2 F2].
  { unfold fdiv. rewrite E1, EK. rewrite Rabs_pos_eq by (apply Rmult_le_pos; lra).
    apply Rle_trans with (1 * 4294967295)%R; [apply Rmult_le_compat; lra|lra]. }
  unfold fdiv in E2. rewrite E1, EK in E2.
  destruct (b64_plus_ok (fmul (fdiv (fsub x mn) (fsub mx mn)) (f64_of_Z Kz)) (f64_of_Z Nz) F2 FN) as [E3 F3].
  { unfold fmul, fdiv. rewrite E2, EN. apply Rabs_le. lra. }
  unfold fmul, fdiv in E3. rewrite E2, EN in E3.
  change (R64 (scale_height dt mn mx x) = rnd64 (rnd64 (rnd64 (rnd64 (R64 x - R64 mn) / rnd64 (R64 mx - R64 mn)) * IZR Kz) + IZR Nz)) in E3.
  change (fin64 (scale_height dt mn mx x)) in F3.
  assert (EC : cast dt (scale_height dt mn mx x) = Ztrunc (rnd64 (rnd64 (rnd64 (rnd64 (R64 x - R64 mn) / rnd64 (R64 mx - R64 mn)) * IZR Kz) + IZR Nz))).
  { rewrite <- E3. apply HC; [exact Hdt|exact Hint|exact F3|]. rewrite E3. unfold Kz, Nz in SR. unfold Kz, Nz. lia. }
  rewrite EC. remember (Ztrunc (rnd64 (rnd64 (rnd64 (rnd64 (R64 x - R64 mn) / rnd64 (R64 mx - R64 mn)) * IZR Kz) + IZR Nz))) as n eqn:En.
  clear E1 F1 E2 F2 E3 F3 EC.
  destruct (f64_of_Z_ok n) as [E0 F0]; [lia|].
  assert (Bn : (-4294967296 <= IZR n <= 4294967296)%R) by (split; apply IZR_le; lia).
  destruct (b64_plus_ok (f64_of_Z n) (f64_of_Z Nz) F0 FN) as [E1 F1]; [rewrite E0, EN; apply Rabs_le; lra|].
  rewrite E0, EN, <- plus_IZR, rnd64_IZR in E1 by lia.
  destruct (b64_div_ok (fadd (f64_of_Z n) (f64_of_Z Nz)) (f64_of_Z Kz) F1) as [E2 F2]; [lra| |].
  { unfold fadd. rewrite E1, EK. lra. }
  unfold fadd in E2. rewrite E1, EK in E2.
  destruct (b64_mult_ok (fdiv (fadd (f64_of_Z n) (f64_of_Z Nz)) (f64_of_Z Kz)) (fsub mx mn) F2 Fd) as [E3 F3].
  { unfold fdiv, fadd. rewrite E2. rewrite Rabs_mult. apply Rle_trans with (2 * bpow radix2 101)%R.
    - apply Rmult_le_compat; auto using Rabs_pos; [lra|]. rewrite Rabs_pos_eq; lra.
    - replace (2 * bpow radix2 101)%R with (bpow radix2 102) by (replace 102 with (1 + 101) by lia; rewrite bpow_plus; reflexivity). apply bpow_big. lia. }
  unfold fdiv, fadd in E3. rewrite E2, Ed in E3.
  destruct Hmn as [Fm Bm]. pose proof Hmx as [FM BM].
  destruct (b64_plus_ok (fmul (fdiv (fadd (f64_of_Z n) (f64_of_Z Nz)) (f64_of_Z Kz)) (fsub mx mn)) mn F3 Fm) as [E4 F4].
  { unfold fmul, fdiv, fadd. rewrite E3. eapply Rle_trans; [apply Rabs_triang|].
    apply Rle_trans with (8 * bpow radix2 100)%R.
    - apply Rabs_le_inv in BM. pose proof Bm as Bm'. apply Rabs_le_inv in Bm'. lra.
    - replace (8 * bpow radix2 100)%R with (bpow radix2 103) by (replace 103 with (3 + 100) by lia; rewrite bpow_plus; reflexivity). apply bpow_big. lia. }
  split; [exact F4|]. unfold unscale_height. fold Kz Nz. unfold fadd, fmul, fdiv. unfold fmul, fdiv, fadd in E4. rewrite E4, E3. exact ERR.
Qed.
End Heights.

Lemma Forall2_impl {A B} (P Q : A -> B -> Prop) : (forall a b, P a b -> Q a b) -> forall l l', Forall2 P l l' -> Forall2 Q l l'.
Proof. intros H l l' F. induction F; constructor; auto. Qed.
Lemma no_missing s : Forall fin64 (concat (rdata s)) -> has_missing s = false /\ measured s = concat (rdata s).
Proof.
  intros H. assert (A : forall l, Forall fin64 l -> List.filter (fun x => negb (isnan x)) l = l).
  { intros l F. induction F as [|x l Hx Hl IH]; cbn; [reflexivity|]. pose proof (fin_not_nan x Hx) as N. unfold nan64b in N. unfold isnan. rewrite N. cbn. f_equal. exact IH. }
  split; [|apply A, H]. unfold has_missing. destruct (existsb (existsb isnan) (rdata s)) eqn:E; [|reflexivity].
  apply existsb_exists in E as (r & Hr & E). apply existsb_exists in E as (x & Hx & E). exfalso.
  rewrite Forall_forall in H. assert (N := fin_not_nan x (H x ltac:(apply in_concat; exists r; auto))). unfold nan64b in N. unfold isnan in E. congruence.
Qed.
Lemma extremes s : Forall fin64 (concat (rdata s)) -> concat (rdata s) <> [] ->
  (In (amin s) (concat (rdata s)) /\ forall y, In y (concat (rdata s)) -> (R64 (amin s) <= R64 y)%R) /\
  (In (amax s) (concat (rdata s)) /\ forall y, In y (concat (rdata s)) -> (R64 y <= R64 (amax s))%R).
Proof.
  intros HF HN. destruct (no_missing s HF) as [M1 M2]. unfold amin, amax. rewrite M1. 
  pose proof (nanmin_spec s) as A. pose proof (nanmax_spec s) as B. rewrite M2 in A, B. split; [apply A|apply B]; assumption.
Qed.
Lemma shaped_nonempty s : shaped s -> concat (rdata s) <> [].
Proof.
  intros [R C Rect] E. pose proof (concat_length_grid (cols s) (rdata s) Rect) as L. rewrite E in L. fold (rows s) in L. cbn in L. nia.
Qed.
Lemma grid_map (P : f64 -> f64 -> Prop) f g : (forall x, In x (concat g) -> P x (f x)) -> Forall2 (Forall2 P) g (map (map f) g).
Proof.
  induction g as [|row g IH]; intros H; cbn [map]; constructor.
  - assert (G : forall x, In x row -> P x (f x)) by (intros x Hx; apply H; cbn; apply in_or_app; left; exact Hx). clear - G.
    induction row as [|x row IH]; cbn [map]; constructor; [apply G; left; reflexivity|apply IH; intros; apply G; right; assumption].
  - apply IH. intros x Hx. apply H. cbn. apply in_or_app. right. exact Hx.
Qed.

(** what every integer type gives: the file is written and read, steps and layers are kept, and each height comes back as
    [f] of it *)
Lemma int_file : forall c cast s (layers : list layer) n_meta comp (save : bool) dt (rl : bool), lossless (c_zlib c) -> lossless (c_lzma c) ->
  cast_ok cast -> int_type dt -> saveable c comp s (if save then layers else []) n_meta (store cast dt s) ->
  exists b r, write_sflz c cast s layers n_meta comp save dt = Ok b /\ read_sflz c rl (open_rb b) = Ok r /\
    sf_heights r = Some (map (map (unscaled cast dt s)) (rdata s)) /\ sf_step_x r = rstep_x s /\ sf_step_y r = rstep_y s /\
    sf_layers r = (if rl && save then map drop_single layers else []).
Proof.
  intros c cast s layers n_meta comp save dt rl Hz Hl HC HT [FR PL ND].
  destruct (int_type_facts dt HT) as (Hd & Hi & _).
  destruct (file_ok c Hz Hl cast s layers n_meta comp save dt Hd FR PL ND) as (head & lh & rest & W & _ & _ & R & _).
  cbv zeta in W, R. specialize (R rl). rewrite Hi in R. cbv iota in R.
  rewrite (int_heights cast dt s HC HT (sv_shape _ _ _ _ _ _ FR)) in R. cbn [rmap] in R.
  eexists. eexists. split; [exact W|]. split; [exact R|]. unfold back. cbn [sf_heights sf_step_x sf_step_y sf_layers].
  repeat (split; [reflexivity|]). destruct rl, save; reflexivity.
Qed.
Lemma int_error c cast s (layers : list layer) n_meta comp (save : bool) dt (rl : bool) lo hi : lossless (c_zlib c) -> lossless (c_lzma c) ->
  cast_ok cast -> int_type dt -> saveable c comp s (if save then layers else []) n_meta (store cast dt s) ->
  Forall small (concat (rdata s)) -> lowest s lo -> highest s hi -> (bpow radix2 (-90) <= hi - lo)%R ->
  exists b r hs, write_sflz c cast s layers n_meta comp save dt = Ok b /\ read_sflz c rl (open_rb b) = Ok r /\
    sf_heights r = Some hs /\ sf_step_x r = rstep_x s /\ sf_step_y r = rstep_y s /\
    sf_layers r = (if rl && save then map drop_single layers else []) /\
    Forall2 (Forall2 (fun x x' => fin64 x' /\ (Rabs (R64 x' - (R64 x + 2 * IZR (dmin dt) / IZR (dmax dt - dmin dt) * (hi - lo))) <=
      (hi - lo) / IZR (dmax dt - dmin dt) + bpow radix2 (-47) * Rmax (Rabs lo) (Rabs hi))%R)) (rdata s) hs.
Proof.
  intros Hz Hl HC HT SV HS [(xl & L1 & L2) LO] [(xh & U1 & U2) HI] HD.
  destruct (int_file c cast s layers n_meta comp save dt rl Hz Hl HC HT SV) as (b & r & W & R & E1 & E2 & E3 & E4).
  exists b, r. eexists. split; [exact W|]. split; [exact R|]. split; [exact E1|]. split; [exact E2|]. split; [exact E3|]. split; [exact E4|].
  assert (HF : Forall fin64 (concat (rdata s))) by (eapply Forall_impl; [|exact HS]; intros a [A _]; exact A).
  destruct (extremes s HF (shaped_nonempty s (sv_shape _ _ _ _ _ _ (sv_frame _ _ _ _ _ _ SV)))) as [[M1 M2] [X1 X2]].
  assert (El : R64 (amin s) = lo) by (apply Rle_antisym; [rewrite <- L2; apply M2, L1|apply LO, M1]).
  assert (Eh : R64 (amax s) = hi) by (apply Rle_antisym; [apply HI, X1|rewrite <- U2; apply X2, U1]).
  rewrite Forall_forall in HS. rewrite <- El, <- Eh. apply grid_map. intros x Hx.
  apply (height_error cast HC dt HT (amin s) (amax s)).
  - apply HS, M1.
  - apply HS, X1.
  - rewrite El, Eh. exact HD.
  - apply HS, Hx.
  - split; [apply M2, Hx|apply X2, Hx].
Qed.

(** *** C47: with unsigned integer storage of 1, 2 or 4 bytes every height comes back within one quantisation step (the range
    divided by the number of levels) plus rounding. *)
Theorem C47_uint : forall c cast s (layers : list layer) n_meta comp (save : bool) n (rl : bool) lo hi, lossless (c_zlib c) -> lossless (c_lzma c) ->
  cast_ok cast -> (n = 1 \/ n = 2 \/ n = 4)%nat -> saveable c comp s (if save then layers else []) n_meta (store cast (U n) s) ->
  Forall small (concat (rdata s)) -> lowest s lo -> highest s hi -> (bpow radix2 (-90) <= hi - lo)%R ->
  exists b r hs, write_sflz c cast s layers n_meta comp save (U n) = Ok b /\ read_sflz c rl (open_rb b) = Ok r /\
    sf_heights r = Some hs /\ sf_step_x r = rstep_x s /\ sf_step_y r = rstep_y s /\
    sf_layers r = (if rl && save then map drop_single layers else []) /\
    Forall2 (Forall2 (fun x x' => fin64 x' /\ (Rabs (R64 x' - R64 x) <=
      (hi - lo) / IZR (2 ^ (8 * Z.of_nat n) - 1) + bpow radix2 (-47) * Rmax (Rabs lo) (Rabs hi))%R)) (rdata s) hs.
Proof.
  intros c cast s layers n_meta comp save n rl lo hi Hz Hl HC Hn SV HS Lo Hi HD.
  destruct (int_error c cast s layers n_meta comp save (U n) rl lo hi Hz Hl HC (ex_intro _ n (conj Hn (or_introl eq_refl))) SV HS Lo Hi HD)
    as (b & r & hs & W & R & E1 & E2 & E3 & E4 & F).
  exists b, r, hs. do 6 (split; [assumption|]).
  eapply Forall2_impl; [|exact F]. intros row row' H. eapply Forall2_impl; [|exact H]. cbv beta. intros x x' [F1 F2]. split; [exact F1|].
  cbn [dmin dmax] in F2. rewrite Z.sub_0_r in F2.
  replace (R64 x' - R64 x)%R with (R64 x' - (R64 x + 2 * 0 / IZR (2 ^ (8 * Z.of_nat n) - 1) * (hi - lo)))%R; [exact F2|].
  unfold Rdiv. ring.
Qed.

(** *** The same claim is false for signed integer storage: the offset of the type is added once more by the reader, instead of
    being subtracted, and every height comes back lower by 2^b/(2^b-1) times the whole height range. *)
Theorem C47_signed_refuted : forall c cast s (layers : list layer) n_meta comp (save : bool) n (rl : bool) lo hi, lossless (c_zlib c) -> lossless (c_lzma c) ->
  cast_ok cast -> (n = 1 \/ n = 2 \/ n = 4)%nat -> saveable c comp s (if save then layers else []) n_meta (store cast (I n) s) ->
  Forall small (concat (rdata s)) -> lowest s lo -> highest s hi -> (bpow radix2 (-90) <= hi - lo)%R ->
  let levels := IZR (2 ^ (8 * Z.of_nat n) - 1) in
  exists b r hs, write_sflz c cast s layers n_meta comp save (I n) = Ok b /\ read_sflz c rl (open_rb b) = Ok r /\ sf_heights r = Some hs /\
    Forall2 (Forall2 (fun x x' => Rabs (R64 x' - (R64 x - (1 + / levels) * (hi - lo))) <=
      (hi - lo) / levels + bpow radix2 (-47) * Rmax (Rabs lo) (Rabs hi))%R) (rdata s) hs.
Proof.
  intros c cast s layers n_meta comp save n rl lo hi Hz Hl HC Hn SV HS Lo Hi HD levels.
  destruct (int_error c cast s layers n_meta comp save (I n) rl lo hi Hz Hl HC (ex_intro _ n (conj Hn (or_intror eq_refl))) SV HS Lo Hi HD)
    as (b & r & hs & W & R & E1 & E2 & E3 & E4 & F).
  exists b, r, hs. do 3 (split; [assumption|]).
  eapply Forall2_impl; [|exact F]. intros row row' H. eapply Forall2_impl; [|exact H]. cbv beta. intros x x' [F1 F2].
  assert (EK : dmax (I n) - dmin (I n) = 2 ^ (8 * Z.of_nat n) - 1) by (destruct Hn as [->|[->| ->]]; reflexivity).
  assert (EN : (2 * IZR (dmin (I n)) = - (levels + 1))%R).
  { rewrite <- mult_IZR. unfold levels. rewrite <- plus_IZR, <- opp_IZR. f_equal. destruct Hn as [->|[->| ->]]; reflexivity. }
  assert (PL : (0 < levels)%R) by (unfold levels; apply IZR_lt; destruct Hn as [->|[->| ->]]; reflexivity).
  rewrite EK, EN in F2. fold levels in F2.
  replace (R64 x - (1 + / levels) * (hi - lo))%R with (R64 x + - (levels + 1) / levels * (hi - lo))%R; [exact F2|]. field. lra.
Qed.

(** *** Flat surfaces: when all heights are equal, every integer type gives them back exactly, whatever the conversion of 0/0 is. *)
Theorem C47_flat : forall c cast s (layers : list layer) n_meta comp (save : bool) dt (rl : bool) h, lossless (c_zlib c) -> lossless (c_lzma c) ->
  cast_ok cast -> int_type dt -> saveable c comp s (if save then layers else []) n_meta (store cast dt s) ->
  Forall (fun x => small x /\ R64 x = h) (concat (rdata s)) ->
  exists b r hs, write_sflz c cast s layers n_meta comp save dt = Ok b /\ read_sflz c rl (open_rb b) = Ok r /\ sf_heights r = Some hs /\
    Forall2 (Forall2 (fun x x' => fin64 x' /\ R64 x' = R64 x)) (rdata s) hs.
Proof.
  intros c cast s layers n_meta comp save dt rl h Hz Hl HC HT SV HS.
  destruct (int_file c cast s layers n_meta comp save dt rl Hz Hl HC HT SV) as (b & r & W & R & E1 & _).
  exists b, r. eexists. split; [exact W|]. split; [exact R|]. split; [exact E1|].
  assert (HF : Forall fin64 (concat (rdata s))) by (eapply Forall_impl; [|exact HS]; intros a [[A _] _]; exact A).
  destruct (extremes s HF (shaped_nonempty s (sv_shape _ _ _ _ _ _ (sv_frame _ _ _ _ _ _ SV)))) as [[M1 _] [X1 _]].
  rewrite Forall_forall in HS. destruct (HS _ M1) as [Smn Emn]. destruct (HS _ X1) as [Smx Emx].
  apply grid_map. intros x Hx. destruct (HS x Hx) as [Sx Ex]. unfold unscaled.
  destruct (int_type_facts dt HT) as (Hdt & Hi & HK & HN1 & HN2).
  destruct (HC dt (scale_height dt (amin s) (amax s) x) Hdt Hi) as [Rg _]. remember (cast dt (scale_height dt (amin s) (amax s) x)) as n eqn:En. clear En.
  destruct (sub_small (amax s) (amin s) Smx Smn) as (Ed & Fd & _). rewrite Emx, Emn, Rminus_diag_eq, rnd64_0 in Ed by reflexivity.
  unfold unscale_height. set (Kz := dmax dt - dmin dt) in *.
  destruct (f64_of_Z_ok n) as [E0 F0]; [lia|]. destruct (f64_of_Z_ok (dmin dt)) as [EN FN]; [lia|]. destruct (f64_of_Z_ok Kz) as [EK FK]; [lia|].
  assert (Big : (10000000000 <= bpow radix2 1000)%R).
  { apply Rle_trans with (bpow radix2 34); [change (bpow radix2 34) with 17179869184%R; lra|apply bpow_big; lia]. }
  assert (B1 : (-4294967296 <= IZR n <= 4294967296)%R) by (split; apply IZR_le; lia).
  assert (B2 : (-4294967296 <= IZR (dmin dt) <= 0)%R) by (split; apply IZR_le; lia).
  assert (B3 : (255 <= IZR Kz <= 4294967295)%R) by (split; apply IZR_le; lia).
  destruct (b64_plus_ok (f64_of_Z n) (f64_of_Z (dmin dt)) F0 FN) as [G1 F1]; [rewrite E0, EN; apply Rabs_le; lra|].
  rewrite E0, EN, <- plus_IZR, rnd64_IZR in G1 by lia.
  assert (Bs : (Rabs (IZR (n + dmin dt)) <= 8589934592)%R).
  { rewrite <- abs_IZR. apply IZR_le. lia. }
  destruct (b64_div_ok (fadd (f64_of_Z n) (f64_of_Z (dmin dt))) (f64_of_Z Kz) F1) as [G2 F2]; [lra| |].
  { unfold fadd. rewrite G1, EK. unfold Rdiv. rewrite Rabs_mult, Rabs_inv, (Rabs_pos_eq (IZR Kz)) by lra.
    apply Rmult_le_reg_r with (IZR Kz); [lra|]. rewrite Rmult_assoc, Rinv_l, Rmult_1_r by lra.
    apply Rle_trans with (10000000000 * 1)%R; [lra|]. apply Rmult_le_compat; lra. }
  destruct (b64_mult_ok (fdiv (fadd (f64_of_Z n) (f64_of_Z (dmin dt))) (f64_of_Z Kz)) (fsub (amax s) (amin s)) F2 Fd) as [G3 F3].
  { rewrite Ed, Rmult_0_r, Rabs_R0. apply bpow_ge_0. }
  rewrite Ed, Rmult_0_r, rnd64_0 in G3. destruct Smn as [Fm Bm].
  destruct (b64_plus_ok (fmul (fdiv (fadd (f64_of_Z n) (f64_of_Z (dmin dt))) (f64_of_Z Kz)) (fsub (amax s) (amin s))) (amin s) F3 Fm) as [G4 F4].
  { unfold fmul. rewrite G3, Rplus_0_l. eapply Rle_trans; [exact Bm|apply bpow_big; lia]. }
  split; [exact F4|]. unfold fadd at 1. rewrite G4. unfold fmul. rewrite G3, Rplus_0_l, rnd64_id. congruence.
Qed.

(** *** One gap destroys the surface: with an integer type, a single non-measured point turns every height of the file into NaN. *)
Theorem C47_gap_refuted : forall c cast s (layers : list layer) n_meta comp (save : bool) dt (rl : bool), lossless (c_zlib c) -> lossless (c_lzma c) ->
  cast_ok cast -> int_type dt -> saveable c comp s (if save then layers else []) n_meta (store cast dt s) ->
  (exists x, In x (concat (rdata s)) /\ isnan x = true) ->
  exists b r hs, write_sflz c cast s layers n_meta comp save dt = Ok b /\ read_sflz c rl (open_rb b) = Ok r /\ sf_heights r = Some hs /\
    Forall2 (Forall2 (fun x x' => isnan x' = true)) (rdata s) hs.
Proof.
  intros c cast s layers n_meta comp save dt rl Hz Hl HC HT SV (g & G1 & G2).
  destruct (int_file c cast s layers n_meta comp save dt rl Hz Hl HC HT SV) as (b & r & W & R & E1 & _).
  exists b, r. eexists. split; [exact W|]. split; [exact R|]. split; [exact E1|].
  apply in_concat in G1 as (row & R1 & R2).
  assert (HM : has_missing s = true).
  { unfold has_missing. apply existsb_exists. exists row. split; [exact R1|]. apply existsb_exists. exists g. auto. }
  apply (grid_map (fun x x' => isnan x' = true)). intros x _. unfold unscaled, unscale_height.
  assert (EA : amin s = nan64) by (unfold amin; rewrite HM; reflexivity). rewrite EA. unfold isnan, fadd, b64_plus, Binary.Bplus.
  remember (fmul _ _) as v. change (fun x => Binary.is_nan 53 1024 x) with (Binary.is_nan 53 1024). destruct v; reflexivity.
Qed.

(** *** C51 for .sflz, reading the image layers: no proper prefix of a written file can be loaded (given that the compression
    libraries reject cut streams). *)
Theorem C51_sflz_truncated : forall c cast s (layers : list layer) n_meta comp (save : bool) dt b k,
  lossless (c_zlib c) -> lossless (c_lzma c) -> rejects_cut (c_zlib c) -> rejects_cut (c_lzma c) -> In dt dtypes ->
  saveable c comp s (if save then layers else []) n_meta (store cast dt s) ->
  write_sflz c cast s layers n_meta comp save dt = Ok b -> (k < length b)%nat -> exists e, read_sflz c true (open_rb (firstn k b)) = Err e.
Proof.
  intros c cast s layers n_meta comp save dt b k Hz Hl Rz Rl Hd [FR PL ND] HW Hk.
  destruct (file_ok c Hz Hl cast s layers n_meta comp save dt Hd FR PL ND) as (head & lh & rest & W & _ & _ & _ & _ & CUT).
  cbv zeta in W, CUT. rewrite W in HW. apply (f_equal (fun x => match x with Ok y => y | Err _ => b end)) in HW. cbv beta iota in HW. subst b.
  destruct (CUT Rz Rl) as (_ & _ & C3). apply C3, Hk.
Qed.
(** Surface.load does not read image layers by default: then a file is rejected exactly if it was cut before the end of the heights.  A
    file with image layers that was cut later loads without an error, and the surface is that of the complete file. *)
Theorem C51_sflz_default_refuted : forall c cast s (layers : list layer) n_meta comp (save : bool) dt b,
  lossless (c_zlib c) -> lossless (c_lzma c) -> rejects_cut (c_zlib c) -> rejects_cut (c_lzma c) -> dt = F8 ->
  saveable c comp s (if save then layers else []) n_meta (store cast dt s) ->
  write_sflz c cast s layers n_meta comp save dt = Ok b ->
  exists n, (forall k, (k < n)%nat -> exists e, read_sflz c false (open_rb (firstn k b)) = Err e) /\
    (forall k, (n <= k)%nat -> exists r, read_sflz c false (open_rb (firstn k b)) = Ok r /\ sf_heights r = Some (rdata s)) /\
    ((if save then layers else []) <> [] -> (n < length b)%nat).
Proof.
  intros c cast s layers n_meta comp save dt b Hz Hl Rz Rl Edt SV HW. pose proof SV as [FR PL ND].
  assert (Hd : In dt dtypes) by (rewrite Edt; cbn; tauto).
  destruct (file_ok c Hz Hl cast s layers n_meta comp save dt Hd FR PL ND) as (head & lh & rest & W & _ & _ & R & NE & CUT).
  cbv zeta in W, CUT, NE, R. assert (EB := HW). rewrite W in EB. apply (f_equal (fun x => match x with Ok y => y | Err _ => b end)) in EB. cbv beta iota in EB.
  destruct (C47_float c cast s layers n_meta comp save dt false Hz Hl (or_introl Edt) SV) as (b' & r & hs & W' & R' & E1 & _ & _ & _ & E2 & _).
  rewrite HW in W'. apply (f_equal (fun x => match x with Ok y => y | Err _ => b end)) in W'. cbv beta iota in W'. subst b'.
  destruct (CUT Rz Rl) as (C1 & C2 & _). rewrite EB in C1, C2, R.
  exists (length (str "SFLZ" ++ head ++ lh ++ ccompress c comp (store cast dt s))). split; [intros k Hk; apply C1, Hk|]. split.
  - intros k Hk. exists r. rewrite C2, <- R by exact Hk. split; [exact R'|]. rewrite E1, (E2 Edt). reflexivity.
  - intros Hne. specialize (NE Hne). rewrite <- EB, !app_length. lia.
Qed.

(** *** Layer names: the length field counts characters, the name field is that many bytes.  A layer called "\u00b5" is saved without
    complaint and makes the file unreadable (when image layers are read). *)
Theorem C47_layer_name_refuted : forall c cast s l n_meta comp, lossless (c_zlib c) -> lossless (c_lzma c) ->
  framed c comp s [l] n_meta (store cast F8 s) ->
  lname l = [181] -> In (ldt l) dtypes -> image_shape (lshape l) -> zlen (ccompress c comp (lbytes l)) < 2 ^ 32 ->
  exists b, write_sflz c cast s [l] n_meta comp true F8 = Ok b /\ read_sflz c true (open_rb b) = Err UnicodeError.
Proof.
  intros c cast s l n_meta comp Hz Hl FR Hn Hd Hs Hsz.
  destruct (frame_ok c Hz Hl cast s [l] n_meta comp true F8 ltac:(cbn; tauto) FR) as (head & lh & _ & _ & WR & MID & _). cbv zeta in WR, MID.
  destruct l as [name sh dt b]. cbn [lname lshape ldt lbytes] in *. subst name.
  assert (G : exists h w rest ch, sh = h :: w :: rest /\ 0 <= ch < 256 /\ (match rest with [] => 1 | _ => Z.of_nat (last rest 0%nat) end) = ch /\
     Z.of_nat h < 2 ^ 32 /\ Z.of_nat w < 2 ^ 32).
  { destruct sh as [|h [|w [|ch [|]]]]; cbn [image_shape] in Hs; try contradiction.
    - exists h, w, [], 1. repeat split; try lia; apply Hs.
    - exists h, w, [ch], (Z.of_nat ch). cbn [last]. repeat split; try lia; try apply Hs. }
  destruct G as (h & w & rest & ch & -> & Hc & Ec & Hh & Hw).
  pose (d := layer_header [181] (Z.of_nat w) (Z.of_nat h) ch dt (zlen (ccompress c comp b))).
  assert (HI : forall z, 0 <= z < 2 ^ 32 -> reads_back Utf8 Utf8 fmt_I (VInt z) (VInt z)).
  { intros z Hz'. apply rb_int; [lia|]. cbn [int_fits]. change (8 * Z.of_nat 4) with 32. lia. }
  assert (ST : exists fin k, storable Utf8 Utf8 d [] (tl (tl layer_layout)) fin k).
  { eexists. eexists. unfold layer_layout, E. cbn [tl].
    eapply (st_fixed _ _ _ "width"%string fmt_I (VInt (Z.of_nat w)) (VInt (Z.of_nat w))); [reflexivity|apply HI; lia|].
    eapply (st_fixed _ _ _ "height"%string fmt_I (VInt (Z.of_nat h)) (VInt (Z.of_nat h))); [reflexivity|apply HI; lia|].
    eapply (st_fixed _ _ _ "channels"%string fmt_B (VInt ch) (VInt ch)); [reflexivity|apply rb_int; [lia|]|].
    { cbn [int_fits]. change (2 ^ (8 * Z.of_nat 1)) with 256. lia. }
    eapply (st_fixed _ _ _ "datatype"%string (FStr 3) (VStr (dstr dt)) (VStr (dstr dt))); [reflexivity|apply dtype_field, Hd|].
    eapply (st_fixed _ _ _ "size"%string fmt_I _ (VInt (zlen (ccompress c comp b)))); [reflexivity|apply HI; unfold zlen in *; lia|].
    apply st_nil. }
  destruct ST as (fin & k & ST). destruct (layout_roundtrip _ _ _ _ _ _ _ ST) as (tail & WT & _).
  assert (EW : write_layout Utf8 d layer_layout = Ok ([1; 0] ++ [194] ++ tail)).
  { change layer_layout with (E "name_length" fmt_H :: Entry "name" (FromPrev "name_length") :: tl (tl layer_layout)).
    cbn [write_layout].
    assert (E1 : write_entry Utf8 d (E "name_length" fmt_H) = Ok [1; 0]) by reflexivity.
    assert (E2 : write_entry Utf8 d (Entry "name" (FromPrev "name_length")) = Ok [194]) by reflexivity.
    rewrite E1. cbn [rbind]. rewrite E2. cbn [rbind]. rewrite WT. reflexivity. }
  assert (EL : write_layers c comp [{| lname := [181]; lshape := h :: w :: rest; ldt := dt; lbytes := b |}] = Ok (([1; 0] ++ [194] ++ tail) ++ ccompress c comp b)).
  { cbn [write_layers]. unfold write_layer. cbn [lname lshape ldt lbytes]. cbv zeta. rewrite Ec. fold d. rewrite EW. cbn [rmap rbind]. rewrite app_nil_r. reflexivity. }
  eexists. split; [apply WR; exact EL|]. rewrite MID.
  pose proof (f64_array_tobytes (concat (rdata s))) as A. unfold f64_array in A. apply rmap_ok in A as (items & A1 & A2).
  pose proof (sv_shape _ _ _ _ _ _ FR) as [_ _ Rect].
  assert (EH : layer_heights (is_int F8) (if is_int F8 then amin s else f64_of_Z 0) (if is_int F8 then amax s else f64_of_Z 0)
      {| lname := str "topography"; lshape := [rows s; cols s]; ldt := F8; lbytes := store cast F8 s |} = Ok (rdata s)).
  { unfold layer_heights. cbn [lshape ldt lbytes is_int dsize store]. rewrite A1. cbn [rbind]. rewrite <- A2. unfold rows. apply reshape_rows, Rect. }
  rewrite EH. cbn [rbind length read_layers]. unfold read_layer at 1, read_layout.
  change layer_layout with (E "name_length" fmt_H :: Entry "name" (FromPrev "name_length") :: tl (tl layer_layout)).
  remember ((str "SFLZ" ++ head) ++ lh ++ ccompress c comp (store cast F8 s)) as pre eqn:Epre. clear Epre.
  rewrite <- !app_assoc. remember (tail ++ ccompress c comp b) as t eqn:Et. clear Et.
  cbn [read_layout_from].
  assert (R1 : read_entry Utf8 (E "name_length" fmt_H) [] (at_ pre ([1; 0] ++ [194] ++ t)) = Ok ([("name_length"%string, VInt 1)], at_ (pre ++ [1; 0]) ([194] ++ t))).
  { unfold E. cbn [read_entry rbind]. unfold read_value. pose proof (fread_at pre [1; 0] ([194] ++ t)) as F. change (length [1; 0]) with (calcsize fmt_H) in F.
    rewrite F. reflexivity. }
  rewrite R1. cbn [rbind].
  assert (R2 : read_entry Utf8 (Entry "name" (FromPrev "name_length")) [("name_length"%string, VInt 1)] (at_ (pre ++ [1; 0]) ([194] ++ t)) = Err UnicodeError).
  { cbn [read_entry]. assert (G : get_format [("name_length"%string, VInt 1)] "name_length" = Ok (FStr 1)) by reflexivity.
    rewrite G. cbn [rbind]. unfold read_value. pose proof (fread_at (pre ++ [1; 0]) [194] t) as F. change (length [194]) with (calcsize (FStr 1)) in F.
    rewrite F. reflexivity. }
  rewrite R2. reflexivity.
Qed.

(** the hypotheses are met: a 2 x 2 surface with two image layers (one with three channels), stored uncompressed as float64 and as
    uint16; a conversion that satisfies [cast_ok]; compression libraries that satisfy the contracts *)
Definition ex_layers : list layer :=
  [{| lname := str "RGB"; lshape := [1; 2; 3]%nat; ldt := U 1; lbytes := [1; 2; 3; 4; 5; 6] |};
   {| lname := str "Intensity"; lshape := [2; 2]%nat; ldt := U 2; lbytes := [0; 1; 0; 2; 0; 3; 0; 4] |}].
Definition ex_surface : raw := {| rdata := [[f64_of_Z 1; f64_of_Z 4]; [f64_of_Z (-7); f64_of_Z 3]]; rstep_x := f64_of_Z 1; rstep_y := f64_of_Z 2 |}.
Definition ex_cast (dt : dtype) (x : f64) : Z := Z.max (dmin dt) (Z.min (dmax dt) (Ztrunc (R64 x))).
(** a toy code that satisfies both contracts: the length in front *)
Definition framed_code : zlib := {|
  compress := fun b => zlen b :: b;
  decompress := fun b => match b with [] => Err ValueError | n :: t => if n =? zlen t then Ok t else Err ValueError end |}.
Theorem C47_example :
  let c := {| c_zlib := framed_code; c_lzma := framed_code |} in
  lossless framed_code /\ rejects_cut framed_code /\ cast_ok ex_cast /\
  saveable c (str "zlib") ex_surface ex_layers 0 (store ex_cast F8 ex_surface) /\
  saveable c (str "none") ex_surface ex_layers 0 (store ex_cast (U 2) ex_surface) /\
  Forall small (concat (rdata ex_surface)) /\ lowest ex_surface (-7) /\ highest ex_surface 4 /\ (bpow radix2 (-90) <= 4 - -7)%R.
Proof.
  cbv zeta.
  assert (CO : cast_ok ex_cast).
  { intros dt x Hd Hi. unfold ex_cast. assert (dmin dt <= dmax dt).
    { unfold dtypes in Hd. repeat (destruct Hd as [<-|Hd]; [vm_compute; discriminate|]). destruct Hd. }
    split; [lia|]. intros _ R. lia. }
  assert (EV : forall z, Z.abs z <= 100 -> R64 (f64_of_Z z) = IZR z /\ fin64 (f64_of_Z z)) by (intros z H; apply f64_of_Z_ok; lia).
  assert (SH : shaped ex_surface) by (constructor; [cbn; lia|cbn; lia|repeat constructor]).
  assert (NM : forall n l, In (n, l) [(1%nat, str "RGB"); (2%nat, str "Intensity")] -> plain_name l).
  { intros n l H. destruct H as [E|[E|[]]]; injection E as <- <-; (split; [vm_compute; repeat constructor; discriminate|split; [reflexivity|apply last_ok; vm_compute; reflexivity]]). }
  assert (PL : forall comp, known_compression comp -> Forall (image_layer {| c_zlib := framed_code; c_lzma := framed_code |} comp) ex_layers).
  { intros comp Hc. constructor; [|constructor; [|constructor]].
    - constructor; [apply (NM 1%nat); left; reflexivity|cbn; tauto|cbn; lia|reflexivity|]. destruct Hc as [->|[->| ->]]; reflexivity.
    - constructor; [apply (NM 2%nat); right; left; reflexivity|cbn; tauto|cbn; lia|reflexivity|]. destruct Hc as [->|[->| ->]]; reflexivity. }
  assert (ND : NoDup (map lname ex_layers)).
  { constructor; [intros [H|[]]; discriminate|]. constructor; [intros []|constructor]. }
  assert (LEN : forall dt, length (store ex_cast dt ex_surface) = (2 * (2 * 1) * dsize dt)%nat) by (intros dt; apply store_length, SH).
  split. { intros b. cbn. rewrite Z.eqb_refl. reflexivity. }
  split. { intros b k Hk. cbn [compress decompress framed_code length] in *. destruct k as [|k]; [eexists; reflexivity|]. cbn [firstn].
    destruct (Z.eqb_spec (zlen b) (zlen (firstn k b))) as [E|E]; [|eexists; reflexivity]. unfold zlen in E. rewrite firstn_length in E. cbn in Hk. lia. }
  split; [exact CO|].
  split. { constructor; [constructor; [exact SH|reflexivity|reflexivity|right; left; reflexivity|reflexivity|lia|]|apply PL; right; left; reflexivity|exact ND].
    unfold ccompress. change (zs_eqb (str "zlib") (str "zlib")) with true. cbn [c_zlib compress framed_code]. unfold zlen. cbn [length]. rewrite LEN. reflexivity. }
  split. { constructor; [constructor; [exact SH|reflexivity|reflexivity|left; reflexivity|reflexivity|lia|]|apply PL; left; reflexivity|exact ND].
    unfold ccompress. change (zs_eqb (str "none") (str "zlib")) with false. change (zs_eqb (str "none") (str "lzma")) with false. unfold zlen. rewrite LEN. reflexivity. }
  assert (SM : forall z, Z.abs z <= 100 -> small (f64_of_Z z)).
  { intros z H. destruct (EV z H) as [E F]. split; [exact F|]. rewrite E, <- abs_IZR. apply Rle_trans with (IZR 128); [apply IZR_le; lia|].
    change (IZR 128) with (bpow radix2 7). apply bpow_le. lia. }
  split. { change (concat (rdata ex_surface)) with [f64_of_Z 1; f64_of_Z 4; f64_of_Z (-7); f64_of_Z 3].
    repeat (constructor; [apply SM; vm_compute; discriminate|]). constructor. }
  assert (IN : forall x, In x (concat (rdata ex_surface)) -> exists z, x = f64_of_Z z /\ -7 <= z <= 4).
  { change (concat (rdata ex_surface)) with [f64_of_Z 1; f64_of_Z 4; f64_of_Z (-7); f64_of_Z 3].
    intros x H. cbn [In] in H. destruct H as [<-|[<-|[<-|[<-|[]]]]]; eexists; (split; [reflexivity|lia]). }
  split. { split.
    - exists (f64_of_Z (-7)). split; [|apply EV; vm_compute; discriminate].
      change (concat (rdata ex_surface)) with [f64_of_Z 1; f64_of_Z 4; f64_of_Z (-7); f64_of_Z 3]. right. right. left. reflexivity.
    - intros x Hx. destruct (IN x Hx) as (z & -> & Rz). destruct (EV z ltac:(lia)) as [E _]. rewrite E. apply IZR_le. lia. }
  split. { split.
    - exists (f64_of_Z 4). split; [|apply EV; vm_compute; discriminate].
      change (concat (rdata ex_surface)) with [f64_of_Z 1; f64_of_Z 4; f64_of_Z (-7); f64_of_Z 3]. right. left. reflexivity.
    - intros x Hx. destruct (IN x Hx) as (z & -> & Rz). destruct (EV z ltac:(lia)) as [E _]. rewrite E. apply IZR_le. lia. }
  apply Rle_trans with (bpow radix2 0); [apply bpow_le; lia|]. change (bpow radix2 0) with 1%R. lra.
Qed.

(** Whatever file is read, no two image layers carry the same name (a later layer replaces an earlier one). *)
Lemma lput_names l x : NoDup (map lname l) -> NoDup (map lname (lput l x)) /\ (forall n, In n (map lname (lput l x)) <-> n = lname x \/ In n (map lname l)).
Proof.
  induction l as [|y l IH]; intros H; cbn [lput map].
  - split; [constructor; [intros []|constructor]|]. intros n. cbn. intuition congruence.
  - cbn [map] in H. inversion H as [|? ? Hy Hl]; subst. destruct (zs_eqb (lname x) (lname y)) eqn:E; cbn [map].
    + apply zs_eqb_eq in E. rewrite E. split; [constructor; assumption|]. intros n. cbn. intuition congruence.
    + destruct (IH Hl) as [I1 I2]. split.
      * constructor; [|exact I1]. intros K. apply I2 in K as [K|K]; [|contradiction]. rewrite K, zs_eqb_refl in E. discriminate.
      * intros n. cbn [In]. rewrite I2. intuition.
Qed.
Lemma read_layers_names c comp n : forall acc h ls, NoDup (map lname acc) -> read_layers c comp n acc h = Ok ls -> NoDup (map lname ls).
Proof.
  induction n as [|n IH]; intros acc h ls Ha H; cbn [read_layers] in H.
  - injection H as <-. exact Ha.
  - destruct (read_layer c comp h) as [[x h']|e]; cbn [rbind] in H; [|discriminate]. apply (IH _ _ _ (proj1 (lput_names acc x Ha)) H).
Qed.
Theorem C47_layer_names_distinct : forall c rl h r, read_sflz c rl h = Ok r -> NoDup (map lname (sf_layers r)).
Proof.
  intros c rl h r H. unfold read_sflz in H. destruct (fread 4 h) as [m h1]. destruct (negb _); [discriminate|].
  repeat match type of H with rbind ?x _ = Ok _ => destruct x as [?|?]; cbn [rbind] in H; [|discriminate] end.
  destruct a as [d h2]. cbn [rbind] in H.
  repeat match type of H with rbind ?x _ = Ok _ => destruct x as [?|?]; cbn [rbind] in H; [|discriminate] end.
  destruct (if rl then _ else _).
  - injection H as <-. constructor.
  - destruct (read_layer _ _ h2) as [[x h3]|]; cbn [rbind] in H; [|discriminate].
    match type of H with rbind ?x _ = Ok _ => destruct x as [hs|?]; cbn [rbind] in H; [|discriminate] end.
    match type of H with rbind ?x _ = Ok _ => destruct x as [ls|?] eqn:E; cbn [rbind] in H; [|discriminate] end.
    injection H as <-. cbn [sf_layers]. eapply read_layers_names; [|exact E].
    destruct hs; [constructor|constructor; [intros []|constructor]].
Qed.
