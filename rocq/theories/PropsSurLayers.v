(** C99: Digital Surf files of any program.  A .sur file is a header of 512 bytes, a comment, a private zone and the
    points as 16 or 32 bit integers, as they are or zipped; an "RGB + intensity" surface is followed by four more such
    objects (red, green, blue, intensity).  What is loaded is exactly what these bytes say. *)
From Coq Require Import String Ascii ZArith Lia Bool Reals Lra.
From Coq Require Import List.
From Flocq Require Import Core.Raux Core.Defs Core.Zaux IEEE754.BinarySingleNaN IEEE754.Binary IEEE754.Bits.
From Verif Require Import Base ModelBytes SpecBytes ProofBytes PropsLayout PropsMagic PropsFits ModelUnits ModelSur ModelFormats ModelReaders SpecReaders ProofReaders ProofFloat ModelSurLayers ProofSurLayers.
Import ListNotations.
Local Open Scope Z_scope.

Local Strategy opaque [values values_ok hint hstr hflt uint i16 i32 sur_layout].

(** ** The specification *)
(** the factor from the unit named at offset [o] to micrometres, as a double *)
Definition unit_is (lower : pystr -> pystr) (en : encoding) (b : bytes) (o : nat) (f : f64) : Prop :=
  exists u e, text_at en b o 16 u /\ conversion_exponent lower u (str "um") = Ok e /\ f = pow10 e.
(** the kinds of file that are surfaces: a surface, Gwyddion's mislabelled surface, an RGB + intensity surface *)
Definition plain_surface (en : encoding) (b : bytes) : Prop :=
  i16 b 18 = 2 \/ (i16 b 18 = 1 /\ text_at en b 20 30 (str "SCRATCH") /\ text_at en b 50 30 (str "csm")).
Definition is_surface (en : encoding) (b : bytes) : Prop := plain_surface en b \/ i16 b 18 = 16.
(** the lengths in the header of the object at [p] are not negative, and there are points *)
Definition sane (b : bytes) (p : nat) : Prop :=
  0 <= i16 b (p + 334) /\ 0 <= i16 b (p + 336) /\ 0 < i32 b (p + 112) /\ 0 < i32 b (p + 108).
(** the heights and steps, from the integers v i j of the file *)
Definition heights_are (lower : pystr -> pystr) (en : encoding) (b : bytes) (ny nx : nat) (v : nat -> nat -> Z) (s : raw) : Prop :=
  exists fx fy fz, unit_is lower en b 180 fx /\ unit_is lower en b 196 fy /\ unit_is lower en b 212 fz /\
    table_is (rdata s) ny nx (fun i j h =>
      let gap := i16 b 86 = 1 /\ v i j = i32 b 100 - 2 in
      (gap -> isnan h = true) /\
      (~ gap -> h = fadd (fmul (fmul (f64_of_Z (v i j)) (single_at b 128)) fz) (single_at b 474))) /\
    rstep_x s = fmul fx (single_at b 120) /\ rstep_y s = fmul fy (single_at b 124).
(** a complete object: as [sur_object], and its header can be read *)
Definition texts_readable (en : encoding) (b : bytes) (p : nat) : Prop :=
  forall o n, In (o, n) [(0, 12); (20, 30); (50, 30); (132, 16); (148, 16); (164, 16); (180, 16); (196, 16); (212, 16); (228, 16);
    (244, 16); (260, 16); (338, 128); (486, 13); (499, 13)]%nat -> exists t, decode en (slice (p + o) n b) = Ok t.
Definition complete (z : zlib) (en : encoding) (b : bytes) (p ny nx : nat) (v : nat -> nat -> Z) (q : nat) : Prop :=
  sur_object z en b p ny nx v q /\ 0 <= i16 b (p + 334) /\ 0 <= i16 b (p + 336) /\ texts_readable en b p /\
  1 <= i16 b (p + 18) <= 19 /\ 0 <= i16 b (p + 82) <= 10 /\
  (text_at en b p 12 (str "DIGITAL SURF") -> i32 b (p + 116) = Z.of_nat (ny * nx)).

(** ** Lemmas *)
Lemma nan_plus (x : f64) : isnan (fadd nan64 x) = true.
Proof. unfold isnan, fadd, b64_plus, Binary.Bplus. destruct x; reflexivity. Qed.
Lemma unit_text en b p l name o : values_ok en b p l = true -> locate l name = Some (o, FStr 16) ->
  forall u, hstr (values en b p l) name = Ok u -> text_at en b (p + o) 16 u.
Proof. intros V L u H. apply (proj1 (hstr_at en b p l name o 16 u V L)). exact H. Qed.
Lemma hstr_found en b p l name o n : values_ok en b p l = true -> locate l name = Some (o, FStr n) -> exists u, hstr (values en b p l) name = Ok u.
Proof.
  intros V L. pose proof (values_field en b name l p o _ V L) as F. cbn [field_ok calcsize] in F.
  destruct (decode en (slice (p + o) n b)) as [t|] eqn:E; [|discriminate].
  exists (rstrip blank0 t). apply (proj2 (hstr_at en b p l name o n _ V L)). exists t. auto.
Qed.
Lemma hstr_inv en b p l e name o n u : values_ok en b p l = true -> locate l name = Some (o, FStr n) ->
  hstr (values en b p l ++ e) name = Ok u -> text_at en b (p + o) n u.
Proof.
  intros V L H. destruct (hstr_found en b p l name o n V L) as (u' & E). pose proof (hstr_ext _ e _ _ E) as E'. rewrite H in E'. apply ok_inj in E'. subst u'.
  apply (proj1 (hstr_at en b p l name o n u V L)). exact E.
Qed.
Lemma unit_inv lower en b o u f : text_at en b o 16 u -> unit_factor lower u = Ok f -> unit_is lower en b o f.
Proof. intros T H. unfold unit_factor in H. apply rmap_ok in H as (e & E & ->). exists u, e. auto. Qed.
Lemma text_unique en b o n u u' : text_at en b o n u -> text_at en b o n u' -> u = u'.
Proof. intros (t & E & <-) (t' & E' & <-). rewrite E in E'. apply ok_inj in E'. subst. reflexivity. Qed.
Lemma surface_inv lower en b v ny nx s e : values_ok en b 0 sur_layout = true ->
  get_surface lower (values en b 0 sur_layout ++ e) (grid ny nx v) = Ok s -> heights_are lower en b ny nx v s.
Proof.
  intros V H. unfold get_surface in H.
  rewrite (hint_ext _ _ _ _ (get_non_measured_points _ _ _ V)) in H. cbn [rbind] in H.
  rewrite (hint_ext _ _ _ _ (get_min_point _ _ _ V)) in H. cbn [rbind] in H.
  rewrite (hflt_ext _ _ _ _ (get_spacing_z _ _ _ V)) in H. cbn [rbind] in H.
  apply rbind_ok in H as (uz & Tz & H). apply (hstr_inv _ _ _ _ _ _ _ _ _ V at_unit_step_z) in Tz. apply rbind_ok in H as (fz & Fz & H). apply (unit_inv _ _ _ _ _ _ Tz) in Fz.
  apply rbind_ok in H as (ux & Tx & H). apply (hstr_inv _ _ _ _ _ _ _ _ _ V at_unit_step_x) in Tx. apply rbind_ok in H as (fx & Fx & H). apply (unit_inv _ _ _ _ _ _ Tx) in Fx.
  rewrite (hflt_ext _ _ _ _ (get_spacing_x _ _ _ V)) in H. cbn [rbind] in H.
  apply rbind_ok in H as (uy & Ty & H). apply (hstr_inv _ _ _ _ _ _ _ _ _ V at_unit_step_y) in Ty. apply rbind_ok in H as (fy & Fy & H). apply (unit_inv _ _ _ _ _ _ Ty) in Fy.
  rewrite (hflt_ext _ _ _ _ (get_spacing_y _ _ _ V)) in H. cbn [rbind] in H.
  rewrite (hflt_ext _ _ _ _ (get_offset_z _ _ _ V)) in H. cbn [rbind] in H. apply ok_inj in H. subst s.
  exists fx, fy, fz. split; [exact Fx|]. split; [exact Fy|]. split; [exact Fz|]. cbn [rdata rstep_x rstep_y]. split; [|split; reflexivity].
  rewrite grid_map. apply grid_is. intros i j Hi Hj. cbn [Nat.add].
  destruct (Z.eqb_spec (i16 b 86) 1) as [E1|E1]; destruct (Z.eqb_spec (v i j) (i32 b 100 - 2)) as [E2|E2]; cbn [andb].
  - split; [intros _; apply nan_plus|intros G; exfalso; apply G; auto].
  - split; [intros [_ G]; contradiction|reflexivity].
  - split; [intros [G _]; contradiction|reflexivity].
  - split; [intros [G _]; contradiction|reflexivity].
Qed.
Lemma surface_ok lower en b data e fx fy fz : values_ok en b 0 sur_layout = true ->
  unit_is lower en b 180 fx -> unit_is lower en b 196 fy -> unit_is lower en b 212 fz ->
  exists s, get_surface lower (values en b 0 sur_layout ++ e) data = Ok s.
Proof.
  intros V (ux & ex & Tx & Ex & _) (uy & ey & Ty & Ey & _) (uz & ez & Tz & Ez & _). unfold get_surface.
  rewrite (hint_ext _ _ _ _ (get_non_measured_points _ _ _ V)). cbn [rbind].
  rewrite (hint_ext _ _ _ _ (get_min_point _ _ _ V)). cbn [rbind].
  rewrite (hflt_ext _ _ _ _ (get_spacing_z _ _ _ V)). cbn [rbind].
  rewrite (hstr_ext _ _ _ _ (proj2 (get_unit_step_z _ _ _ V _) Tz)). cbn [rbind]. unfold unit_factor at 1. rewrite Ez. cbn [rmap rbind].
  rewrite (hstr_ext _ _ _ _ (proj2 (get_unit_step_x _ _ _ V _) Tx)). cbn [rbind]. unfold unit_factor at 1. rewrite Ex. cbn [rmap rbind].
  rewrite (hflt_ext _ _ _ _ (get_spacing_x _ _ _ V)). cbn [rbind].
  rewrite (hstr_ext _ _ _ _ (proj2 (get_unit_step_y _ _ _ V _) Ty)). cbn [rbind]. unfold unit_factor at 1. rewrite Ey. cbn [rmap rbind].
  rewrite (hflt_ext _ _ _ _ (get_spacing_y _ _ _ V)). cbn [rbind].
  rewrite (hflt_ext _ _ _ _ (get_offset_z _ _ _ V)). cbn [rbind]. eexists. reflexivity.
Qed.
Lemma texts_shift : forall l p q, texts l (p + q) = map (fun '(o, n) => ((p + o)%nat, n)) (texts l q).
Proof.
  induction l as [|e l IH]; intros p q; [reflexivity|].
  destruct e as [n|k [f|prev|f rd wr]]; cbn [texts map]; rewrite <- ?Nat.add_assoc, ?IH; try reflexivity.
  destruct f; cbn [map]; rewrite <- ?Nat.add_assoc, ?IH; reflexivity.
Qed.
Lemma sur_texts : texts sur_layout 0 = [(0, 12); (20, 30); (50, 30); (132, 16); (148, 16); (164, 16); (180, 16); (196, 16); (212, 16); (228, 16);
    (244, 16); (260, 16); (338, 128); (486, 13); (499, 13)]%nat.
Proof. vm_compute. reflexivity. Qed.
Lemma readable_ok en b p : (p + 512 <= length b)%nat -> texts_readable en b p -> values_ok en b p sur_layout = true.
Proof.
  intros L T. apply values_ok_texts; [vm_compute; reflexivity|rewrite sur_size; exact L|].
  intros o n H. rewrite <- (Nat.add_0_r p), texts_shift, sur_texts in H. apply in_map_iff in H as ([o' n'] & E & H). injection E as <- <-.
  destruct (T o' n' H) as (t & ->). reflexivity.
Qed.

(** ** The heights *)
Theorem C99_heights : forall z lower en im (b : bytes) s l d, is_file b -> sane b 0 ->
  read_sur_full z lower en im (opened b) = Ok (s, l, d) ->
  is_surface en b /\ i16 b 14 <= 1 /\
  exists ny nx v q, sur_object z en b 0 ny nx v q /\ heights_are lower en b ny nx v s.
Proof.
  intros z lower en im b s l d Hf (N1 & N2 & N3 & N4) H. unfold read_sur_full, opened in H.
  apply rbind_ok in H as ([[d0 data] h] & H1 & H). apply object_inv in H1 as (V & -> & K & C & v & -> & O); auto. cbn [Nat.add] in *.
  rewrite (hint_ext _ _ _ _ (get_n_objects _ _ _ V)) in H. cbn [rbind Nat.add] in H.
  destruct (Z.ltb_spec 1 (i16 b 14)) as [|Hn]; [discriminate|].
  rewrite (hint_ext _ _ _ _ (get_studiable_type _ _ _ V)) in H. cbn [rbind Nat.add] in H.
  apply rbind_ok in H as (no & To & H). apply (hstr_inv _ _ _ _ _ _ _ _ _ V at_name_object) in To.
  apply rbind_ok in H as (np & Tp & H). apply (hstr_inv _ _ _ _ _ _ _ _ _ V at_name_operator) in Tp. cbn [Nat.add] in *.
  assert (G : is_surface en b /\ exists s', get_surface lower (values en b 0 sur_layout ++ zones b 0) (grid (Z.to_nat (i32 b 112)) (Z.to_nat (i32 b 108)) v) = Ok s' /\ s' = s).
  { destruct (_ || _) eqn:E in H.
    - split; [|apply rbind_ok in H as (s' & G & H); exists s'; split; [exact G|congruence]].
      left. unfold plain_surface. apply orb_prop in E as [E|E]; [left; apply Z.eqb_eq; exact E|right].
      apply andb_prop in E as [E E3]. apply andb_prop in E as [E1 E2]. apply Z.eqb_eq in E1. apply zs_eqb_eq in E2, E3. subst. auto.
    - destruct (Z.eqb_spec (i16 b 18) 16) as [E'|]; [|discriminate].
      split; [right; exact E'|]. apply rbind_ok in H as (s' & G & H). apply rbind_ok in H as (l' & _ & H). exists s'. split; [exact G|congruence]. }
  destruct G as (G1 & s' & G2 & ->). split; [exact G1|]. split; [exact Hn|].
  exists (Z.to_nat (i32 b 112)), (Z.to_nat (i32 b 108)), v, (pos h). split; [exact O|]. exact (surface_inv _ _ _ _ _ _ _ _ V G2).
Qed.
(** every complete surface file is read *)
Lemma top_read z lower en im b ny nx v q : is_file b -> complete z en b 0 ny nx v q -> is_surface en b -> i16 b 14 <= 1 ->
  (exists f, unit_is lower en b 180 f) -> (exists f, unit_is lower en b 196 f) -> (exists f, unit_is lower en b 212 f) ->
  exists s h, heights_are lower en b ny nx v s /\ contents h = b /\ at_pos b (pos h) q /\
    read_sur_full z lower en im (opened b) =
    rbind (if (i16 b 18 =? 16) && im then read_layers z en h else Ok []) (fun l => Ok (s, l, (values en b 0 sur_layout ++ zones b 0)%list)).
Proof.
  intros Hf (O & N1 & N2 & T & K1 & K2 & Nt) Ks Hn (fx & Ux) (fy & Uy) (fz & Uz). cbn [Nat.add] in *.
  assert (V : values_ok en b 0 sur_layout = true) by (apply readable_ok; [exact (proj1 O)|exact T]).
  destruct (object_ok z en b 0 ny nx v q Hf N1 N2 V (conj K1 K2) Nt O) as (h & R & C & A).
  destruct (surface_ok lower en b (grid ny nx v) (zones b 0) fx fy fz V Ux Uy Uz) as (s & G).
  exists s, h. split; [exact (surface_inv _ _ _ _ _ _ _ _ V G)|]. split; [exact C|]. split; [exact A|].
  unfold read_sur_full, opened. rewrite R. cbn [rbind].
  rewrite (hint_ext _ _ _ _ (get_n_objects _ _ _ V)). cbn [rbind Nat.add].
  destruct (Z.ltb_spec 1 (i16 b 14)) as [|_]; [lia|].
  rewrite (hint_ext _ _ _ _ (get_studiable_type _ _ _ V)). cbn [rbind Nat.add].
  destruct (hstr_found en b 0 sur_layout _ _ _ V at_name_object) as (no & Eo). rewrite (hstr_ext _ _ _ _ Eo). cbn [rbind].
  destruct (hstr_found en b 0 sur_layout _ _ _ V at_name_operator) as (np & Ep). rewrite (hstr_ext _ _ _ _ Ep). cbn [rbind].
  apply (get_name_object _ _ _ V) in Eo. apply (get_name_operator _ _ _ V) in Ep. cbn [Nat.add] in Eo, Ep.
  rewrite G. cbn [rbind]. destruct Ks as [[Ks|(Ks & To & Tp)]|Ks].
  - rewrite Ks. reflexivity.
  - rewrite Ks. rewrite (text_unique _ _ _ _ _ _ Eo To), (text_unique _ _ _ _ _ _ Ep Tp), !zs_eqb_refl. reflexivity.
  - rewrite Ks. cbn [Z.eqb Pos.eqb andb orb]. destruct im; reflexivity.
Qed.
Theorem C99_reads : forall z lower en (b : bytes) ny nx v q, is_file b -> complete z en b 0 ny nx v q -> is_surface en b -> i16 b 14 <= 1 ->
  (exists f, unit_is lower en b 180 f) -> (exists f, unit_is lower en b 196 f) -> (exists f, unit_is lower en b 212 f) ->
  exists s d, read_sur_full z lower en false (opened b) = Ok (s, [], d) /\ heights_are lower en b ny nx v s.
Proof.
  intros z lower en b ny nx v q Hf O Ks Hn Ux Uy Uz.
  destruct (top_read z lower en false b ny nx v q Hf O Ks Hn Ux Uy Uz) as (s & h & Hs & _ & _ & R).
  rewrite andb_false_r in R. cbn [rbind] in R. eauto.
Qed.

(** ** Image layers *)
Lemma combine_map2 {A B C} (f : A -> B) (g : A -> C) l : combine (map f l) (map g l) = map (fun x => (f x, g x)) l.
Proof. induction l as [|x l IH]; [reflexivity|]. cbn. rewrite IH. reflexivity. Qed.
Lemma same_shape_grid ny nx v w : same_shape (grid ny nx v) (grid ny nx w) = true.
Proof.
  unfold same_shape, grid. rewrite !map_length, Nat.eqb_refl, combine_map2. cbn [andb]. apply forallb_forall. intros [r s] H.
  apply in_map_iff in H as (i & E & _). injection E as <- <-. rewrite !map_length. apply Nat.eqb_refl.
Qed.
Lemma all_equal_grid ny nx v w : all_equal (grid ny nx v) (grid ny nx w) = true <-> forall i j, (i < ny)%nat -> (j < nx)%nat -> v i j = w i j.
Proof.
  unfold all_equal, grid. rewrite combine_map2, forallb_forall. split.
  - intros H i j Hi Hj. specialize (H _ (in_map (fun i => (map (fun j => v i j) (seq 0 nx), map (fun j => w i j) (seq 0 nx))) (seq 0 ny) i ltac:(apply in_seq; lia))).
    cbn beta iota in H. rewrite combine_map2, forallb_forall in H.
    specialize (H _ (in_map (fun j => (v i j, w i j)) (seq 0 nx) j ltac:(apply in_seq; lia))). cbn beta iota in H. apply Z.eqb_eq, H.
  - intros H [r s] Hr. apply in_map_iff in Hr as (i & E & Hi). injection E as <- <-. rewrite combine_map2. apply forallb_forall.
    intros [x y] Hx. apply in_map_iff in Hx as (j & E & Hj). injection E as <- <-. apply Z.eqb_eq, H; apply in_seq in Hi, Hj; lia.
Qed.
Lemma stack3_grid ny nx r g b : stack3 (grid ny nx r) (grid ny nx g) (grid ny nx b) = grid ny nx (fun i j => [r i j; g i j; b i j]).
Proof.
  unfold stack3, grid. rewrite !combine_map2, map_map. apply map_ext. intros i. rewrite !combine_map2, map_map. reflexivity.
Qed.
Lemma next_read z en b p q ny nx v q' : is_file b -> at_pos b p q -> complete z en b q ny nx v q' ->
  exists h d, read_object z en {| contents := b; pos := p |} = Ok (d, grid ny nx v, h) /\ contents h = b /\ at_pos b (pos h) q'.
Proof.
  intros Hf A (O & N1 & N2 & T & K1 & K2 & Nt). assert (E : p = q) by (destruct O as [L _]; destruct A as [A|A]; [exact A|lia]). subst p.
  assert (V : values_ok en b q sur_layout = true) by (apply readable_ok; [exact (proj1 O)|exact T]).
  destruct (object_ok z en b q ny nx v q' Hf N1 N2 V (conj K1 K2) Nt O) as (h & R & C & A'). eauto.
Qed.
Theorem C99_layers : forall z lower en (b : bytes) ny nx v q1 my mx red q2 green q3 blue q4 ky kx intensity q5, is_file b ->
  complete z en b 0 ny nx v q1 -> i16 b 18 = 16 -> i16 b 14 <= 1 ->
  (exists f, unit_is lower en b 180 f) -> (exists f, unit_is lower en b 196 f) -> (exists f, unit_is lower en b 212 f) ->
  complete z en b q1 my mx red q2 -> complete z en b q2 my mx green q3 -> complete z en b q3 my mx blue q4 -> complete z en b q4 ky kx intensity q5 ->
  exists s d colour shades, read_sur_full z lower en true (opened b) = Ok (s, [colour; ("Intensity"%string, shades)], d) /\
    heights_are lower en b ny nx v s /\ table_is shades ky kx (fun i j px => px = [intensity i j]) /\
    let grey := forall i j, (i < my)%nat -> (j < mx)%nat -> green i j = red i j /\ blue i j = red i j in
    (grey -> fst colour = "Grayscale"%string /\ table_is (snd colour) my mx (fun i j px => px = [red i j])) /\
    (~ grey -> fst colour = "RGB"%string /\ table_is (snd colour) my mx (fun i j px => px = [red i j; green i j; blue i j])).
Proof.
  intros z lower en b ny nx v q1 my mx red q2 green q3 blue q4 ky kx intensity q5 Hf O Ks Hn Ux Uy Uz O1 O2 O3 O4.
  destruct (top_read z lower en true b ny nx v q1 Hf O (or_intror Ks) Hn Ux Uy Uz) as (s & [c p] & Hs & C & A & R). cbn [contents pos] in C, A. subst c.
  destruct (next_read z en b p q1 my mx red q2 Hf A O1) as ([c1 p1] & d1 & R1 & C & A1). cbn [contents pos] in C, A1. subst c1.
  destruct (next_read z en b p1 q2 my mx green q3 Hf A1 O2) as ([c2 p2] & d2 & R2 & C & A2). cbn [contents pos] in C, A2. subst c2.
  destruct (next_read z en b p2 q3 my mx blue q4 Hf A2 O3) as ([c3 p3] & d3 & R3 & C & A3). cbn [contents pos] in C, A3. subst c3.
  destruct (next_read z en b p3 q4 ky kx intensity q5 Hf A3 O4) as (h4 & d4 & R4 & _ & _).
  rewrite Ks in R. cbn [Z.eqb Pos.eqb andb] in R. unfold read_layers in R. rewrite R1 in R. cbn [rbind] in R. rewrite R2 in R. cbn [rbind] in R. rewrite R3 in R. cbn [rbind] in R.
  rewrite !same_shape_grid in R. cbn [andb negb] in R. rewrite R4 in R. cbn [rbind] in R.
  eexists s, _, _, _. split; [exact R|]. split; [exact Hs|]. split.
  { unfold one_channel. rewrite grid_map. apply grid_is. reflexivity. }
  intros grey. destruct (all_equal (grid my mx red) (grid my mx green) && all_equal (grid my mx red) (grid my mx blue)) eqn:E.
  - apply andb_prop in E as [E1 E2]. rewrite all_equal_grid in E1, E2. split.
    + intros _. split; [reflexivity|]. cbn [snd]. unfold one_channel. rewrite grid_map. apply grid_is. reflexivity.
    + intros G. exfalso. apply G. intros i j Hi Hj. split; symmetry; [apply E1|apply E2]; assumption.
  - split.
    + intros G. exfalso. apply andb_false_iff in E as [E|E].
      * assert (E' : all_equal (grid my mx red) (grid my mx green) = true) by (apply all_equal_grid; intros i j Hi Hj; destruct (G i j Hi Hj); auto). congruence.
      * assert (E' : all_equal (grid my mx red) (grid my mx blue) = true) by (apply all_equal_grid; intros i j Hi Hj; destruct (G i j Hi Hj); auto). congruence.
    + intros _. split; [reflexivity|]. cbn [snd]. rewrite stack3_grid. apply grid_is. reflexivity.
Qed.
(** asking for the image layers changes neither the heights nor the header; layers come only when asked for and only
    from RGB + intensity surfaces *)
Theorem C99_images_heights : forall z lower en h s l d, read_sur_full z lower en true h = Ok (s, l, d) ->
  read_sur_full z lower en false h = Ok (s, [], d).
Proof.
  intros z lower en h s l d H. unfold read_sur_full in *. apply rbind_ok in H as ([[d0 data] h1] & R & H). rewrite R. cbn [rbind].
  apply rbind_ok in H as (n & R1 & H). rewrite R1. cbn [rbind]. destruct (1 <? n); [discriminate|].
  apply rbind_ok in H as (st & R2 & H). rewrite R2. cbn [rbind]. apply rbind_ok in H as (no & R3 & H). rewrite R3. cbn [rbind].
  apply rbind_ok in H as (np & R4 & H). rewrite R4. cbn [rbind]. destruct (_ || _).
  - apply rbind_ok in H as (s' & G & H). rewrite G. cbn [rbind]. congruence.
  - destruct (st =? 16); [|discriminate]. apply rbind_ok in H as (s' & G & H). rewrite G. cbn [rbind]. apply rbind_ok in H as (l' & _ & H).
    assert (E : s' = s /\ d0 = d) by (split; congruence). destruct E as [-> ->]. reflexivity.
Qed.
Theorem C99_no_layers : forall z lower en im (b : bytes) s l d, is_file b -> sane b 0 -> read_sur_full z lower en im (opened b) = Ok (s, l, d) ->
  im = false \/ i16 b 18 <> 16 -> l = [].
Proof.
  intros z lower en im b s l d Hf (N1 & N2 & N3 & N4) H Hi. unfold read_sur_full, opened in H.
  apply rbind_ok in H as ([[d0 data] h] & H1 & H). apply object_inv in H1 as (V & -> & _); auto. cbn [Nat.add] in *.
  apply rbind_ok in H as (n & _ & H). destruct (1 <? n); [discriminate|].
  rewrite (hint_ext _ _ _ _ (get_studiable_type _ _ _ V)) in H. cbn [rbind Nat.add] in H.
  apply rbind_ok in H as (no & _ & H). apply rbind_ok in H as (np & _ & H). destruct (_ || _).
  - apply rbind_ok in H as (s' & _ & H). congruence.
  - destruct (Z.eqb_spec (i16 b 18) 16) as [E|]; [|discriminate]. apply rbind_ok in H as (s' & _ & H).
    destruct Hi as [-> |Hi]; [|contradiction]. cbn [rbind] in H. congruence.
Qed.

(** ** The metadata: every header field under its name, the comment and the private zone as bytes *)
Lemma dget_values_none en b k : forall l p, ~ In k (names l) -> dget (values en b p l) k = None.
Proof.
  induction l as [|e l IH]; intros p H; [reflexivity|]. destruct e as [n|k' [f|prev|f rd wr]]; cbn [values names concat map app dget] in *.
  - apply IH. exact H.
  - destruct (String.eqb_spec k k') as [->|]; [exfalso; apply H; left; reflexivity|]. apply IH. intros G. apply H. right. exact G.
  - apply IH. intros G. apply H. right. exact G.
  - destruct (String.eqb_spec k k') as [->|]; [exfalso; apply H; left; reflexivity|]. apply IH. intros G. apply H. right. exact G.
Qed.
Lemma header_of z lower en im b s l d : is_file b -> sane b 0 -> read_sur_full z lower en im (opened b) = Ok (s, l, d) ->
  values_ok en b 0 sur_layout = true /\ d = (values en b 0 sur_layout ++ zones b 0)%list.
Proof.
  intros Hf (N1 & N2 & N3 & N4) H. unfold read_sur_full, opened in H.
  apply rbind_ok in H as ([[d0 data] h] & H1 & H). apply object_inv in H1 as (V & -> & _); auto. split; [exact V|].
  apply rbind_ok in H as (n & _ & H). destruct (1 <? n); [discriminate|]. apply rbind_ok in H as (st & _ & H).
  apply rbind_ok in H as (no & _ & H). apply rbind_ok in H as (np & _ & H). destruct (_ || _).
  - apply rbind_ok in H as (s' & _ & H). congruence.
  - destruct (st =? 16); [|discriminate]. apply rbind_ok in H as (s' & _ & H). apply rbind_ok in H as (l' & _ & H). congruence.
Qed.
Local Strategy transparent [hstr].
Theorem C99_metadata : forall z lower en im (b : bytes) s l d, is_file b -> sane b 0 -> read_sur_full z lower en im (opened b) = Ok (s, l, d) ->
  let lc := Z.to_nat (i16 b 334) in let lp := Z.to_nat (i16 b 336) in
  dget d "comment" = Some (VBytes (slice 512 lc b)) /\ dget d "private" = Some (VBytes (slice (512 + lc) lp b)) /\
  (exists t, text_at en b 0 12 t /\ dget d "code" = Some (VStr t)) /\
  (exists t, text_at en b 20 30 t /\ dget d "name_object" = Some (VStr t)) /\
  (exists t, text_at en b 50 30 t /\ dget d "name_operator" = Some (VStr t)) /\
  dget d "studiable_type" = Some (VInt (i16 b 18)) /\ dget d "acquisition_type" = Some (VInt (i16 b 82)) /\
  dget d "bits_per_point" = Some (VInt (i16 b 98)) /\
  dget d "n_points_per_line" = Some (VInt (i32 b 108)) /\ dget d "n_lines" = Some (VInt (i32 b 112)) /\
  dget d "year" = Some (VInt (i16 b 316)) /\ dget d "month" = Some (VInt (i16 b 314)) /\ dget d "day" = Some (VInt (i16 b 312)).
Proof.
  intros z lower en im b s l d Hf Hs H lc lp. destruct (header_of z lower en im b s l d Hf Hs H) as [V ->].
  assert (Hn : forall k, ~ In k (names sur_layout) -> dget (values en b 0 sur_layout ++ zones b 0) k = dget (zones b 0) k).
  { intros k Hk. apply dget_app_none. apply dget_values_none. exact Hk. }
  assert (I : forall k o n, locate sur_layout k = Some (o, FInt true n) -> dget (values en b 0 sur_layout ++ zones b 0) k = Some (VInt (two_compl (8 * Z.of_nat n) (uint n b o)))).
  { intros k o n L. apply dget_app_some. destruct (locate_spec en b k sur_layout 0 o _ L) as [D L']. rewrite D. cbn [field calcsize].
    rewrite unle_slice by (apply L'; exact V). reflexivity. }
  assert (T : forall k o n, locate sur_layout k = Some (o, FStr n) -> exists t, text_at en b o n t /\ dget (values en b 0 sur_layout ++ zones b 0) k = Some (VStr t)).
  { intros k o n L. destruct (hstr_found en b 0 sur_layout k o n V L) as (t & E). exists t. split; [exact (proj1 (hstr_at en b 0 sur_layout k o n t V L) E)|].
    apply dget_app_some. unfold hstr, dkey in E. destruct (dget (values en b 0 sur_layout) k) as [[]|]; try discriminate. cbn [rbind] in E. apply ok_inj in E. subst. reflexivity. }
  assert (N1 : ~ In "comment"%string (names sur_layout)) by (vm_compute; intuition discriminate).
  assert (N2 : ~ In "private"%string (names sur_layout)) by (vm_compute; intuition discriminate).
  split; [rewrite (Hn _ N1); reflexivity|]. split; [rewrite (Hn _ N2); reflexivity|].
  split; [exact (T _ _ _ at_code)|]. split; [exact (T _ _ _ at_name_object)|]. split; [exact (T _ _ _ at_name_operator)|].
  split; [exact (I _ _ _ at_studiable_type)|]. split; [exact (I _ _ _ at_acquisition_type)|]. split; [exact (I _ _ _ at_bits_per_point)|].
  split; [exact (I _ _ _ at_n_points_per_line)|]. split; [exact (I _ _ _ at_n_lines)|].
  split; [|split].
  - exact (I "year"%string 316%nat 2%nat ltac:(vm_compute; reflexivity)).
  - exact (I "month"%string 314%nat 2%nat ltac:(vm_compute; reflexivity)).
  - exact (I "day"%string 312%nat 2%nat ltac:(vm_compute; reflexivity)).
Qed.

(** ** The integers of an object are determined by the file *)
Lemma inflates_unique z b o body body' : inflates z b o body -> inflates z b o body' -> body = body'.
Proof.
  intros (p & L & -> & Q) (p' & L' & -> & Q'). f_equal. apply (nth_ext p p' [] []); [lia|]. intros k Hk.
  destruct (Q k Hk) as [E _]. destruct (Q' k ltac:(lia)) as [E' _]. rewrite E in E'. apply ok_inj in E'. exact E'.
Qed.
Lemma object_unique z en b p ny nx v q ny' nx' v' q' : sur_object z en b p ny nx v q -> sur_object z en b p ny' nx' v' q' ->
  ny' = ny /\ nx' = nx /\ forall i j, (i < ny)%nat -> (j < nx)%nat -> v' i j = v i j.
Proof.
  intros (_ & _ & Ey & Ex & w & W & T) (_ & _ & Ey' & Ex' & w' & W' & T'). assert (ny' = ny) by lia. assert (nx' = nx) by lia. subst ny' nx'.
  split; [reflexivity|]. split; [reflexivity|]. assert (w' = w) by (destruct W as [[A ->]|[A ->]], W' as [[B ->]|[B ->]]; congruence || (rewrite A in B; discriminate)). subst w'.
  intros i j Hi Hj. destruct T as [(T & _ & _ & H)|(T & body & Inf & _ & _ & _ & _ & H)], T' as [(T' & _ & _ & H')|(T' & body' & Inf' & _ & _ & _ & _ & H')].
  - rewrite H, H' by assumption. reflexivity.
  - pose proof (text_unique _ _ _ _ _ _ T T') as E. discriminate.
  - pose proof (text_unique _ _ _ _ _ _ T T') as E. discriminate.
  - rewrite H, H' by assumption. rewrite (inflates_unique _ _ _ _ _ Inf Inf'). reflexivity.
Qed.

(** ** The unit of the offset: the offset is stored in the unit of the heights, but it is added to the micrometres as it
    is.  In a file in millimetres a point with the stored integer 0 lies at [offset] mm and is loaded at [offset] um. *)
Lemma mul_zero t (x : f64) : fin64 x -> exists t', fmul (Binary.B754_zero 53 1024 t) x = Binary.B754_zero 53 1024 t'.
Proof. unfold fin64. destruct x; try discriminate; intros _; eexists; reflexivity. Qed.
Lemma zero_plus t (x : f64) : fin64 x -> R64 (fadd (Binary.B754_zero 53 1024 t) x) = R64 x.
Proof. unfold fin64. destruct x as [u|u|u pl e|u m e e']; try discriminate; intros _; [destruct t, u; reflexivity|reflexivity]. Qed.
Lemma mm_exponent lower : lower_ok lower -> conversion_exponent lower (str "mm") (str "um") = Ok 3.
Proof. intros L. unfold conversion_exponent. rewrite !(lower_latin lower L) by (repeat constructor; lia). vm_compute. reflexivity. Qed.
Theorem C99_offset_unit_refuted : forall z lower en im (b : bytes) s l d ny nx v q i j, lower_ok lower -> is_file b -> sane b 0 ->
  read_sur_full z lower en im (opened b) = Ok (s, l, d) -> sur_object z en b 0 ny nx v q ->
  text_at en b 212 16 (str "mm") -> fin64 (single_at b 128) -> fin64 (single_at b 474) ->
  (i < ny)%nat -> (j < nx)%nat -> v i j = 0 -> ~ (i16 b 86 = 1 /\ i32 b 100 = 2) ->
  exists row h, nth_error (rdata s) i = Some row /\ nth_error row j = Some h /\
    R64 h = R64 (single_at b 474) /\ (R64 (single_at b 474) <> 0%R -> R64 h <> (1000 * R64 (single_at b 474))%R).
Proof.
  intros z lower en im b s l d ny nx v q i j Hl Hf Hs H O Tz Fs Fo Hi Hj Hv Hg.
  destruct (C99_heights z lower en im b s l d Hf Hs H) as (_ & _ & ny' & nx' & v' & q' & O' & fx & fy & fz & _ & _ & Uz & (_ & Tb) & _).
  destruct (object_unique _ _ _ _ _ _ _ _ _ _ _ _ O O') as (-> & -> & Ev).
  destruct (Tb i Hi) as (row & Er & _ & Tr). destruct (Tr j Hj) as (h & Eh & _ & Hh). exists row, h. split; [exact Er|]. split; [exact Eh|].
  rewrite Ev, Hv in Hh by assumption. destruct Uz as (u & e & Tu & Eu & Ef). rewrite <- (text_unique _ _ _ _ _ _ Tz Tu) in Eu.
  rewrite (mm_exponent lower Hl) in Eu. apply ok_inj in Eu. subst e fz.
  rewrite Hh by lia. destruct (mul_zero false (single_at b 128) Fs) as (t1 & E1).
  change (f64_of_Z 0) with (Binary.B754_zero 53 1024 false). rewrite E1.
  destruct (mul_zero t1 (pow10 3) ltac:(vm_compute; reflexivity)) as (t2 & E2). rewrite E2.
  assert (Eq : R64 (fadd (Binary.B754_zero 53 1024 t2) (single_at b 474)) = R64 (single_at b 474)) by (apply zero_plus, Fo).
  split; [exact Eq|]. intros Hne E. rewrite Eq in E. lra.
Qed.

(** ** The reader without layers of the round-trip theorems (C45, C46, C51) is this reader *)
Local Strategy transparent [hint hflt hstr].
Lemma hint_zones d c p k : String.eqb k "comment" = false -> String.eqb k "private" = false ->
  hint (d ++ [("comment"%string, c); ("private"%string, p)]) k = hint d k.
Proof.
  intros H1 H2. unfold hint, dkey. destruct (dget d k) eqn:E; [rewrite (dget_app_some d _ k _ E); reflexivity|].
  rewrite (dget_app_none d _ k E). cbn [dget]. rewrite H1, H2. reflexivity.
Qed.
Lemma hflt_zones d c p k : String.eqb k "comment" = false -> String.eqb k "private" = false ->
  hflt (d ++ [("comment"%string, c); ("private"%string, p)]) k = hflt d k.
Proof.
  intros H1 H2. unfold hflt, dkey. destruct (dget d k) eqn:E; [rewrite (dget_app_some d _ k _ E); reflexivity|].
  rewrite (dget_app_none d _ k E). cbn [dget]. rewrite H1, H2. reflexivity.
Qed.
Lemma hstr_zones d c p k : String.eqb k "comment" = false -> String.eqb k "private" = false ->
  hstr (d ++ [("comment"%string, c); ("private"%string, p)]) k = hstr d k.
Proof.
  intros H1 H2. unfold hstr, dkey. destruct (dget d k) eqn:E; [rewrite (dget_app_some d _ k _ E); reflexivity|].
  rewrite (dget_app_none d _ k E). cbn [dget]. rewrite H1, H2. reflexivity.
Qed.
Lemma rbind_comp {A B C} (m : res A) (f : A -> res B) (g : A -> res C) (R : res B -> res C -> Prop) :
  (forall e, R (Err e) (Err e)) -> (forall x, R (f x) (g x)) -> R (rbind m f) (rbind m g).
Proof. intros He Hx. destruct m; cbn [rbind]; auto. Qed.
(** results that differ by the two zones *)
Definition with_zones (r : res (dict * fh)) (r' : res (dict * fh)) : Prop :=
  match r, r' with
  | Ok (d, h), Ok (d', h') => h' = h /\ exists c p, d' = (d ++ [("comment"%string, c); ("private"%string, p)])%list
  | Err e, Err e' => e = e'
  | _, _ => False
  end.
Lemma header_zones en h : with_zones (read_sur_header en h) (read_header_zones en h).
Proof.
  unfold read_sur_header, read_header_zones. apply rbind_comp; [reflexivity|]. intros [d h1].
  apply rbind_comp; [reflexivity|]. intros code. apply rbind_comp; [reflexivity|]. intros version. destruct (_ || _); [reflexivity|].
  apply rbind_comp; [reflexivity|]. intros st. destruct (negb _); [reflexivity|]. apply rbind_comp; [reflexivity|]. intros ac.
  destruct (negb _); [reflexivity|]. destruct (negb _); [reflexivity|]. apply rbind_comp; [reflexivity|]. intros lc.
  apply rbind_comp; [reflexivity|]. intros [c h2]. apply rbind_comp; [reflexivity|]. intros lp. apply rbind_comp; [reflexivity|]. intros [p h3].
  split; [reflexivity|]. eauto.
Qed.
Definition object_zones (r r' : res (dict * list (list Z) * fh)) : Prop :=
  match r, r' with
  | Ok (d, g, h), Ok (d', g', h') => g' = g /\ h' = h /\ exists c p, d' = (d ++ [("comment"%string, c); ("private"%string, p)])%list
  | Err e, Err e' => e = e'
  | _, _ => False
  end.
Lemma object_zones_ok z en h : object_zones (read_sur_object z en h) (read_object z en h).
Proof.
  unfold read_sur_object, read_object. pose proof (header_zones en h) as Z.
  destruct (read_sur_header en h) as [[d h1]|e], (read_header_zones en h) as [[d' h1']|e']; cbn [with_zones] in Z; try contradiction; [|exact Z].
  destruct Z as (-> & c & p & ->). cbn [rbind].
  rewrite !hint_zones, hstr_zones by reflexivity. apply rbind_comp; [reflexivity|]. intros bits. apply rbind_comp; [reflexivity|]. intros w.
  apply rbind_comp; [reflexivity|]. intros ny. apply rbind_comp; [reflexivity|]. intros nx. apply rbind_comp; [reflexivity|]. intros code.
  apply rbind_comp; [reflexivity|]. intros [body h2]. apply rbind_comp; [reflexivity|]. intros l. apply rbind_comp; [reflexivity|]. intros g.
  split; [reflexivity|]. split; [reflexivity|]. eauto.
Qed.
Lemma surface_zones lower d c p data : get_surface lower (d ++ [("comment"%string, c); ("private"%string, p)]) data = get_surface lower d data.
Proof. unfold get_surface. rewrite !hint_zones, !hflt_zones, !hstr_zones by reflexivity. reflexivity. Qed.
Theorem C99_same_reader : forall z lower en h,
  read_sur z lower en h = rmap (fun '(s, _, _) => s) (read_sur_full z lower en false h).
Proof.
  intros z lower en h. unfold read_sur, read_sur_full. pose proof (object_zones_ok z en h) as Z.
  destruct (read_sur_object z en h) as [[[d g] h1]|e], (read_object z en h) as [[[d' g'] h1']|e']; cbn [object_zones] in Z; try contradiction; [|cbn; congruence].
  destruct Z as (-> & -> & c & p & ->). cbn [rbind].
  rewrite !hint_zones, !hstr_zones, surface_zones by reflexivity.
  destruct (hint d "n_objects") as [n|e]; cbn [rbind rmap]; [|reflexivity]. destruct (1 <? n); [reflexivity|].
  destruct (hint d "studiable_type") as [st|e]; cbn [rbind rmap]; [|reflexivity].
  destruct (hstr d "name_object") as [no|e]; cbn [rbind rmap]; [|reflexivity]. destruct (hstr d "name_operator") as [np|e]; cbn [rbind rmap]; [|reflexivity].
  destruct ((st =? 2) || _); cbn [orb]; [destruct (get_surface lower d g); reflexivity|].
  destruct (st =? 16); [|reflexivity]. destruct (get_surface lower d g); reflexivity.
Qed.

(** ** An example: an RGB + intensity file of five objects.  Two heights in millimetres (one of them not measured), a
    comment, one 32 bit pixel per colour, one 16 bit pixel of intensity. *)
Definition zeros (n : nat) : bytes := repeat 0 n.
Definition head (kind bits ny nx nm minp lc : Z) : bytes :=
  (str "DIGITAL SURF" ++ le 2 0 ++ le 2 1 ++ le 2 1 ++ le 2 kind ++ zeros 60 ++ le 2 0 ++ le 2 0 ++ le 2 0 ++ le 2 nm ++ zeros 10 ++
   le 2 bits ++ le 4 minp ++ le 4 0 ++ le 4 nx ++ le 4 ny ++ le 4 (nx * ny) ++ le 4 1065353216 ++ le 4 1065353216 ++ le 4 1056964608 ++
   zeros 48 ++ str "um" ++ zeros 14 ++ str "um" ++ zeros 14 ++ str "mm" ++ zeros 14 ++ zeros 106 ++ le 2 lc ++ le 2 0 ++ zeros 136 ++
   le 4 1065353216 ++ zeros 34)%list.
Definition five_objects : bytes :=
  (head 16 16 1 2 1 9 3 ++ [104; 105; 33] ++ le 2 0 ++ le 2 7 ++
   head 10 32 1 1 0 0 0 ++ le 4 200 ++ head 10 32 1 1 0 0 0 ++ le 4 100 ++ head 10 32 1 1 0 0 0 ++ le 4 50 ++
   head 10 16 1 1 0 0 0 ++ le 2 77)%list.
Definition no_zlib : zlib := {| compress := fun b => b; decompress := fun b => Ok b |}.
Definition readableb (en : encoding) (b : bytes) (p : nat) : bool :=
  forallb (fun '(o, n) => is_ok (decode en (slice (p + o) n b))) [(0, 12); (20, 30); (50, 30); (132, 16); (148, 16); (164, 16); (180, 16); (196, 16); (212, 16); (228, 16);
    (244, 16); (260, 16); (338, 128); (486, 13); (499, 13)]%nat.
Lemma readableb_ok en b p : readableb en b p = true -> texts_readable en b p.
Proof.
  intros H o n Hi. unfold readableb in H. rewrite forallb_forall in H. specialize (H (o, n) Hi). cbn beta iota in H.
  destruct (decode en (slice (p + o) n b)) as [t|]; [eauto|discriminate].
Qed.
Definition textb (en : encoding) (b : bytes) (o n : nat) (s : pystr) : bool :=
  match decode en (slice o n b) with Ok t => zs_eqb (rstrip blank0 t) s | Err _ => false end.
Lemma textb_ok en b o n s : textb en b o n s = true -> text_at en b o n s.
Proof. unfold textb, text_at. destruct (decode en (slice o n b)) as [t|]; [|discriminate]. intros H. apply zs_eqb_eq in H. eauto. Qed.
Local Strategy transparent [uint i16 i32].
Ltac object_by_computation w :=
  split; [split; [apply Nat.leb_le; vm_compute; reflexivity|]; split; [vm_compute; reflexivity|]; split; [vm_compute; reflexivity|]; split; [vm_compute; reflexivity|];
    exists w; split; [first [left; split; vm_compute; reflexivity|right; split; vm_compute; reflexivity]|]; left; split; [apply textb_ok; vm_compute; reflexivity|];
    split; [apply Nat.leb_le; vm_compute; reflexivity|]; split; [vm_compute; reflexivity|];
    intros [|i] [|[|j]] Hi Hj; try lia; vm_compute; reflexivity
  |split; [apply Z.leb_le; vm_compute; reflexivity|]; split; [apply Z.leb_le; vm_compute; reflexivity|];
    split; [apply readableb_ok; vm_compute; reflexivity|]; split; [split; apply Z.leb_le; vm_compute; reflexivity|];
    split; [split; apply Z.leb_le; vm_compute; reflexivity|]; intros _; vm_compute; reflexivity].
Theorem C99_example : exists s d colour shades,
  read_sur_full no_zlib (map lower_char) Utf8 true (opened five_objects) = Ok (s, [colour; ("Intensity"%string, shades)], d) /\
  fst colour = "RGB"%string /\ table_is (snd colour) 1 1 (fun _ _ px => px = [200; 100; 50]) /\
  table_is shades 1 1 (fun _ _ px => px = [77]) /\
  dget d "comment" = Some (VBytes (str "hi!")) /\
  exists row a c, nth_error (rdata s) 0 = Some row /\ nth_error row 0 = Some a /\ nth_error row 1 = Some c /\
    isnan c = true /\ R64 a = R64 (single_at five_objects 474).
Proof.
  assert (Ff : is_file five_objects).
  { assert (B : forallb (fun x => (0 <=? x) && (x <? 256)) five_objects = true) by (vm_compute; reflexivity).
    rewrite forallb_forall in B. apply Forall_forall. intros x Hx. specialize (B x Hx). apply andb_prop in B as [B1 B2].
    apply Z.leb_le in B1. apply Z.ltb_lt in B2. lia. }
  assert (U : forall o e, textb Utf8 five_objects o 16 (str "um") = true \/ textb Utf8 five_objects o 16 (str "mm") = true -> e = tt -> exists f, unit_is (map lower_char) Utf8 five_objects o f).
  { intros o e [H|H] _; apply textb_ok in H.
    - exists (pow10 0), (str "um"), 0. split; [exact H|]. split; [vm_compute; reflexivity|reflexivity].
    - exists (pow10 3), (str "mm"), 3. split; [exact H|]. split; [vm_compute; reflexivity|reflexivity]. }
  assert (O : complete no_zlib Utf8 five_objects 0 1 2 (fun _ j => if Nat.eqb j 0 then 0 else 7) 519) by object_by_computation 2%nat.
  assert (O1 : complete no_zlib Utf8 five_objects 519 1 1 (fun _ _ => 200) 1035) by object_by_computation 4%nat.
  assert (O2 : complete no_zlib Utf8 five_objects 1035 1 1 (fun _ _ => 100) 1551) by object_by_computation 4%nat.
  assert (O3 : complete no_zlib Utf8 five_objects 1551 1 1 (fun _ _ => 50) 2067) by object_by_computation 4%nat.
  assert (O4 : complete no_zlib Utf8 five_objects 2067 1 1 (fun _ _ => 77) 2581) by object_by_computation 2%nat.
  assert (K16 : i16 five_objects 18 = 16) by (vm_compute; reflexivity).
  assert (K1 : i16 five_objects 14 <= 1) by (apply Z.leb_le; vm_compute; reflexivity).
  assert (U1 : exists f, unit_is (map lower_char) Utf8 five_objects 180 f) by (apply (U 180%nat tt); [left; vm_compute; reflexivity|reflexivity]).
  assert (U2 : exists f, unit_is (map lower_char) Utf8 five_objects 196 f) by (apply (U 196%nat tt); [left; vm_compute; reflexivity|reflexivity]).
  assert (U3 : exists f, unit_is (map lower_char) Utf8 five_objects 212 f) by (apply (U 212%nat tt); [right; vm_compute; reflexivity|reflexivity]).
  destruct (C99_layers _ _ _ _ _ _ _ _ _ _ _ _ _ _ _ _ _ _ _ _ Ff O K16 K1 U1 U2 U3 O1 O2 O3 O4) as (s & d & colour & shades & R & Hs & Sh & _ & Cl).
  exists s, d, colour, shades. split; [exact R|]. destruct Cl as [C1 C2].
    { intros G. specialize (G 0%nat 0%nat ltac:(lia) ltac:(lia)). destruct G; discriminate. }
    split; [exact C1|]. split; [exact C2|]. split; [exact Sh|].
    assert (Sn : sane five_objects 0).
    { split; [apply Z.leb_le; vm_compute; reflexivity|]. split; [apply Z.leb_le; vm_compute; reflexivity|]. split; apply Z.ltb_lt; vm_compute; reflexivity. }
    split.
    { destruct (C99_metadata _ _ _ _ _ _ _ _ Ff Sn R) as [Ec _]. cbv zeta in Ec. rewrite Ec. vm_compute. reflexivity. }
    assert (Lo : lower_ok (map lower_char)).
    { split; [reflexivity|]. intros u c Hc Hu. apply in_map_iff. exists c. split; [|exact Hu]. destruct Hc as [<-|[<-|[<-|[<-|[]]]]]; reflexivity. }
    assert (Tm : text_at Utf8 five_objects 212 16 (str "mm")) by (apply textb_ok; vm_compute; reflexivity).
    assert (F1 : fin64 (single_at five_objects 128)) by (vm_compute; reflexivity).
    assert (F2 : fin64 (single_at five_objects 474)) by (vm_compute; reflexivity).
    assert (Gp : ~ (i16 five_objects 86 = 1 /\ i32 five_objects 100 = 2)).
    { assert (E : i32 five_objects 100 = 9) by (vm_compute; reflexivity). rewrite E. lia. }
    destruct (C99_offset_unit_refuted _ _ _ _ _ _ _ _ _ _ _ _ 0%nat 0%nat Lo Ff Sn R (proj1 O) Tm F1 F2 ltac:(lia) ltac:(lia) eq_refl Gp) as (row & a & Er & Ea & Va & _).
    destruct Hs as (fx & fy & fz & _ & _ & _ & (_ & Tb) & _). destruct (Tb 0%nat ltac:(lia)) as (row' & Er' & _ & Tr).
      rewrite Er in Er'. injection Er' as <-. destruct (Tr 1%nat ltac:(lia)) as (c & Ec & Hc & _).
      exists row, a, c. split; [exact Er|]. split; [exact Ea|]. split; [exact Ec|]. split; [|exact Va].
      apply Hc. split; vm_compute; reflexivity.
Qed.
